(** Model of the tables returned by /repo/pyrtlib/apiwebservices/igra2.py: reading the fixed-width lines of a station file,
    removing empty levels and joining the dates.  Lines 124-148 [_get_data], 365-413 [_get_fwf_params] (the layout of
    '-data.txt' files; the layout of derived files is not reached, see C79), 441-455 [_clean_body_df].
    The units in [df.attrs] are not modelled. *)

From Coq Require Import ZArith Reals List Bool Ascii String.
Import ListNotations.
From Verif Require Import Arith PyBase PyStr Igra.
Local Open Scope Z_scope.

(** Lines of a text as [pd.read_fwf] sees them: separated by line feeds, empty lines skipped.
    Simplified: lines of blanks, which pandas also skips, are kept. *)
Fixpoint text_lines_from (acc s : str) : list str :=
  match s with
  | [] => match acc with [] => [] | _ => [rev acc] end
  | c :: s' => if chr_eqb c "010" then match acc with [] => text_lines_from [] s' | _ => rev acc :: text_lines_from [] s' end
               else text_lines_from (c :: acc) s'
  end.
Definition text_lines (s : str) : list str := text_lines_from [] s.

(** [line[a:b].strip(delimiter)] of pandas' fixed-width reader. Simplified: every white-space character is stripped. *)
Definition fwf (line : str) (a b : Z) : str := strip (str_slice line a b).

(** A column with the converter [int]: pandas then replaces the [na_values] of line 397 by nan. *)
Definition int_col (val : str) : result (option Z) :=
  do z <- py_int val;
  Ok (if (z =? -8888) || (z =? -9999) then None else Some z).

Section Table.
Context {A : Arith}.
Notation num := (car A).
Local Open Scope arith_scope.

(** lines 366-387: the columns of a data line and their converters *)
Record body_row := Body { b_type1 : option Z; b_type2 : option Z; b_etime : option Z; b_pressure : option num; b_pflag : Z; b_height : option Z; b_zflag : Z;
                          b_temperature : option num; b_tflag : Z; b_rh : option num; b_depression : option num; b_direction : option Z; b_speed : option num }.
Definition read_body (line : str) : result body_row :=
  do t1 <- int_col (fwf line 0 1);
  do t2 <- int_col (fwf line 1 2);
  do et <- ctime MMMSS (fwf line 3 8);
  do pr <- cdec 2 (fwf line 9 15);
  do he <- int_col (fwf line 16 21);
  do te <- cdec 1 (fwf line 22 27);
  do rh <- cdec 1 (fwf line 28 33);
  do dp <- cdec 1 (fwf line 34 39);
  do di <- int_col (fwf line 40 45);
  do sp <- cdec 1 (fwf line 46 51);
  Ok (Body t1 t2 et pr (cflag (fwf line 15 16)) he (cflag (fwf line 21 22)) te (cflag (fwf line 27 28)) rh dp di sp).

(** lines 389-402: the columns of a header line that have converters, and the station.  The other columns are left to
    the type inference of pandas and are not modelled. *)
Record head_row := Head { h_site : str; h_release : option Z; h_levels : Z; h_lat : num; h_lon : num }.
Definition read_head (line : str) : result head_row :=
  do rel <- ctime HHMM (fwf line 27 31);
  do n <- py_int (fwf line 32 36);
  do lat <- clatlon (fwf line 55 62);
  do lon <- clatlon (fwf line 63 71);
  Ok (Head (fwf line 1 12) rel n lat lon).

(** arithmetic on columns: nan if an operand is *)
Definition lift2 {X Y} (f : X -> X -> Y) (a b : option X) : option Y := match a, b with Some x, Some y => Some (f x y) | _, _ => None end.
Definition isna {X} (a : option X) : bool := match a with None => true | Some _ => false end.
Definition degrees (d : option Z) : option num := match d with Some z => Some (lit (Dec z 1) * (pif / lit (Dec 180 1))) | None => None end.

(** A row of the returned table. The column with the dew-point depression, which the code drops (line 453), stays in [o_body]. *)
Record out_row := Out { o_date : datetime; o_body : body_row; o_u : option num; o_v : option num; o_dewpoint : option num }.

(** lines 442-453 of [_clean_body_df]; [rnd] is [np.round(., 1)], any function *)
Definition wind_cols (rnd : num -> num) (r : body_row) : option num * option num :=
  (lift2 (fun s d => rnd (fst (get_wind_components s d))) (b_speed r) (degrees (b_direction r)),
   lift2 (fun s d => rnd (snd (get_wind_components s d))) (b_speed r) (degrees (b_direction r))).
Definition clean_row (rnd : num -> num) (x : datetime * body_row) : list out_row :=
  let '(date, r) := x in
  let '(u, v) := wind_cols rnd r in
  if (isna (b_temperature r) && isna (b_direction r) && isna (b_speed r) && isna (b_depression r) && isna u && isna v)%bool then []
  else [Out date r u v (lift2 (fun t d => t - d) (b_temperature r) (b_depression r))].

(** [df['date'] = dates]: the lengths have to agree *)
Definition join {X Y} (l : list X) (r : list Y) : result (list (X * Y)) := if Nat.eqb (List.length l) (List.length r) then Ok (combine l r) else Err ValueError.

(** lines 124-148 [_get_data] after the download: [lines] are the decoded lines of the station file *)
Definition get_data (rnd : num -> num) (first last : datetime) (lines : list str) : result (list out_row * list (datetime * head_row)) :=
  do sel <- select_date_range first last lines;
  let '(body, header, dates_long, dates) := sel in
  do rows <- mapM read_body (text_lines body);
  do heads <- mapM read_head (text_lines header);
  do dated <- join dates_long rows;
  let table := flat_map (clean_row rnd) dated in
  do hs <- join dates heads;
  Ok (table, hs).
End Table.
Arguments body_row : clear implicits. Arguments head_row : clear implicits. Arguments out_row : clear implicits.

(** A data line of the archive. *)
Example read_body_example :
  read_body (A:=RA) (tx "21 -9999 101300     9B  240B  780   40    50    31") =
  Ok (Body (A:=RA) (Some 2) (Some 1) None (Some (IZR 101300 / 1 / (100 / 1))%R) 0 (Some 9) 2 (Some (IZR 240 / 1 / (10 / 1))%R) 2 (Some (IZR 780 / 1 / (10 / 1))%R)
           (Some (IZR 40 / 1 / (10 / 1))%R) (Some 50) (Some (IZR 31 / 1 / (10 / 1))%R)).
Proof. reflexivity. Qed.
