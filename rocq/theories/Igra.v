(** Model of /repo/pyrtlib/apiwebservices/igra2.py: wind components, file names, selection of soundings and
    conversion of the fields.  The download and the zip archive are not modelled; the fixed-width reader is in IgraTable.v. *)

From Coq Require Import ZArith List Bool Ascii String.
Import ListNotations.
From Verif Require Import Arith PyBase PyStr.

(** lines 28-45 [get_wind_components] *)
Definition get_wind_components {A : Arith} (speed wdir : car A) : car A * car A :=
  ((- speed * sinf wdir)%A, (- speed * cosf wdir)%A).

(** [datetime] without microseconds and time zones *)
Record datetime := DT { yr : Z; mo : Z; dy : Z; hr : Z; mi : Z; se : Z }.

Local Open Scope Z_scope.
Definition leap (y : Z) : bool := (y mod 4 =? 0) && (negb (y mod 100 =? 0) || (y mod 400 =? 0)).
Definition month_days (y m : Z) : Z :=
  if m =? 2 then (if leap y then 29 else 28) else if (m =? 4) || (m =? 6) || (m =? 9) || (m =? 11) then 30 else 31.
(** [datetime(year, month, day, hour)]: the constructor checks the ranges *)
Definition mk_datetime (y m d h : Z) : result datetime :=
  if (1 <=? y) && (y <=? 9999) && (1 <=? m) && (m <=? 12) && (1 <=? d) && (d <=? month_days y m) && (0 <=? h) && (h <=? 23)
  then Ok (DT y m d h 0 0) else Err ValueError.
(** comparison of two dates, component by component *)
Fixpoint lex_ltb (a b : list Z) : bool :=
  match a, b with
  | x :: a', y :: b' => (x <? y) || ((x =? y) && lex_ltb a' b')
  | _, _ => false
  end.
Definition parts (t : datetime) : list Z := [yr t; mo t; dy t; hr t; mi t; se t].
Definition dt_ltb (a b : datetime) : bool := lex_ltb (parts a) (parts b).
Definition dt_leb (a b : datetime) : bool := negb (dt_ltb b a).

(** lines 100-110 of [request_data] and line 156 of [_get_data_raw]: folder, suffix and path of the archive *)
Definition igra_folder (beg2021 derived : bool) : str :=
  if derived then tx "derived-por/" else if beg2021 then tx "data-y2d/" else tx "data-por/".
Definition igra_suffix (beg2021 derived : bool) : str :=
  let suffix := if beg2021 then [] ++ tx "-data-beg2021.txt" else [] ++ tx "-data.txt" in
  if derived then suffix ++ tx "-drvd.txt" else suffix.
Definition igra_path (site_id : str) (beg2021 derived : bool) : str :=
  igra_folder beg2021 derived ++ site_id ++ igra_suffix beg2021 derived ++ tx ".zip".
(** lines 283, 417 and 469: which column layout, cleaning and units are used *)
Definition igra_derived_layout (suffix : str) : bool := str_eqb suffix (tx "-drvd.txt").

(** lines 190-197: date of a header line *)
Definition header_date (line : str) : result datetime :=
  do f <- mapM py_int (split (str_slice line 13 26));
  match f with
  | [y; m; d; h] => match mk_datetime y m d h with
                    | Ok t => Ok t
                    | Err _ => mk_datetime y m d 0
                    end
  | _ => Err ValueError
  end.

(** lines 187-206: positions, level counts and dates of the headers in the range; stops after the first later header *)
Fixpoint igra_scan (first last : datetime) (idx : nat) (lines : list str) : result (list (nat * Z * datetime)) :=
  match lines with
  | [] => Ok []
  | [] :: _ => Err IndexError
  | ((c :: _) as line) :: rest =>
      if chr_eqb c "#" then
        do date <- header_date line;
        do hit <- (if dt_leb first date && dt_leb date last then do n <- py_int (str_slice line 32 36); Ok [(idx, n, date)] else Ok []);
        if dt_ltb last date then Ok hit else do more <- igra_scan first last (S idx) rest; Ok (hit ++ more)
      else igra_scan first last (S idx) rest
  end.

(** [itertools.compress] *)
Fixpoint compress {T} (l : list T) (sel : list bool) : list T :=
  match l, sel with
  | x :: l', b :: sel' => if b then x :: compress l' sel' else compress l' sel'
  | _, _ => []
  end.

(** [np.repeat(dates, num_lev)]: negative counts raise *)
Fixpoint np_repeat {T} (l : list (Z * T)) : result (list T) :=
  match l with
  | [] => Ok []
  | (n, d) :: l' => if n <? 0 then Err ValueError else do r <- np_repeat l'; Ok (repeat d (Z.to_nat n) ++ r)
  end.

(** lines 175-228 [_select_date_range]: the texts of the body and of the headers, a date per data line, a date per header *)
Definition select_date_range (first last : datetime) (lines : list str) : result (str * str * list datetime * list datetime) :=
  do hits <- igra_scan first last 0 lines;
  match hits with
  | [] => Err ValueError
  | (h0, n0, _) :: _ =>
      let headers := map (fun x => fst (fst x)) hits in
      let begin_idx := fold_right Nat.min h0 headers in
      let end_idx := Z.of_nat (fold_right Nat.max h0 headers) + snd (fst (List.last hits (h0, n0, first))) in
      let n := List.length lines in
      let inside i := Nat.leb (slice_bound n (Z.of_nat begin_idx)) i && Nat.ltb i (slice_bound n (end_idx + 1)) in
      let is_header i := existsb (Nat.eqb i) headers in
      let body_sel := map (fun i => inside i && negb (is_header i)) (seq 0 n) in
      let head_sel := map (fun i => if inside i then negb (inside i && negb (is_header i)) else inside i && negb (is_header i)) (seq 0 n) in
      do dates_long <- np_repeat (map (fun x => (snd (fst x), snd x)) hits);
      Ok (List.concat (compress lines body_sel), List.concat (compress lines head_sel), dates_long, map snd hits)
  end.

Section Fields.
Context {A : Arith}.
Notation num := (car A).
Local Open Scope arith_scope.

(** lines 235-242 [_cdec]: missing values are [None] (nan) *)
Definition cdec (power : Z) (val : str) : result (option num) :=
  if (str_eqb val (tx "-9999") || str_eqb val (tx "-8888") || str_eqb val (tx "-99999"))%bool then Ok None
  else do x <- py_float val; Ok (Some (lit x / lit (Dec (10 ^ power) 1))).

(** lines 244-251 [_cflag] *)
Definition cflag (val : str) : Z := if str_eqb val (tx "A") then 1%Z else if str_eqb val (tx "B") then 2%Z else 0%Z.

(** lines 253-275 [_ctime] for the two formats in use *)
Inductive tformat := MMMSS | HHMM.
Definition ctime (f : tformat) (val : str) : result (option Z) :=
  let time := zfill 5 (strip val) in
  do v <- py_int time;
  if (v <? 0)%Z then Ok None
  else if (v =? 9999)%Z then Ok None
  else match f with
       | MMMSS => do minutes <- py_int (str_slice time 0 3);
                  do seconds <- py_int (str_slice time 3 5);
                  Ok (Some (minutes * 60 + seconds)%Z)
       | HHMM => do hours <- py_int (str_slice time 0 2);
                 do minutes <- py_int (str_slice time 2 4);
                 Ok (Some (hours * 3600 + minutes * 60)%Z)
       end.

(** lines 277-281 [_clatlon] *)
Definition clatlon (x : str) : result num :=
  let n := Z.of_nat (List.length x) in
  let deg := str_slice x 0 (n - 4)%Z in
  let dec := str_slice x (n - 4)%Z n in
  do v <- py_float (deg ++ tx "." ++ dec);
  Ok (lit v).
End Fields.

(** A header line of the archive's format description and what is read from it. *)
Example header_date_example :
  header_date (tx "#SPM00060018 2022 06 22 12 1100  128 ncdc6301 ncdc-gts  284744  -163822") = Ok (DT 2022 6 22 12 0 0) /\
  header_date (tx "#SPM00060018 2022 06 22 99 9999  128 ncdc6301 ncdc-gts  284744  -163822") = Ok (DT 2022 6 22 0 0 0) /\
  py_int (str_slice (tx "#SPM00060018 2022 06 22 12 1100  128 ncdc6301 ncdc-gts  284744  -163822") 32 36) = Ok 128%Z.
Proof. vm_compute. auto. Qed.
