(** Model of the tables of /repo/pyrtlib/apiwebservices/wyomingupperair.py: the levels of a sounding (lines 143-149 of
    [_get_data]) and the list of stations (lines 109-118 of [get_stations]).  The HTML parser is not modelled: the input
    is the text of the first [pre] element, or the [title] attributes of the [area] elements. *)

From Coq Require Import ZArith List Bool Ascii String.
Import ListNotations.
From Verif Require Import Arith PyBase PyStr Igra Web.
Local Open Scope Z_scope.

(** A level: the first six columns (line 143); a missing one is nan. *)
Record wlevel := WLev { w_pressure : option dec; w_height : option dec; w_temperature : option dec; w_dewpoint : option dec; w_rh : option dec; w_mixr : option dec }.

(** A cell of [pd.read_csv]: column [k] of the words of a line, nan if the line has fewer. Simplified: a word that is not
    a decimal number, which would turn the whole column into text, is an error. *)
Definition cell (words : list str) (k : nat) : result (option dec) :=
  match nth_error words k with
  | None => Ok None
  | Some w => do x <- py_float w; Ok (Some x)
  end.
(** line 147: [delim_whitespace=True, usecols=[0, 1, 2, 3, 4, 5]] on one line *)
Definition read_level (line : str) : result wlevel :=
  let words := split line in
  do p <- cell words 0;
  do h <- cell words 1;
  do t <- cell words 2;
  do d <- cell words 3;
  do r <- cell words 4;
  do m <- cell words 5;
  Ok (WLev p h t d r m).
(** blank lines are skipped by [pd.read_csv] *)
Definition blank (line : str) : bool := match split line with [] => true | _ => false end.
(** line 149: [dropna(subset=('temperature', 'dewpoint'), how='any')] *)
Definition has_both (w : wlevel) : bool := match w_temperature w, w_dewpoint w with Some _, Some _ => true | _, _ => false end.
(** lines 147-149: [skiprows=5], [header=None] *)
Definition wyoming_levels (text : str) : result (list wlevel) :=
  let lines := skipn 5 (split_at "010" text) in
  do ls <- mapM read_level (filter (fun l => negb (blank l)) lines);
  Ok (filter has_both ls).

(** lines 109-118: a dictionary from the titles of the map, then its items *)
Fixpoint set_item (k v : str) (d : list (str * str)) : list (str * str) :=
  match d with
  | [] => [(k, v)]
  | (k', v') :: d' => if str_eqb k' k then (k', v) :: d' else (k', v') :: set_item k v d'
  end.
(** [' '.join(l)] *)
Fixpoint join_blank (l : list str) : str := match l with [] => [] | [w] => w | w :: l' => w ++ tx " " ++ join_blank l' end.
Definition station_of (title : str) : str * str :=
  let parts := split_at " " title in
  (nth 0 parts [], strip (join_blank (skipn 1 parts))).
Definition add_station (d : list (str * str)) (t : option str) : list (str * str) :=
  match t with
  | None | Some [] => d
  | Some title => let '(cod, name) := station_of title in set_item cod name d
  end.
Definition stations (titles : list (option str)) : list (str * str) := fold_left add_station titles [].

Example read_level_example :
  read_level (tx " 1000.0    125   15.2   12.4     83   9.13    150      6  288.4  314.6  290.0") =
  Ok (WLev (Some (Dec 10000 10)) (Some (Dec 125 1)) (Some (Dec 152 10)) (Some (Dec 124 10)) (Some (Dec 83 1)) (Some (Dec 913 100))).
Proof. reflexivity. Qed.
Example stations_example : stations [Some (tx "16245  Pratica Di Mare"); None; Some (tx "16320  Brindisi"); Some (tx "16245  Pratica")] = [(tx "16245", tx "Pratica"); (tx "16320", tx "Brindisi")].
Proof. reflexivity. Qed.
