(** Claims C74 and C75: selection of soundings from an IGRA2 station file. *)

From Coq Require Import ZArith Lia List Bool Ascii String Sorting.Sorted.
Import ListNotations.
From Verif Require Import Arith PyBase PyStr StrAux Igra.

(** ** Specification: station files *)

(** The fields of a sounding: the header columns and the data lines. *)
Record sounding := Snd { s_id : str; s_y : Z; s_m : Z; s_d : Z; s_h : Z; s_rel : str; s_tail : str; s_rows : list str }.

(** Header line as the archive's format description lays it out. *)
Definition head_text (s : sounding) : str :=
  tx "#" ++ s_id s ++ tx " " ++ pad4 (s_y s) ++ tx " " ++ pad2 (s_m s) ++ tx " " ++ pad2 (s_d s) ++ tx " " ++ pad2 (s_h s) ++ tx " " ++
  s_rel s ++ tx " " ++ just4 (Z.of_nat (List.length (s_rows s))) ++ s_tail s.
Definition lines_of (s : sounding) : list str := head_text s :: s_rows s.
Definition file_lines (l : list sounding) : list str := List.concat (map lines_of l).
(** Time of a sounding; hour 99 means unknown. *)
Definition time_of (s : sounding) : datetime := DT (s_y s) (s_m s) (s_d s) (if (s_h s <=? 23)%Z then s_h s else 0%Z) 0 0.

Definition data_line (r : str) : Prop := match r with [] => False | c :: _ => c <> "#"%char end.
Record valid (s : sounding) : Prop := {
  v_id : List.length (s_id s) = 11%nat;
  v_rel : List.length (s_rel s) = 4%nat;
  v_y : (1 <= s_y s <= 9999)%Z;
  v_m : (1 <= s_m s <= 12)%Z;
  v_d : (1 <= s_d s <= month_days (s_y s) (s_m s))%Z;
  v_h : (0 <= s_h s <= 99)%Z;
  v_n : (Z.of_nat (List.length (s_rows s)) <= 9999)%Z;
  v_rows : Forall data_line (s_rows s) }.

(** A number that orders dates. *)
Definition key (t : datetime) : Z := (((((yr t * 13 + mo t) * 32 + dy t) * 24 + hr t) * 60 + mi t) * 60 + se t)%Z.
Definition wf_time (t : datetime) : Prop := (0 <= mo t <= 12 /\ 0 <= dy t <= 31 /\ 0 <= hr t <= 23 /\ 0 <= mi t <= 59 /\ 0 <= se t <= 59)%Z.
Definition in_range (b e : datetime) (s : sounding) : bool := (key b <=? key (time_of s))%Z && (key (time_of s) <=? key e)%Z.
Definition later (e : datetime) (s : sounding) : bool := (key e <? key (time_of s))%Z.

(** ** Dates *)

Lemma lex_step M x y k1 k2 (c : bool) : (0 <= k1 < M)%Z -> (0 <= k2 < M)%Z -> c = (k1 <? k2)%Z -> ((x <? y) || (x =? y) && c)%Z%bool = (x * M + k1 <? y * M + k2)%Z.
Proof.
  intros H1 H2 ->. destruct (Z.ltb_spec x y) as [L|L]; cbn [orb].
  - symmetry. apply Z.ltb_lt. nia.
  - destruct (Z.eqb_spec x y) as [->|N]; cbn [andb]; [destruct (Z.ltb_spec k1 k2); symmetry; [apply Z.ltb_lt|apply Z.ltb_ge]; lia|]. symmetry. apply Z.ltb_ge. nia.
Qed.
Lemma dt_ltb_key a b : wf_time a -> wf_time b -> dt_ltb a b = (key a <? key b)%Z.
Proof.
  intros (A1 & A2 & A3 & A4 & A5) (B1 & B2 & B3 & B4 & B5). unfold dt_ltb, parts. cbn [lex_ltb].
  assert (E1 : ((se a <? se b) || (se a =? se b) && false)%Z%bool = (se a <? se b)%Z) by (rewrite andb_false_r; apply orb_false_r). rewrite E1.
  rewrite (lex_step 60 (mi a) (mi b) (se a) (se b)) by (auto; lia).
  rewrite (lex_step 3600 (hr a) (hr b) (mi a * 60 + se a) (mi b * 60 + se b)) by (auto; lia).
  rewrite (lex_step 86400 (dy a) (dy b) (hr a * 3600 + (mi a * 60 + se a)) (hr b * 3600 + (mi b * 60 + se b))) by (auto; lia).
  rewrite (lex_step (32 * 86400) (mo a) (mo b) (dy a * 86400 + (hr a * 3600 + (mi a * 60 + se a))) (dy b * 86400 + (hr b * 3600 + (mi b * 60 + se b)))) by (auto; lia).
  rewrite (lex_step (13 * 32 * 86400) (yr a) (yr b) (mo a * (32 * 86400) + (dy a * 86400 + (hr a * 3600 + (mi a * 60 + se a)))) (mo b * (32 * 86400) + (dy b * 86400 + (hr b * 3600 + (mi b * 60 + se b))))) by (auto; lia).
  unfold key. f_equal; ring.
Qed.
Lemma dt_leb_key a b : wf_time a -> wf_time b -> dt_leb a b = (key a <=? key b)%Z.
Proof. intros A B. unfold dt_leb. rewrite dt_ltb_key by auto. rewrite Z.leb_antisym. reflexivity. Qed.
Lemma month_days_31 y m : (month_days y m <= 31)%Z.
Proof. unfold month_days. repeat match goal with |- context [if ?b then _ else _] => destruct b end; lia. Qed.
Lemma time_wf s : valid s -> wf_time (time_of s).
Proof.
  intros V. assert (D := month_days_31 (s_y s) (s_m s)). destruct V as [_ _ V1 V2 V3 V4 _ _]. unfold wf_time, time_of; cbn. repeat split; try lia; destruct (Z.leb_spec (s_h s) 23); lia.
Qed.

(** ** Reading a header *)

Lemma cut_at {T} (l m r : list T) a b : a = List.length l -> b = (List.length l + List.length m)%nat -> py_slice (l ++ m ++ r) (Z.of_nat a) (Z.of_nat b) = m.
Proof. intros -> ->. apply py_slice_app. Qed.

Lemma header_read s : valid s ->
  header_date (head_text s) = Ok (time_of s) /\ py_int (str_slice (head_text s) 32 36) = Ok (Z.of_nat (List.length (s_rows s))) /\ exists t, head_text s = "#"%char :: t.
Proof.
  intros [V1 V2 V3 V4 V5 V6 V7 _]. assert (HJ := just4_int (Z.of_nat (List.length (s_rows s))) ltac:(lia)).
  split; [|split; [|eexists; reflexivity]].
  - unfold header_date.
    assert (E : str_slice (head_text s) 13 26 = pad4 (s_y s) ++ " "%char :: pad2 (s_m s) ++ " "%char :: pad2 (s_d s) ++ " "%char :: pad2 (s_h s)).
    { change 13%Z with (Z.of_nat 13). change 26%Z with (Z.of_nat 26).
      replace (head_text s) with ((tx "#" ++ s_id s ++ tx " ") ++ (pad4 (s_y s) ++ " "%char :: pad2 (s_m s) ++ " "%char :: pad2 (s_d s) ++ " "%char :: pad2 (s_h s)) ++
          tx " " ++ s_rel s ++ tx " " ++ just4 (Z.of_nat (List.length (s_rows s))) ++ s_tail s) by (unfold head_text; rewrite <- !app_assoc; reflexivity).
      apply cut_at; cbn; rewrite !app_length; cbn; lia. }
    rewrite E.
    rewrite split_cons, split_cons, split_cons, split_last; try (apply digits_solid; first [apply pad2_digits|apply pad4_digits]); try discriminate.
    cbn [mapM]. rewrite (py_int_digits0 (pad4 _)), !(py_int_digits0 (pad2 _)); try apply pad2_digits; try apply pad4_digits; try discriminate. cbn [bind].
    assert (D := month_days_31 (s_y s) (s_m s)). rewrite pad4_val, !pad2_val by lia. unfold time_of, mk_datetime.
    destruct (Z.leb_spec 1 (s_y s)); [|lia]. destruct (Z.leb_spec (s_y s) 9999); [|lia]. destruct (Z.leb_spec 1 (s_m s)); [|lia]. destruct (Z.leb_spec (s_m s) 12); [|lia].
    destruct (Z.leb_spec 1 (s_d s)); [|lia]. destruct (Z.leb_spec (s_d s) (month_days (s_y s) (s_m s))); [|lia]. destruct (Z.leb_spec 0 (s_h s)); [|lia].
    destruct (Z.leb_spec (s_h s) 23); reflexivity.
  - change 32%Z with (Z.of_nat 32). change 36%Z with (Z.of_nat 36).
    replace (head_text s) with ((tx "#" ++ s_id s ++ tx " " ++ pad4 (s_y s) ++ tx " " ++ pad2 (s_m s) ++ tx " " ++ pad2 (s_d s) ++ tx " " ++ pad2 (s_h s) ++ tx " " ++ s_rel s ++ tx " ") ++
        just4 (Z.of_nat (List.length (s_rows s))) ++ s_tail s) by (unfold head_text; rewrite <- !app_assoc; reflexivity).
    unfold str_slice. rewrite cut_at; [apply HJ| |]; rewrite !app_length, ?(proj2 HJ), V1, V2; reflexivity.
Qed.

(** ** The scan *)

Definition n_lines (l : list sounding) : nat := List.length (file_lines l).
Lemma n_lines_cons s l : n_lines (s :: l) = (S (List.length (s_rows s)) + n_lines l)%nat.
Proof. unfold n_lines, file_lines. cbn [map List.concat]. rewrite app_length. reflexivity. Qed.
Lemma file_lines_app l m : file_lines (l ++ m) = file_lines l ++ file_lines m.
Proof. unfold file_lines. rewrite map_app. apply concat_app. Qed.
Lemma n_lines_app l m : n_lines (l ++ m) = (n_lines l + n_lines m)%nat.
Proof. unfold n_lines. rewrite file_lines_app. apply app_length. Qed.

Fixpoint hits (b e : datetime) (idx : nat) (l : list sounding) : list (nat * Z * datetime) :=
  match l with
  | [] => []
  | s :: l' => (if in_range b e s then [(idx, Z.of_nat (List.length (s_rows s)), time_of s)] else []) ++ hits b e (idx + S (List.length (s_rows s))) l'
  end.
Lemma hits_app b e idx l m : hits b e idx (l ++ m) = hits b e idx l ++ hits b e (idx + n_lines l) m.
Proof.
  revert idx. induction l as [|s l IH]; intros idx; [cbn; rewrite Nat.add_0_r; reflexivity|]. cbn [app hits]. rewrite IH, n_lines_cons, <- app_assoc. do 3 f_equal. lia.
Qed.
Lemma hits_none b e idx l : Forall (fun s => in_range b e s = false) l -> hits b e idx l = [].
Proof. intros H. revert idx. induction H as [|s l Hs H IH]; intros idx; [reflexivity|]. cbn [hits]. rewrite Hs, IH. reflexivity. Qed.

Lemma scan_rows b e idx rows rest : Forall data_line rows -> igra_scan b e idx (rows ++ rest) = igra_scan b e (idx + List.length rows) rest.
Proof.
  intros H. revert idx. induction H as [|r rows Hr H IH]; intros idx; [cbn; rewrite Nat.add_0_r; reflexivity|].
  destruct r as [|c r]; [destruct Hr|]. cbn [app igra_scan List.length]. unfold chr_eqb. destruct (Ascii.eqb_spec c "#"); [contradiction|]. rewrite IH. f_equal. lia.
Qed.

Section Scan.
Variables (b e : datetime).
Hypotheses (Wb : wf_time b) (We : wf_time e).

Lemma scan_sounding idx s rest : valid s ->
  igra_scan b e idx (lines_of s ++ rest) =
    (if later e s then Ok (hits b e idx [s]) else do more <- igra_scan b e (idx + S (List.length (s_rows s))) rest; Ok (hits b e idx [s] ++ more)).
Proof.
  intros V. destruct (header_read s V) as (H1 & H2 & t & H3). unfold lines_of. cbn [app]. rewrite H3 in *. cbn [igra_scan]. change (chr_eqb "#" "#") with true. cbv iota.
  rewrite H1. cbn [bind]. rewrite !dt_leb_key, dt_ltb_key by (auto using time_wf). fold (in_range b e s) (later e s). rewrite H2. cbn [bind hits].
  rewrite scan_rows by apply V. rewrite !app_nil_r. replace (S idx + List.length (s_rows s))%nat with (idx + S (List.length (s_rows s)))%nat by lia.
  destruct (in_range b e s); cbn [bind]; reflexivity.
Qed.

Lemma scan_file idx l r : Forall valid l -> Forall (fun s => later e s = false) l -> (match r with [] => True | s :: _ => valid s /\ later e s = true end) ->
  igra_scan b e idx (file_lines (l ++ r)) = Ok (hits b e idx l).
Proof.
  intros V H Hr. revert idx. induction l as [|s l IH]; intros idx.
  - destruct r as [|s r]; [reflexivity|]. destruct Hr as [Vs Ls]. cbn [app]. unfold file_lines. cbn [map List.concat]. rewrite scan_sounding, Ls by exact Vs.
    assert (N : in_range b e s = false) by (unfold in_range, later in *; apply andb_false_iff; right; apply Z.ltb_lt in Ls; apply Z.leb_gt; exact Ls).
    cbn [hits]. rewrite N. reflexivity.
  - cbn [app]. unfold file_lines. cbn [map List.concat]. rewrite scan_sounding by (apply (Forall_inv V)). rewrite (Forall_inv H).
    fold (file_lines (l ++ r)). rewrite IH by (eapply Forall_inv_tail; eauto). cbn [bind hits]. rewrite app_nil_r. reflexivity.
Qed.

(** ** Positions of the headers found *)

Definition pos (h : list (nat * Z * datetime)) : list nat := map (fun x => fst (fst x)) h.
Lemma pos_range idx l i : In i (pos (hits b e idx l)) -> (idx <= i < idx + n_lines l)%nat.
Proof.
  revert idx. induction l as [|s l IH]; intros idx H; [destruct H|]. cbn [hits] in H. unfold pos in H. rewrite map_app in H. apply in_app_or in H. rewrite n_lines_cons.
  destruct H as [H|H]; [destruct (in_range b e s); cbn in H; [|contradiction]; destruct H as [<-|[]]; lia|]. apply IH in H. lia.
Qed.
Lemma fold_min x l : Forall (fun i => (x <= i)%nat) l -> fold_right Nat.min x l = x.
Proof. intros H. induction H as [|i l Hi H IH]; [reflexivity|]. cbn. rewrite IH. lia. Qed.
Lemma fold_max_last d x l : (d <= x)%nat -> Forall (fun i => (i <= x)%nat) l -> fold_right Nat.max d (l ++ [x]) = x.
Proof. intros Hd H. induction H as [|i l Hi H IH]; [cbn; lia|]. cbn [app fold_right]. rewrite IH. lia. Qed.

(** ** Selecting lines *)

Lemma compress_app {T} (l m : list T) (f : nat -> bool) k :
  compress (l ++ m) (map f (seq k (List.length (l ++ m)))) = compress l (map f (seq k (List.length l))) ++ compress m (map f (seq (k + List.length l) (List.length m))).
Proof.
  revert k. induction l as [|x l IH]; intros k; [cbn; rewrite Nat.add_0_r; reflexivity|]. cbn [app List.length seq map compress]. rewrite IH.
  replace (S k + List.length l)%nat with (k + S (List.length l))%nat by lia. destruct (f k); reflexivity.
Qed.
Lemma compress_all {T} (l : list T) (f : nat -> bool) k : (forall i, (k <= i < k + List.length l)%nat -> f i = true) -> compress l (map f (seq k (List.length l))) = l.
Proof.
  revert k. induction l as [|x l IH]; intros k H; [reflexivity|]. cbn [List.length seq map compress]. rewrite H by (cbn; lia). f_equal. apply IH. intros i Hi. apply H. cbn. lia.
Qed.
Lemma compress_none {T} (l : list T) (f : nat -> bool) k : (forall i, (k <= i < k + List.length l)%nat -> f i = false) -> compress l (map f (seq k (List.length l))) = [].
Proof.
  revert k. induction l as [|x l IH]; intros k H; [reflexivity|]. cbn [List.length seq map compress]. rewrite H by (cbn; lia). apply IH. intros i Hi. apply H. cbn. lia.
Qed.

Definition kept (s : sounding) : list str := if in_range b e s then s_rows s else lines_of s.
Lemma compress_hits idx l (f g : nat -> bool) :
  (forall i, (idx <= i < idx + n_lines l)%nat -> f i = negb (existsb (Nat.eqb i) (pos (hits b e idx l))) /\ g i = existsb (Nat.eqb i) (pos (hits b e idx l))) ->
  compress (file_lines l) (map f (seq idx (n_lines l))) = List.concat (map kept l) /\
  compress (file_lines l) (map g (seq idx (n_lines l))) = map head_text (filter (in_range b e) l).
Proof.
  revert idx. induction l as [|s l IH]; intros idx H; [split; reflexivity|].
  assert (Tail : forall i, (idx + S (List.length (s_rows s)) <= i < idx + S (List.length (s_rows s)) + n_lines l)%nat ->
    existsb (Nat.eqb i) (pos (hits b e idx (s :: l))) = existsb (Nat.eqb i) (pos (hits b e (idx + S (List.length (s_rows s))) l))).
  { intros i Hi. cbn [hits]. unfold pos. rewrite map_app, existsb_app. destruct (in_range b e s); [|reflexivity]. cbn [map existsb fst]. destruct (Nat.eqb_spec i idx); [lia|reflexivity]. }
  assert (Rows : forall i, (idx < i < idx + S (List.length (s_rows s)))%nat -> existsb (Nat.eqb i) (pos (hits b e idx (s :: l))) = false).
  { intros i Hi. destruct (existsb (Nat.eqb i) (pos (hits b e idx (s :: l)))) eqn:E; [|reflexivity]. apply existsb_exists in E. destruct E as (j & Hj & E). apply Nat.eqb_eq in E. subst j.
    cbn [hits] in Hj. unfold pos in Hj. rewrite map_app in Hj. apply in_app_or in Hj. destruct Hj as [Hj|Hj]; [destruct (in_range b e s); cbn in Hj; [|contradiction]; destruct Hj as [<-|[]]; lia|].
    apply pos_range in Hj. lia. }
  assert (Head : existsb (Nat.eqb idx) (pos (hits b e idx (s :: l))) = in_range b e s).
  { cbn [hits]. unfold pos. rewrite map_app, existsb_app. destruct (in_range b e s); [cbn; rewrite Nat.eqb_refl; reflexivity|]. cbn [map existsb orb].
    destruct (existsb _ _) eqn:E; [|reflexivity]. apply existsb_exists in E. destruct E as (j & Hj & E). apply Nat.eqb_eq in E. subst j. apply pos_range in Hj. lia. }
  destruct (IH (idx + S (List.length (s_rows s)))%nat) as [I1 I2].
  { intros i Hi. rewrite <- Tail by exact Hi. apply H. rewrite n_lines_cons. lia. }
  assert (Hr : forall i, (S idx <= i < S idx + List.length (s_rows s))%nat -> f i = true /\ g i = false).
  { intros i Hi. destruct (H i) as [-> ->]; [rewrite n_lines_cons; lia|]. rewrite Rows by lia. auto. }
  assert (Hh := H idx ltac:(rewrite n_lines_cons; lia)). rewrite Head in Hh. destruct Hh as [Hf Hg].
  assert (EL : n_lines (s :: l) = List.length (lines_of s ++ file_lines l)) by reflexivity.
  assert (ET : file_lines (s :: l) = lines_of s ++ file_lines l) by reflexivity.
  rewrite EL, ET. rewrite !compress_app.
  change (List.length (lines_of s)) with (S (List.length (s_rows s))). fold (n_lines l). rewrite I1, I2.
  unfold lines_of. cbn [seq map compress]. rewrite Hf, Hg, compress_all, (compress_none (s_rows s) g) by (intros i Hi; apply Hr, Hi). cbn [map List.concat filter].
  unfold kept. destruct (in_range b e s); split; reflexivity.
Qed.

Lemma repeat_hits idx l : np_repeat (map (fun x => (snd (fst x), snd x)) (hits b e idx l)) =
  Ok (List.concat (map (fun s => repeat (time_of s) (List.length (s_rows s))) (filter (in_range b e) l))) /\ map snd (hits b e idx l) = map time_of (filter (in_range b e) l).
Proof.
  revert idx. induction l as [|s l IH]; intros idx; [split; reflexivity|]. cbn [hits filter]. specialize (IH (idx + S (List.length (s_rows s)))%nat). destruct IH as [I1 I2].
  destruct (in_range b e s); [|split; [exact I1|exact I2]]. cbn [app map np_repeat fst snd List.concat]. rewrite I1, I2. cbn [bind].
  destruct (Z.ltb_spec (Z.of_nat (List.length (s_rows s))) 0); [lia|]. rewrite Nat2Z.id. split; reflexivity.
Qed.

(** What is returned for any file, in any order: from the first sounding in the range to the last one before
    the first late one, everything except the headers of soundings in the range. *)
Theorem C75_exact p m q r : Forall valid (p ++ m ++ q) -> Forall (fun s => later e s = false) (p ++ m ++ q) ->
  (match r with [] => True | s :: _ => valid s /\ later e s = true end) ->
  Forall (fun s => in_range b e s = false) (p ++ q) -> m <> [] -> (forall s d, in_range b e (hd s m) = true /\ in_range b e (List.last m d) = true) ->
  select_date_range b e (file_lines (p ++ m ++ q ++ r)) =
    Ok (List.concat (List.concat (map kept m)), List.concat (map head_text (filter (in_range b e) m)),
        List.concat (map (fun s => repeat (time_of s) (List.length (s_rows s))) (filter (in_range b e) m)), map time_of (filter (in_range b e) m)).
Proof.
  intros V Lt Hr Out Hne Ends. unfold select_date_range.
  replace (p ++ m ++ q ++ r) with ((p ++ m ++ q) ++ r) by (rewrite <- !app_assoc; reflexivity). rewrite scan_file by auto. cbn [bind].
  apply Forall_app in Out. destruct Out as [Op Oq]. rewrite !hits_app, (hits_none _ _ _ p Op), (hits_none _ _ _ q Oq), app_nil_r. cbn [app Nat.add].
  set (N := n_lines p).
  destruct m as [|s0 m0]; [congruence|]. assert (F0 : in_range b e s0 = true) by (apply (Ends s0 s0)).
  destruct (@exists_last _ (s0 :: m0) Hne) as (m1 & sl & Em). assert (Fl : in_range b e sl = true) by (destruct (Ends s0 s0) as [_ Q]; rewrite Em, last_last in Q; exact Q).
  assert (HH : hits b e N (s0 :: m0) = hits b e N m1 ++ [((N + n_lines m1)%nat, Z.of_nat (List.length (s_rows sl)), time_of sl)]) by (rewrite Em, hits_app; cbn [hits]; rewrite Fl; reflexivity).
  assert (Hc : hits b e N (s0 :: m0) = (N, Z.of_nat (List.length (s_rows s0)), time_of s0) :: hits b e (N + S (List.length (s_rows s0))) m0) by (cbn [hits]; rewrite F0; reflexivity).
  assert (RH := repeat_hits N (s0 :: m0)). assert (CH := compress_hits N (s0 :: m0)). 
  assert (NM : n_lines (s0 :: m0) = (n_lines m1 + S (List.length (s_rows sl)))%nat) by (rewrite Em, n_lines_app, n_lines_cons; unfold n_lines at 2; cbn; lia).
  assert (Pmin : fold_right Nat.min N (map (fun x => fst (fst x)) (hits b e N (s0 :: m0))) = N).
  { apply fold_min. apply Forall_forall. intros i Hi. apply (pos_range N (s0 :: m0)) in Hi. lia. }
  assert (Pmax : fold_right Nat.max N (map (fun x => fst (fst x)) (hits b e N (s0 :: m0))) = (N + n_lines m1)%nat).
  { rewrite HH, map_app. cbn [map fst]. apply fold_max_last; [lia|]. apply Forall_forall. intros i Hi. apply (pos_range N m1) in Hi. lia. }
  assert (Pl : snd (fst (List.last (hits b e N (s0 :: m0)) (N, Z.of_nat (List.length (s_rows s0)), b))) = Z.of_nat (List.length (s_rows sl))) by (rewrite HH, last_last; reflexivity).
  rewrite Hc at 1. cbv iota beta. rewrite Pmin, Pmax, Pl. clear Pmin Pmax Pl. rewrite (proj1 RH), (proj2 RH). cbn [bind].
  set (H := map (fun x => fst (fst x)) (hits b e N (s0 :: m0))) in *. change (pos (hits b e N (s0 :: m0))) with H in CH.
  assert (HL : List.length (file_lines (((p ++ (s0 :: m0) ++ q) ++ r))) = (N + n_lines (s0 :: m0) + n_lines (q ++ r))%nat) by (fold (n_lines ((p ++ (s0 :: m0) ++ q) ++ r)); rewrite !n_lines_app; unfold N; lia).
  assert (S1 : slice_bound (List.length (file_lines ((p ++ (s0 :: m0) ++ q) ++ r))) (Z.of_nat N) = N).
  { rewrite HL. unfold slice_bound. destruct (Z.ltb_spec (Z.of_nat N) 0); [lia|]. rewrite Z.min_l, Nat2Z.id by lia. reflexivity. }
  assert (S2 : slice_bound (List.length (file_lines ((p ++ (s0 :: m0) ++ q) ++ r))) (Z.of_nat (N + n_lines m1) + Z.of_nat (List.length (s_rows sl)) + 1) = (N + n_lines (s0 :: m0))%nat).
  { rewrite HL. unfold slice_bound. destruct (Z.ltb_spec (Z.of_nat (N + n_lines m1) + Z.of_nat (List.length (s_rows sl)) + 1) 0); [lia|]. lia. }
  rewrite S1, S2. clear S1 S2.
  replace ((p ++ (s0 :: m0) ++ q) ++ r) with (p ++ (s0 :: m0) ++ (q ++ r)) by (rewrite <- !app_assoc; reflexivity). rewrite (file_lines_app p), (file_lines_app (s0 :: m0)).
  assert (Split : forall f : nat -> bool, (forall i, (i < N \/ N + n_lines (s0 :: m0) <= i)%nat -> f i = false) ->
    compress (file_lines p ++ file_lines (s0 :: m0) ++ file_lines (q ++ r)) (map f (seq 0 (List.length (file_lines p ++ file_lines (s0 :: m0) ++ file_lines (q ++ r))))) =
    compress (file_lines (s0 :: m0)) (map f (seq N (n_lines (s0 :: m0))))).
  { intros f Hf. rewrite !compress_app. fold (n_lines p) (n_lines (s0 :: m0)). fold N. rewrite (compress_none (file_lines p)), (compress_none (file_lines (q ++ r))).
    - rewrite app_nil_r. reflexivity.
    - intros i Hi. apply Hf. lia.
    - intros i Hi. apply Hf. left. unfold N, n_lines. lia. }
  rewrite !Split.
  - match goal with |- Ok (List.concat (compress _ (map ?f _)), List.concat (compress _ (map ?g _)), _, _) = _ => destruct (CH f g) as [C1 C2] end; [|rewrite C1, C2; reflexivity].
    intros i Hi. cbv beta. rewrite (proj2 (Nat.leb_le N i)), (proj2 (Nat.ltb_lt i (N + n_lines (s0 :: m0)))) by lia. cbn [andb]. split; [reflexivity|apply negb_involutive].
  - intros i Hi. destruct (Nat.leb_spec N i), (Nat.ltb_spec i (N + n_lines (s0 :: m0))); cbn [andb]; try reflexivity; lia.
  - intros i Hi. destruct (Nat.leb_spec N i), (Nat.ltb_spec i (N + n_lines (s0 :: m0))); cbn [andb]; try reflexivity; lia.
Qed.
End Scan.

(** ** C74: files sorted by time *)

Definition sorted_file (l : list sounding) : Prop := StronglySorted (fun s t => (key (time_of s) <= key (time_of t))%Z) l.
Definition earlier (b : datetime) (s : sounding) : bool := (key (time_of s) <? key b)%Z.

Lemma split_later e l : exists u r, l = u ++ r /\ Forall (fun s => later e s = false) u /\ match r with [] => True | s :: _ => later e s = true end.
Proof.
  induction l as [|s l (u & r & -> & Hu & Hr)]; [exists [], []; auto|]. destruct (later e s) eqn:E; [exists [], (s :: u ++ r); auto|].
  exists (s :: u), r. auto.
Qed.
Lemma filter_nil {T} (f : T -> bool) l : Forall (fun s => f s = false) l -> filter f l = [].
Proof. intros H. induction H as [|s l Hs H IH]; [reflexivity|]. cbn. rewrite Hs. exact IH. Qed.
Lemma filter_Forall {T} (f : T -> bool) l : Forall (fun s => f s = true) (filter f l).
Proof. apply Forall_forall. intros x Hx. apply filter_In in Hx. apply Hx. Qed.
Lemma Forall_filter {T} (P : T -> Prop) (f : T -> bool) l : Forall P l -> Forall P (filter f l).
Proof. rewrite !Forall_forall. intros H x Hx. apply filter_In in Hx. apply H, Hx. Qed.

(** No sounding in the range: an error, whatever the order. *)
Lemma none_raises b e l : wf_time b -> wf_time e -> Forall valid l -> Forall (fun s => in_range b e s = false) l -> select_date_range b e (file_lines l) = Err ValueError.
Proof.
  intros Wb We V O. destruct (split_later e l) as (u & r & -> & Hu & Hr). apply Forall_app in V, O. destruct V as [Vu Vr], O as [Ou _].
  unfold select_date_range. rewrite scan_file; auto; [rewrite hits_none by exact Ou; reflexivity|]. destruct r as [|s r]; [exact I|]. split; [apply (Forall_inv Vr)|exact Hr].
Qed.

Lemma sorted_three b e l : (key b <= key e)%Z -> sorted_file l -> l = filter (earlier b) l ++ filter (in_range b e) l ++ filter (later e) l.
Proof.
  intros Hbe H. induction H as [|s l H IH F]; [reflexivity|]. cbn [filter]. rewrite Forall_forall in F.
  assert (E : earlier b s = (key (time_of s) <? key b)%Z) by reflexivity. assert (L : later e s = (key e <? key (time_of s))%Z) by reflexivity.
  assert (G : in_range b e s = ((key b <=? key (time_of s))%Z && (key (time_of s) <=? key e)%Z)) by reflexivity. rewrite E, L, G. clear E L G.
  destruct (Z.ltb_spec (key (time_of s)) (key b)), (Z.leb_spec (key b) (key (time_of s))), (Z.leb_spec (key (time_of s)) (key e)), (Z.ltb_spec (key e) (key (time_of s))); try lia; cbn [andb].
  - cbn [app]. f_equal. exact IH.
  - assert (Z1 : filter (earlier b) l = []) by (apply filter_nil, Forall_forall; intros x Hx; apply Z.ltb_ge; specialize (F x Hx); lia). rewrite Z1 in *. cbn [app] in *. f_equal. exact IH.
  - assert (Z1 : filter (earlier b) l = []) by (apply filter_nil, Forall_forall; intros x Hx; apply Z.ltb_ge; specialize (F x Hx); lia).
    assert (Z2 : filter (in_range b e) l = []) by (apply filter_nil, Forall_forall; intros x Hx; apply andb_false_iff; right; apply Z.leb_gt; specialize (F x Hx); lia).
    rewrite Z1, Z2 in *. cbn [app] in *. f_equal. exact IH.
Qed.

(** Exactly the soundings of the range: their data lines, their headers, a date per data line and a date per
    header; none is an error. *)
Theorem C74_selection b e l : wf_time b -> wf_time e -> Forall valid l -> sorted_file l ->
  let sel := filter (in_range b e) l in
  select_date_range b e (file_lines l) =
    match sel with
    | [] => Err ValueError
    | _ => Ok (List.concat (List.concat (map s_rows sel)), List.concat (map head_text sel),
               List.concat (map (fun s => repeat (time_of s) (List.length (s_rows s))) sel), map time_of sel)
    end.
Proof.
  intros Wb We V Srt sel. destruct sel as [|s0 sel0] eqn:Es.
  - apply none_raises; auto. apply Forall_forall. intros x Hx. destruct (in_range b e x) eqn:E; [|reflexivity].
    assert (Q : In x sel) by (apply filter_In; auto). rewrite Es in Q. destruct Q.
  - assert (F := filter_Forall (in_range b e) l). fold sel in F. assert (Vs : Forall valid sel) by (apply Forall_filter, V).
    assert (Hbe : (key b <= key e)%Z) by (rewrite Es in F; apply Forall_inv in F; unfold in_range in F; lia).
    assert (D := sorted_three b e l Hbe Srt). fold sel in D. set (p := filter (earlier b) l) in *. set (r := filter (later e) l) in *.
    assert (Fp : Forall (fun s => earlier b s = true) p) by apply filter_Forall. assert (Fr : Forall (fun s => later e s = true) r) by apply filter_Forall.
    assert (Vp : Forall valid p) by (apply Forall_filter, V). assert (Vr : Forall valid r) by (apply Forall_filter, V). clearbody p r.
    assert (Q := C75_exact b e Wb We p sel [] r). rewrite app_nil_l, !app_nil_r in Q. rewrite D, Q; clear Q.
    + assert (I : filter (in_range b e) sel = sel) by (clear -F; induction F as [|x u Hx F IH]; [reflexivity|]; cbn; rewrite Hx, IH; reflexivity).
      assert (K : map (kept b e) sel = map s_rows sel) by (apply map_ext_in; intros x Hx; rewrite Forall_forall in F; unfold kept; rewrite (F x Hx); reflexivity).
      rewrite I, K, Es. reflexivity.
    + apply Forall_app. auto.
    + apply Forall_app. split; [revert Fp|revert F]; apply Forall_impl; intros s; unfold earlier, in_range, later; intros H; apply Z.ltb_ge; lia.
    + destruct r as [|s r]; [exact I|]. split; [apply (Forall_inv Vr)|apply (Forall_inv Fr)].
    + revert Fp. apply Forall_impl. intros s. unfold earlier, in_range. intros H. apply andb_false_iff. left. apply Z.leb_gt. lia.
    + rewrite Es. discriminate.
    + intros s d. rewrite Es in *. split; [apply (Forall_inv F)|]. rewrite Forall_forall in F. apply F.
      destruct (@exists_last _ (s0 :: sel0)) as (a & z & E); [discriminate|]. rewrite E, last_last. apply in_or_app. right. left. reflexivity.
Qed.

(** A date per data line: the two columns joined by [df_body['date'] = dates_long] fit. *)
Theorem C74_dates_fit b e l : wf_time b -> wf_time e -> Forall valid l -> sorted_file l -> forall body head dl ds,
  select_date_range b e (file_lines l) = Ok (body, head, dl, ds) ->
  exists rows, body = List.concat rows /\ List.length dl = List.length rows /\ (forall r, In r rows -> exists s, In s l /\ In r (s_rows s)) /\ List.length ds = List.length (filter (in_range b e) l).
Proof.
  intros Wb We V Srt body head dl ds H. assert (Q := C74_selection b e l Wb We V Srt). cbv zeta in Q. rewrite Q in H. clear Q.
  assert (Sub : forall s, In s (filter (in_range b e) l) -> In s l) by (intros s Hs; apply filter_In in Hs; apply Hs).
  destruct (filter (in_range b e) l) as [|s0 sel0]; [discriminate|]. set (sel := s0 :: sel0) in *. clearbody sel. injection H as <- <- <- <-.
  exists (List.concat (map s_rows sel)). split; [reflexivity|]. split; [|split; [|apply map_length]].
  - clear. induction sel as [|s sel IH]; [reflexivity|]. cbn [map List.concat]. rewrite !app_length, repeat_length, IH. reflexivity.
  - intros r Hr. apply in_concat in Hr. destruct Hr as (rs & Hrs & Hr). apply in_map_iff in Hrs. destruct Hrs as (s & <- & Hs). eauto.
Qed.

(** Three soundings of a station, of which the second is asked for. *)
Definition snd1 : sounding := Snd (tx "SPM00060018") 2022 6 21 12 (tx "1100") (tx " ncdc6301") [tx "21 first a"; tx "20 first b"].
Definition snd2 : sounding := Snd (tx "SPM00060018") 2022 6 22 0 (tx "2300") (tx " ncdc6301") [tx "21 second a"; tx "20 second b"].
Definition snd3 : sounding := Snd (tx "SPM00060018") 2022 6 22 99 (tx "9999") (tx " ncdc6301") [tx "21 third"].
Lemma snd_valid : valid snd1 /\ valid snd2 /\ valid snd3.
Proof. split; [|split]; constructor; try reflexivity; cbn; try lia; repeat constructor; discriminate. Qed.
Example C74_example : Forall valid [snd1; snd2; snd3] /\ sorted_file [snd1; snd2; snd3] /\
  filter (in_range (DT 2022 6 22 0 0 0) (DT 2022 6 22 0 0 0)) [snd1; snd2; snd3] = [snd2; snd3] /\
  select_date_range (DT 2022 6 22 0 0 0) (DT 2022 6 22 0 0 0) (file_lines [snd1; snd2; snd3]) =
    Ok (tx "21 second a20 second b21 third", tx "#SPM00060018 2022 06 22 00 2300    2 ncdc6301#SPM00060018 2022 06 22 99 9999    1 ncdc6301",
        [DT 2022 6 22 0 0 0; DT 2022 6 22 0 0 0; DT 2022 6 22 0 0 0], [DT 2022 6 22 0 0 0; DT 2022 6 22 0 0 0]).
Proof.
  split; [destruct snd_valid as (? & ? & ?); auto|]. split; [repeat constructor; cbn; lia|]. split; vm_compute; reflexivity.
Qed.

(** ** C75: files in another order *)

(** A later sounding hides everything after it. *)
Theorem C75_lost_refuted b e p late rest : wf_time b -> wf_time e -> Forall valid p -> valid late -> Forall (fun s => in_range b e s = false) p -> later e late = true ->
  select_date_range b e (file_lines (p ++ late :: rest)) = Err ValueError.
Proof.
  intros Wb We V Vl O L. destruct (split_later e p) as (u & r & -> & Hu & Hr). apply Forall_app in V, O. destruct V as [Vu Vr], O as [Ou _].
  unfold select_date_range. rewrite <- app_assoc, scan_file; auto; [rewrite hits_none by exact Ou; reflexivity|]. destruct r as [|s r]; cbn [app]; [auto|]. split; [apply (Forall_inv Vr)|exact Hr].
Qed.
(** A sounding outside the range between two inside it is returned, header included, among the data lines,
    and there are fewer dates than data lines. *)
Theorem C75_mixed_refuted b e s1 x s2 : wf_time b -> wf_time e -> valid s1 -> valid x -> valid s2 -> in_range b e s1 = true -> in_range b e s2 = true -> earlier b x = true ->
  select_date_range b e (file_lines [s1; x; s2]) =
    Ok (List.concat (s_rows s1 ++ head_text x :: s_rows x ++ s_rows s2), head_text s1 ++ head_text s2,
        repeat (time_of s1) (List.length (s_rows s1)) ++ repeat (time_of s2) (List.length (s_rows s2)), [time_of s1; time_of s2]).
Proof.
  intros Wb We V1 Vx V2 I1 I2 Ex. assert (Ix : in_range b e x = false) by (unfold earlier, in_range in *; apply andb_false_iff; left; apply Z.leb_gt; lia).
  assert (Q := C75_exact b e Wb We [] [s1; x; s2] [] []). cbn [app] in Q. rewrite Q; clear Q; auto.
  - cbn [filter]. rewrite I1, Ix, I2. cbn [map List.concat]. unfold kept. rewrite I1, Ix, I2. cbn [app]. rewrite !app_nil_r. unfold lines_of. cbn [app]. reflexivity.
  - unfold earlier, in_range, later in *. repeat constructor; apply Z.ltb_ge; lia.
  - discriminate.
Qed.
Example C75_example :
  (later (DT 2022 6 21 12 0 0) snd2 = true /\ in_range (DT 2022 6 21 12 0 0) (DT 2022 6 21 12 0 0) snd1 = true /\
   select_date_range (DT 2022 6 21 12 0 0) (DT 2022 6 21 12 0 0) (file_lines [snd2; snd1]) = Err ValueError) /\
  (earlier (DT 2022 6 22 0 0 0) snd1 = true /\ in_range (DT 2022 6 22 0 0 0) (DT 2022 6 22 0 0 0) snd2 = true /\ in_range (DT 2022 6 22 0 0 0) (DT 2022 6 22 0 0 0) snd3 = true).
Proof. vm_compute. auto 10. Qed.
