(** Claims C116 and C117: the line tables of the package.  C116 compares the releases with each other on the lines they share; C117 gives
    the physical ranges of every line (a width left in MHz or an exchanged column would leave them). *)

From Coq Require Import ZArith Reals Lra Lia List Bool String QArith Qreals.
Import ListNotations.
From Verif Require Import Arith PyBase Utils Absorption Clear Spectrum RealAux LineData Lineshape PropsH2O PropsO3.
Local Open Scope string_scope.
Close Scope Q_scope.
Open Scope R_scope.

(** ** Specification *)

(** Equal up to the factor [k]. *)
Definition near (k x y : R) : Prop := x <= k * y /\ y <= k * x.
(** First-order line mixing of an oxygen line at 300 K, per bar: kept under two names. *)
Definition mixing (m : string) (l : o2_line RA) : R := if str_in m ["R16"; "R20"; "R20SD"; "R22"] then o_y0 l else o_y300 l.

(** ** Decision procedures on the tables *)

Definition q (d : dec) : Q := match d with Dec n p => Qmake n p end.
Lemma q_R d : Q2R (q d) = litR d.
Proof. destruct d. unfold Q2R, q, litR. cbn. reflexivity. Qed.

Definition leb (x y : Q) : bool := Qle_bool x y.
Lemma leb_R x y : leb x y = true -> Q2R x <= Q2R y.
Proof. intros H. apply Qle_Rle, Qle_bool_iff, H. Qed.
Definition nearb (k x y : Q) : bool := (leb x (k * y) && leb y (k * x))%Q%bool.
Lemma nearb_R k x y : nearb k x y = true -> near (Q2R k) (Q2R x) (Q2R y).
Proof. unfold nearb, near. rewrite andb_true_iff. intros [H1 H2]. apply leb_R in H1, H2. rewrite Q2R_mult in H1, H2. auto. Qed.
Definition apartb (e x y : Q) : bool := (leb (x + e) y || leb (y + e) x)%Q%bool.
Lemma apartb_R e x y : apartb e x y = true -> 0 <= Q2R e -> Q2R e <= Rabs (Q2R x - Q2R y).
Proof.
  unfold apartb. rewrite orb_true_iff. intros [H|H] He; apply leb_R in H; rewrite Q2R_plus in H; unfold Rabs; destruct (Rcase_abs _); lra.
Qed.
Definition closeb (e x y : Q) : bool := (leb x (y + e) && leb y (x + e))%Q%bool.
Lemma closeb_R e x y : closeb e x y = true -> Rabs (Q2R x - Q2R y) <= Q2R e.
Proof. unfold closeb. rewrite andb_true_iff. intros [H1 H2]. apply leb_R in H1, H2. rewrite Q2R_plus in H1, H2. unfold Rabs; destruct (Rcase_abs _); lra. Qed.

Definition c (r : list dec) (i : nat) : Q := q (nth i r 0%dec).
Lemma c_R r i : Q2R (c r i) = litR (nth i r 0%dec).
Proof. apply q_R. Qed.

(** *** Water vapour *)
Definition h2o_tables : list (string * (list (list dec) * list dec)) :=
  [("R98", (h2o_mtx_R98, h2o_ctr_R98)); ("R03", (h2o_mtx_R03, h2o_ctr_R03)); ("R16", (h2o_mtx_R16, h2o_ctr_R16)); ("R17", (h2o_mtx_R17, h2o_ctr_R17));
   ("R18", (h2o_mtx_R18, h2o_ctr_R18)); ("R19", (h2o_mtx_R19, h2o_ctr_R19)); ("R19SD", (h2o_mtx_R19SD, h2o_ctr_R19SD)); ("R20", (h2o_mtx_R20, h2o_ctr_R20));
   ("R20SD", (h2o_mtx_R20SD, h2o_ctr_R20SD)); ("R21SD", (h2o_mtx_R21SD, h2o_ctr_R21SD)); ("R22SD", (h2o_mtx_R22SD, h2o_ctr_R22SD));
   ("R23SD", (h2o_mtx_R23SD, h2o_ctr_R23SD)); ("R24", (h2o_mtx_R24, h2o_ctr_R24)); ("MWL24", (h2o_mtx_MWL24, h2o_ctr_MWL24))].

Lemma h2o_table (A : Arith) m ll : shipped_h2o (A:=A) m = Some ll -> exists mtx ctr, In (m, (mtx, ctr)) h2o_tables /\ h_lines ll = map (h2o_row m) mtx /\
  h_reftcon ll = lit (nth 0 ctr 0%dec) /\ h_cf ll = lit (nth 1 ctr 0%dec) /\ h_xcf ll = lit (nth 2 ctr 0%dec) /\ h_cs ll = lit (nth 3 ctr 0%dec) /\ h_xcs ll = lit (nth 4 ctr 0%dec).
Proof.
  unfold shipped_h2o. cbv zeta.
  repeat match goal with |- (if String.eqb m ?n then _ else _) = _ -> _ => destruct (String.eqb_spec m n) as [->|_];
    [intros [= <-]; eexists _, _; (split; [unfold h2o_tables; repeat first [left; reflexivity | right]|repeat split; reflexivity])|] end.
  discriminate.
Qed.

Definition self_col (m : string) : nat := if str_in m ["R03"; "R16"; "R17"] then 7%nat else 6%nat.
Lemma row_values m r : (h_fl (h2o_row (A:=RA) m r) : R) = litR (nth 1 r 0%dec) /\ (h_s1 (h2o_row (A:=RA) m r) : R) = litR (nth 2 r 0%dec) /\ (h_b2 (h2o_row (A:=RA) m r) : R) = litR (nth 3 r 0%dec) /\
  (h_w0 (h2o_row (A:=RA) m r) : R) = litR (nth 4 r 0%dec) / 1000 /\ (h_x (h2o_row (A:=RA) m r) : R) = litR (nth 5 r 0%dec) /\ (h_w0s (h2o_row (A:=RA) m r) : R) = litR (nth (self_col m) r 0%dec) / 1000.
Proof. unfold h2o_row, self_col, col. cbv zeta. cbn [h_fl h_s1 h_b2 h_w0 h_x h_w0s]. destruct (str_in m ["R03"; "R16"; "R17"]); ra; repeat split; try reflexivity; lra. Qed.

(** Lines whose frequencies differ by more than one are not compared further. *)
Definition whole (d : dec) : Z := match d with Dec n p => (n / Zpos p)%Z end.
Lemma whole_R d : IZR (whole d) <= litR d < IZR (whole d) + 1.
Proof.
  destruct d as [n p]. unfold whole, litR. assert (P : 0 < IZR (Zpos p)) by (apply IZR_lt; lia).
  assert (E := Z.div_mod n (Zpos p) ltac:(lia)). assert (M := Z.mod_pos_bound n (Zpos p) ltac:(lia)). set (k := (n / Zpos p)%Z) in *. set (m := (n mod Zpos p)%Z) in *. clearbody k m.
  subst n. rewrite plus_IZR, mult_IZR. assert (M1 : 0 <= IZR m < IZR (Zpos p)) by (split; [apply IZR_le|apply IZR_lt]; lia).
  replace ((IZR (Zpos p) * IZR k + IZR m) / IZR (Zpos p)) with (IZR k + IZR m / IZR (Zpos p)) by (field; lra).
  assert (0 <= IZR m / IZR (Zpos p) < 1); [|lra]. split; [apply Rmult_le_pos; [lra|apply Rlt_le, Rinv_0_lt_compat; lra]|].
  apply (Rmult_lt_reg_r (IZR (Zpos p))); [lra|]. unfold Rdiv. rewrite Rmult_assoc, Rinv_l; lra.
Qed.
Definition farb (k k' : Z) : bool := (Z.leb (k + 2) k' || Z.leb (k' + 2) k)%bool.
Lemma farb_R d d' : farb (whole d) (whole d') = true -> 1 <= Rabs (litR d - litR d').
Proof.
  assert (W := whole_R d). assert (W' := whole_R d'). unfold farb. rewrite orb_true_iff, !Z.leb_le. intros [H|H]; apply IZR_le in H; rewrite plus_IZR in H; unfold Rabs; destruct (Rcase_abs _); lra.
Qed.
Definition all_pairs (P : list dec -> list dec -> bool) (t t' : list (list dec)) : bool :=
  let k := map (fun r => (whole (nth 1 r 0%dec), r)) t in let k' := map (fun r => (whole (nth 1 r 0%dec), r)) t' in
  forallb (fun x => forallb (fun y => if farb (fst x) (fst y) then true else P (snd x) (snd y)) k') k.
Lemma all_pairs_R P t t' r r' : all_pairs P t t' = true -> In r t -> In r' t' -> 1 <= Rabs (litR (nth 1 r 0%dec) - litR (nth 1 r' 0%dec)) \/ P r r' = true.
Proof.
  intros H Hr Hr'. unfold all_pairs in H. cbv zeta in H.
  apply (proj1 (forallb_forall _ _)) with (x := (whole (nth 1 r 0%dec), r)) in H; [|apply in_map_iff; eauto].
  apply (proj1 (forallb_forall _ _)) with (x := (whole (nth 1 r' 0%dec), r')) in H; [|apply in_map_iff; eauto]. cbn [fst snd] in H.
  destruct (farb _ _) eqn:E; [left; apply farb_R, E|right; exact H].
Qed.

Definition pair_h2o (m m' : string) (r r' : list dec) : bool :=
  apartb 0.02 (c r 1) (c r' 1) || (nearb 1.06 (c r 2) (c r' 2) && nearb 1.02 (c r 3) (c r' 3) && nearb 1.19 (c r 4) (c r' 4) && nearb 1.1 (c r (self_col m)) (c r' (self_col m'))).
Lemma h2o_pairs : forallb (fun t => forallb (fun t' => all_pairs (pair_h2o (fst t) (fst t')) (fst (snd t)) (fst (snd t'))) h2o_tables) h2o_tables = true.
Proof. vm_cast_no_check (eq_refl true). Qed.

Lemma near_div k x y : near k x y -> near k (x / 1000) (y / 1000).
Proof. unfold near. lra. Qed.

(** Every line of one release against every line of another: either they are different lines, or strength, its temperature coefficient and the two widths agree. *)
Theorem C116_water m m' ll ll' a b : shipped_h2o (A:=RA) m = Some ll -> shipped_h2o (A:=RA) m' = Some ll' -> In a (h_lines ll) -> In b (h_lines ll') ->
  Rabs (h_fl a - h_fl b) < 0.02 -> near 1.06 (h_s1 a) (h_s1 b) /\ near 1.02 (h_b2 a) (h_b2 b) /\ near 1.19 (h_w0 a) (h_w0 b) /\ near 1.1 (h_w0s a) (h_w0s b).
Proof.
  intros H H' Ha Hb Hf. destruct (h2o_table RA m ll H) as (mtx & ctr & T & L & _). destruct (h2o_table RA m' ll' H') as (mtx' & ctr' & T' & L' & _).
  rewrite L in Ha. rewrite L' in Hb. apply in_map_iff in Ha, Hb. destruct Ha as (r & <- & Hr). destruct Hb as (r' & <- & Hr').
  assert (P := h2o_pairs). apply (proj1 (forallb_forall _ _)) with (x := (m, (mtx, ctr))) in P; [|exact T].
  apply (proj1 (forallb_forall _ _)) with (x := (m', (mtx', ctr'))) in P; [|exact T']. cbn [fst snd] in P.
  apply (all_pairs_R _ _ _ r r') in P; [|exact Hr|exact Hr'].
  destruct (row_values m r) as (E1 & E2 & E3 & E4 & _ & E6). destruct (row_values m' r') as (F1 & F2 & F3 & F4 & _ & F6).
  rewrite E1, F1 in Hf. rewrite E2, F2, E3, F3, E4, F4, E6, F6. destruct P as [P|P]; [lra|]. unfold pair_h2o in P. rewrite orb_true_iff, !andb_true_iff in P.
  destruct P as [P|(((P1 & P2) & P3) & P4)].
  - exfalso. apply apartb_R in P; rewrite ?c_R in P; unfold Q2R in *; cbn [Qnum Qden] in *; lra.
  - apply nearb_R in P1, P2, P3, P4. rewrite !c_R in *.
    replace (Q2R 1.06) with 1.06 in P1 by (unfold Q2R; cbn; lra). replace (Q2R 1.02) with 1.02 in P2 by (unfold Q2R; cbn; lra).
    replace (Q2R 1.19) with 1.19 in P3 by (unfold Q2R; cbn; lra). replace (Q2R 1.1) with 1.1 in P4 by (unfold Q2R; cbn; lra).
    repeat split; try apply P1; try apply P2; apply (near_div _ _ _ P3) || apply (near_div _ _ _ P4).
Qed.

(** *** Oxygen: one row per line, [0; f; s300; be; w300; mixing]. *)
Definition zip (f s be w y : list dec) : list (list dec) :=
  map (fun i => [0%dec; nth i f 0%dec; nth i s 0%dec; nth i be 0%dec; nth i w 0%dec; nth i y 0%dec]) (seq 0 (List.length f)).
Definition o2_tables : list (string * list (list dec)) :=
  [("R98", zip o2_f_R98 o2_s300_R98 o2_be_R98 o2_w300_R98 o2_y300_R98); ("R03", zip o2_f_R03 o2_s300_R03 o2_be_R03 o2_w300_R03 o2_y300_R03);
   ("R16", zip o2_f_R16 o2_s300_R16 o2_be_R16 o2_w300_R16 o2_y0_R16); ("R17", zip o2_f_R17 o2_s300_R17 o2_be_R17 o2_w300_R17 o2_y300_R17);
   ("R18", zip o2_f_R18 o2_s300_R18 o2_be_R18 o2_w300_R18 o2_y300_R18); ("R19", zip o2_f_R19 o2_s300_R19 o2_be_R19 o2_w300_R19 o2_y300_R19);
   ("R19SD", zip o2_f_R19SD o2_s300_R19SD o2_be_R19SD o2_w300_R19SD o2_y300_R19SD); ("R20", zip o2_f_R20 o2_s300_R20 o2_be_R20 o2_w300_R20 o2_y0_R20);
   ("R20SD", zip o2_f_R20SD o2_s300_R20SD o2_be_R20SD o2_w300_R20SD o2_y0_R20SD); ("R22", zip o2_f_R22 o2_s300_R22 o2_be_R22 o2_w300_R22 o2_y0_R22);
   ("R23", zip o2_f_R23 o2_s300_R23 o2_be_R23 o2_w300_R23 o2_y300_R23); ("R24", zip o2_f_R24 o2_s300_R24 o2_be_R24 o2_w300_R24 o2_y300_R24)].

Definition row_of (m : string) (k : o2_line RA) (r : list dec) : Prop :=
  (o_f k : R) = litR (nth 1 r 0%dec) /\ (o_s300 k : R) = litR (nth 2 r 0%dec) /\ (o_be k : R) = litR (nth 3 r 0%dec) /\ (o_w300 k : R) = litR (nth 4 r 0%dec) /\ mixing m k = litR (nth 5 r 0%dec).

Lemma load_rows m x wb f s be w y (G : nat -> o2_line RA) : (forall i, row_of m (G i) [0%dec; nth i f 0%dec; nth i s 0%dec; nth i be 0%dec; nth i w 0%dec; nth i y 0%dec]) ->
  Forall2 (row_of m) (o_lines (o2_load (A:=RA) x wb f G)) (zip f s be w y).
Proof.
  intros H. unfold o2_load, zip. cbn [o_lines]. induction (seq 0 (List.length f)) as [|i l IH]; [constructor|]. cbn [map]. constructor; [apply H|exact IH].
Qed.

Lemma o2_table m ll : shipped_o2 (A:=RA) m = Some ll -> exists rows, In (m, rows) o2_tables /\ Forall2 (row_of m) (o_lines ll) rows.
Proof.
  unfold shipped_o2.
  assert (G : forall n rows ll0, In (n, rows) o2_tables -> Forall2 (row_of n) (o_lines ll0) rows -> Some ll0 = Some ll -> exists rows, In (n, rows) o2_tables /\ Forall2 (row_of n) (o_lines ll) rows).
  { intros n rows ll0 H1 H2 [= <-]. eauto. }
  repeat match goal with |- (if String.eqb m ?n then _ else _) = _ -> _ => destruct (String.eqb_spec m n) as [->|_];
    [unshelve eapply G; [|unfold o2_tables; repeat first [left; reflexivity | right]|apply load_rows; intros i; repeat split; reflexivity]|] end.
  discriminate.
Qed.
Lemma of_line {X Y} (P : X -> Y -> Prop) l l' a : Forall2 P l l' -> In a l -> exists b, In b l' /\ P a b.
Proof. intros F. induction F as [|x y l l' H F IH]; intros I; [destruct I|]. destruct I as [<-|I]; [exists y; split; [left; reflexivity|exact H]|]. destruct (IH I) as (b & I' & H'). exists b. split; [right; exact I'|exact H']. Qed.
Lemma of_row {X Y} (P : X -> Y -> Prop) l l' b : Forall2 P l l' -> In b l' -> exists a, In a l /\ P a b.
Proof. intros F. induction F as [|x y l l' H F IH]; intros I; [destruct I|]. destruct I as [<-|I]; [exists x; split; [left; reflexivity|exact H]|]. destruct (IH I) as (a & I' & H'). exists a. split; [right; exact I'|exact H']. Qed.

(** The oxygen line at 233.9461 GHz. *)
Definition line234 (f : R) : Prop := Rabs (f - 233.9461) < 0.01.
Definition pair_o2 (r r' : list dec) : bool :=
  apartb 0.01 (c r 1) (c r' 1) || closeb 0.009 (c r 1) 233.9461 ||
  (nearb 1.03 (c r 2) (c r' 2) && nearb 1.12 (c r 3) (c r' 3) && nearb 1.24 (c r 4) (c r' 4) && closeb 0.19 (c r 5) (c r' 5)).
Lemma o2_pairs : forallb (fun t => forallb (fun t' => all_pairs pair_o2 (snd t) (snd t')) o2_tables) o2_tables = true.
Proof. vm_cast_no_check (eq_refl true). Qed.

Theorem C116_oxygen m m' ll ll' a b : shipped_o2 (A:=RA) m = Some ll -> shipped_o2 (A:=RA) m' = Some ll' -> In a (o_lines ll) -> In b (o_lines ll') ->
  Rabs (o_f a - o_f b) < 0.01 -> ~ line234 (o_f a) ->
  near 1.03 (o_s300 a) (o_s300 b) /\ near 1.12 (o_be a) (o_be b) /\ near 1.24 (o_w300 a) (o_w300 b) /\ Rabs (mixing m a - mixing m' b) <= 0.19.
Proof.
  intros H H' Ha Hb Hf H234. destruct (o2_table m ll H) as (rows & T & L). destruct (o2_table m' ll' H') as (rows' & T' & L').
  destruct (of_line _ _ _ a L Ha) as (r & Hr & E1 & E2 & E3 & E4 & E5). destruct (of_line _ _ _ b L' Hb) as (r' & Hr' & F1 & F2 & F3 & F4 & F5).
  assert (P := o2_pairs). apply (proj1 (forallb_forall _ _)) with (x := (m, rows)) in P; [|exact T].
  apply (proj1 (forallb_forall _ _)) with (x := (m', rows')) in P; [|exact T']. cbn [fst snd] in P.
  apply (all_pairs_R _ _ _ r r') in P; [|exact Hr|exact Hr'].
  rewrite E1 in *. rewrite F1 in Hf. rewrite E2, F2, E3, F3, E4, F4, E5, F5. destruct P as [P|P]; [lra|]. unfold pair_o2 in P. rewrite !orb_true_iff, !andb_true_iff in P.
  destruct P as [[P|P]|(((P1 & P2) & P3) & P4)].
  - exfalso. apply apartb_R in P; rewrite ?c_R in P; unfold Q2R in *; cbn [Qnum Qden] in *; lra.
  - exfalso. apply H234. apply closeb_R in P. rewrite c_R in P. unfold line234. replace (Q2R 233.9461) with 233.9461 in P by (unfold Q2R; cbn; lra).
    eapply Rle_lt_trans; [exact P|]. unfold Q2R. cbn. lra.
  - apply nearb_R in P1, P2, P3. apply closeb_R in P4. rewrite !c_R in *.
    replace (Q2R 1.03) with 1.03 in P1 by (unfold Q2R; cbn; lra). replace (Q2R 1.12) with 1.12 in P2 by (unfold Q2R; cbn; lra).
    replace (Q2R 1.24) with 1.24 in P3 by (unfold Q2R; cbn; lra). replace (Q2R 0.19) with 0.19 in P4 by (unfold Q2R; cbn; lra).
    auto.
Qed.

Ltac powers := repeat match goal with |- context [Z.pow_pos ?b ?e] => let v := eval vm_compute in (Z.pow_pos b e) in change (Z.pow_pos b e) with v end.
Definition row234 (m : string) (r : list dec) : bool :=
  Qeq_bool (c r 1) 233.9461 && (if str_in m ["R22"; "R23"; "R24"] then leb (c r 2) (Qmake 83 10000000000000000000) else leb (Qmake 32 1000000000000000000) (c r 2)) && Qeq_bool (c r 4) (if String.eqb m "R16" then 2.78 else 1.65).
Lemma o2_234 : forallb (fun t => if str_in (fst t) ["R98"; "R03"] then true else existsb (row234 (fst t)) (snd t)) o2_tables = true.
Proof. vm_cast_no_check (eq_refl true). Qed.

(** The claim is false for the line at 233.9461 GHz: R16 to R20SD give it four times the strength of R22 to R24, and R16 gives it a width of its own. *)
Theorem C116_oxygen_234_refuted : forall m ll, shipped_o2 (A:=RA) m = Some ll -> In m ["R16"; "R17"; "R18"; "R19"; "R19SD"; "R20"; "R20SD"; "R22"; "R23"; "R24"] ->
  exists a, In a (o_lines ll) /\ (o_f a : R) = 233.9461 /\
  (In m ["R22"; "R23"; "R24"] -> o_s300 a <= 8.3e-18) /\ (~ In m ["R22"; "R23"; "R24"] -> 3.2e-17 <= o_s300 a) /\
  (m = "R16" -> (o_w300 a : R) = 2.78) /\ (m <> "R16" -> (o_w300 a : R) = 1.65).
Proof.
  intros m ll H Hm. destruct (o2_table m ll H) as (rows & T & L). assert (P := o2_234). apply (proj1 (forallb_forall _ _)) with (x := (m, rows)) in P; [|exact T]. cbn [fst snd] in P.
  replace (str_in m ["R98"; "R03"]) with false in P by (cbn [In] in Hm; repeat (destruct Hm as [<-|Hm]; [reflexivity|]); destruct Hm).
  apply existsb_exists in P. destruct P as (r & Hr & P).
  destruct (of_row _ _ _ r L Hr) as (a & Ha & E1 & E2 & E3 & E4 & E5). exists a. split; [exact Ha|].
  rewrite E1, E2, E4, <- !c_R. unfold row234 in P. generalize dependent (c r 1). generalize dependent (c r 2). generalize dependent (c r 4). clear - Hm. intros q4 q2 q1 P.
  cbn [In] in Hm.
  repeat (destruct Hm as [<-|Hm]; [cbn [str_in existsb String.eqb Ascii.eqb Bool.eqb orb] in P; rewrite !andb_true_iff in P; destruct P as ((P1 & P2) & P3);
    apply Qeq_bool_iff, Qeq_eqR in P1, P3; apply leb_R in P2; rewrite P1, P3;
    (split; [unfold Q2R; cbn; lra|]); (split; [|split; [|split]]); intros K;
    first [exfalso; cbn in K; intuition discriminate | exfalso; apply K; cbn; tauto | exfalso; congruence | (eapply Rle_trans; [|exact P2]; unfold Q2R; cbn [Qnum Qden]; powers; lra) | (eapply Rle_trans; [exact P2|]; unfold Q2R; cbn [Qnum Qden]; powers; lra) | unfold Q2R in *; cbn [Qnum Qden] in *; lra]|]).
  destruct Hm.
Qed.

(** *** Ozone *)
Definition o3_tables : list (string * list (list dec)) := [("R18", o3_mtx_R18); ("R22", o3_mtx_R22); ("R23", o3_mtx_R23)].
Lemma o3_table m ll : shipped_o3 (A:=RA) m = Some ll -> exists mtx, In (m, mtx) o3_tables /\ z_lines ll = map (o3_row (A:=RA)) mtx.
Proof.
  unfold shipped_o3. repeat match goal with |- (if String.eqb m ?n then _ else _) = _ -> _ => destruct (String.eqb_spec m n) as [->|_];
    [intros [= <-]; eexists; split; [unfold o3_tables; repeat first [left; reflexivity | right]|reflexivity]|] end. discriminate.
Qed.
Definition pair_o3 (r r' : list dec) : bool :=
  apartb 0.005 (c r 1) (c r' 1) || (nearb 1.05 (c r 2) (c r' 2) && closeb 0 (c r 3) (c r' 3) && closeb 0 (c r 4) (c r' 4) && closeb 0 (c r 5) (c r' 5)).
Lemma o3_pairs : forallb (fun t => forallb (fun t' => all_pairs pair_o3 (snd t) (snd t')) o3_tables) o3_tables = true.
Proof. vm_cast_no_check (eq_refl true). Qed.

Theorem C116_ozone m m' ll ll' a b : shipped_o3 (A:=RA) m = Some ll -> shipped_o3 (A:=RA) m' = Some ll' -> In a (z_lines ll) -> In b (z_lines ll') ->
  Rabs (z_fl a - z_fl b) < 0.005 -> near 1.05 (z_s1 a) (z_s1 b) /\ z_b a = z_b b /\ z_w a = z_w b /\ z_x a = z_x b.
Proof.
  intros H H' Ha Hb Hf. destruct (o3_table m ll H) as (mtx & T & L). destruct (o3_table m' ll' H') as (mtx' & T' & L').
  rewrite L in Ha. rewrite L' in Hb. apply in_map_iff in Ha, Hb. destruct Ha as (r & <- & Hr). destruct Hb as (r' & <- & Hr').
  assert (P := o3_pairs). apply (proj1 (forallb_forall _ _)) with (x := (m, mtx)) in P; [|exact T].
  apply (proj1 (forallb_forall _ _)) with (x := (m', mtx')) in P; [|exact T']. cbn [fst snd] in P.
  apply (all_pairs_R _ _ _ r r') in P; [|exact Hr|exact Hr'].
  unfold o3_row, col in *. cbn [z_fl z_s1 z_b z_w z_x lit RA] in *. change (sub (a:=RA)) with Rminus in *. change (div (a:=RA)) with Rdiv.
  destruct P as [P|P]; [lra|]. unfold pair_o3 in P. rewrite orb_true_iff, !andb_true_iff in P.
  destruct P as [P|(((P1 & P2) & P3) & P4)].
  - exfalso. apply apartb_R in P; rewrite ?c_R in P; unfold Q2R in *; cbn [Qnum Qden] in *; lra.
  - apply nearb_R in P1. apply closeb_R in P2, P3, P4. rewrite !c_R in *. replace (Q2R 1.05) with 1.05 in P1 by (unfold Q2R; cbn; lra).
    replace (Q2R 0) with 0 in P2, P3, P4 by (unfold Q2R; cbn; lra).
    assert (Z : forall x y, Rabs (x - y) <= 0 -> x = y) by (intros x y Hx; unfold Rabs in Hx; destruct (Rcase_abs _) in Hx; lra).
    apply Z in P2, P3, P4. rewrite P2, P3, P4. auto.
Qed.

(** ** Claim C117: ranges *)
Definition within (lo hi x : R) : Prop := lo <= x <= hi.
(** The values increase strictly. *)
Definition increasing (l : list R) : Prop := forall i j, (i < j)%nat -> (j < List.length l)%nat -> nth i l 0 < nth j l 0.
(** The released widths are in MHz per hPa, the lists keep GHz per hPa. *)
Definition MHz : R := 0.001.

Definition inb (lo hi : dec) (x : dec) : bool := (leb (q lo) (q x) && leb (q x) (q hi))%bool.
Lemma inb_R lo hi x : inb lo hi x = true -> within (litR lo) (litR hi) (litR x).
Proof. unfold inb. rewrite andb_true_iff. intros [H1 H2]. apply leb_R in H1, H2. rewrite !q_R in *. split; assumption. Qed.
Fixpoint incb (l : list dec) : bool := match l with [] => true | x :: l' => (match l' with [] => true | y :: _ => negb (leb (q y) (q x)) end && incb l')%bool end.
Lemma incb_R l : incb l = true -> increasing (map litR l).
Proof.
  induction l as [|x l IH]; intros H i j Hij Hj; [cbn in Hj; lia|]. cbn [incb] in H. apply andb_true_iff in H. destruct H as [H1 H2].
  assert (I := IH H2). destruct j as [|j]; [lia|]. cbn [map List.length] in Hj. destruct i as [|i]; [|cbn [map nth]; apply I; lia].
  destruct l as [|y l]; [cbn in Hj; lia|].
  assert (L : litR x < litR y). { apply negb_true_iff in H1. rewrite <- !q_R. apply Rnot_le_lt. intros K. apply Rle_Qle, Qle_bool_iff in K. unfold leb in H1. congruence. }
  cbn [map nth]. destruct j as [|j]; [exact L|]. eapply Rlt_trans; [exact L|]. apply (I 0%nat (S j)); [lia|cbn [map List.length] in *; lia].
Qed.
Definition g (r : list dec) (i : nat) : dec := nth i r 0%dec.

Definition h2o_range (m : string) (r : list dec) : bool :=
  (inb 22%dec 1743%dec (g r 1) && inb (Dec 3 10000000000000000) (Dec 13 1000000000) (g r 2) && inb 0.08%dec 17%dec (g r 3) && inb 1%dec 3.3%dec (g r 4) && inb 0.37%dec 0.79%dec (g r 5) && inb 4.8%dec 27%dec (g r (self_col m)) &&
  leb (4 * q (g r 4))%Q (q (g r (self_col m))) && leb (q (g r (self_col m))) (11 * q (g r 4))%Q)%bool.
Definition h2o_first (l : list (list dec)) : bool := match l with r :: r' :: _ => inb 22.235%dec 22.2352%dec (g r 1) && inb 183.31%dec 183.3102%dec (g r' 1) | _ => false end.
Lemma h2o_ranges : forallb (fun t => forallb (h2o_range (fst t)) (fst (snd t)) && incb (map (fun r => g r 1) (fst (snd t))) && h2o_first (fst (snd t)))%bool h2o_tables = true.
Proof. vm_cast_no_check (eq_refl true). Qed.

Theorem C117_water m ll : shipped_h2o (A:=RA) m = Some ll ->
  (forall k, In k (h_lines ll) -> within 22 1743 (h_fl k) /\ within 3e-16 1.3e-8 (h_s1 k) /\ within 0.08 17 (h_b2 k) /\
    within (1 * MHz) (3.3 * MHz) (h_w0 k) /\ within (4.8 * MHz) (27 * MHz) (h_w0s k) /\ within (4 * h_w0 k) (11 * h_w0 k) (h_w0s k) /\ within 0.37 0.79 (h_x k)) /\
  increasing (map (fun k : h2o_line RA => h_fl k : R) (h_lines ll)) /\
  within 22.235 22.2352 (nth 0 (map (fun k : h2o_line RA => h_fl k : R) (h_lines ll)) 0) /\ within 183.31 183.3102 (nth 1 (map (fun k : h2o_line RA => h_fl k : R) (h_lines ll)) 0).
Proof.
  intros H. destruct (h2o_table RA m ll H) as (mtx & ctr & T & L & _). assert (P := h2o_ranges).
  apply (proj1 (forallb_forall _ _)) with (x := (m, (mtx, ctr))) in P; [|exact T]. cbn [fst snd] in P. rewrite !andb_true_iff in P. destruct P as ((P1 & P2) & P3).
  assert (E : map (fun k : h2o_line RA => h_fl k : R) (h_lines ll) = map litR (map (fun r => g r 1) mtx)).
  { rewrite L, !map_map. apply map_ext. intros r. apply (row_values m r). }
  clear T H. split; [|split; [|split]].
  - intros k Hk. rewrite L in Hk. apply in_map_iff in Hk. destruct Hk as (r & <- & Hr). apply (proj1 (forallb_forall _ _)) with (x := r) in P1; [|exact Hr].
    unfold h2o_range in P1. rewrite !andb_true_iff in P1. destruct P1 as (((((((Q1 & Q2) & Q3) & Q4) & Q5) & Q6) & Q7) & Q8).
    apply inb_R in Q1, Q2, Q3, Q4, Q5, Q6. apply leb_R in Q7, Q8. rewrite Q2R_mult, !q_R in Q7, Q8.
    destruct (row_values m r) as (E1 & E2 & E3 & E4 & E5 & E6). rewrite E1, E2, E3, E4, E5, E6. unfold within, MHz, g in *. unfold litR in *.
    replace (Q2R 4) with 4 in Q7 by (unfold Q2R; cbn; lra). replace (Q2R 11) with 11 in Q8 by (unfold Q2R; cbn; lra). powers. lra.
  - rewrite E. apply incb_R, P2.
  - rewrite E. destruct mtx as [|r [|r' mtx]]; try discriminate P3. cbn [map nth]. cbn [h2o_first] in P3. apply andb_true_iff in P3. destruct P3 as [P3 _]. apply inb_R in P3. unfold within, litR in *. lra.
  - rewrite E. destruct mtx as [|r [|r' mtx]]; try discriminate P3. cbn [map nth]. cbn [h2o_first] in P3. apply andb_true_iff in P3. destruct P3 as [_ P3]. apply inb_R in P3. unfold within, litR in *. lra.
Qed.

(** The two continua: the self-broadened coefficient is 23 to 25 times the foreign one; R23SD and R24 keep a negative mark instead and take it from a table. *)
Definition ctr_range (m : string) (k : list dec) : bool :=
  (inb 296%dec 300%dec (g k 0) && inb (Dec 5547 10000000000000) (Dec 5964 10000000000000) (g k 1) && inb 3%dec 3%dec (g k 2) &&
  (if str_in m ["R23SD"; "R24"] then inb (Dec (-1) 1) (Dec (-1) 1) (g k 3) else inb (Dec 1416 100000000000) (Dec 142 10000000000) (g k 3) && inb 7.5%dec 7.5%dec (g k 4)))%bool.
Lemma ctr_ranges : forallb (fun t => ctr_range (fst t) (snd (snd t))) h2o_tables = true.
Proof. vm_cast_no_check (eq_refl true). Qed.

Theorem C117_continuum m ll : shipped_h2o (A:=RA) m = Some ll ->
  within 296 300 (h_reftcon ll) /\ within 5.547e-10 5.964e-10 (h_cf ll) /\ (h_xcf ll : R) = 3 /\
  (In m ["R23SD"; "R24"] -> (h_cs ll : R) = -1) /\ (~ In m ["R23SD"; "R24"] -> within 1.416e-8 1.42e-8 (h_cs ll) /\ (h_xcs ll : R) = 7.5 /\ within (23 * h_cf ll) (26 * h_cf ll) (h_cs ll)).
Proof.
  intros H. destruct (h2o_table RA m ll H) as (mtx & ctr & T & _ & E0 & E1 & E2 & E3 & E4). assert (P := ctr_ranges).
  apply (proj1 (forallb_forall _ _)) with (x := (m, (mtx, ctr))) in P; [|exact T]. cbn [fst snd] in P. clear T H.
  rewrite E0, E1, E2, E3, E4. clear E0 E1 E2 E3 E4. cbn [lit RA]. unfold ctr_range in P. rewrite !andb_true_iff in P. destruct P as (((P0 & P1) & P2) & P3). apply inb_R in P0, P1, P2. unfold g, within in *.
  generalize dependent (nth 0 ctr 0%dec). generalize dependent (nth 1 ctr 0%dec). generalize dependent (nth 2 ctr 0%dec). generalize dependent (nth 3 ctr 0%dec). generalize dependent (nth 4 ctr 0%dec).
  clear. intros d4 d3 P3 d2 P2 d1 P1 d0 P0. powers.
  split; [destruct d0; unfold litR in *; lra|]. split; [destruct d1; unfold litR in *; lra|]. split; [destruct d2; unfold litR in *; lra|]. split; intros K.
  - assert (S : str_in m ["R23SD"; "R24"] = true) by (destruct K as [<-|[<-|[]]]; reflexivity). rewrite S in P3. apply inb_R in P3. unfold within in P3. destruct d3; unfold litR in *; lra.
  - assert (S : str_in m ["R23SD"; "R24"] = false).
    { destruct (str_in m ["R23SD"; "R24"]) eqn:S; [|reflexivity]. exfalso. apply K. unfold str_in in S. apply existsb_exists in S. destruct S as (x & I & E). apply String.eqb_eq in E. subst x. exact I. }
    rewrite S in P3. apply andb_true_iff in P3. destruct P3 as [P3 P4]. apply inb_R in P3, P4. unfold within in *. destruct d1, d3, d4; unfold litR in *. lra.
Qed.

(** *** Oxygen *)
Definition o2_range (r : list dec) : bool :=
  (inb 50%dec 896%dec (g r 1) && inb (Dec 1 1000000000000000000) (Dec 12 1000000000000000) (g r 2) && inb 0.008%dec 10%dec (g r 3) && inb 0.66%dec 2.8%dec (g r 4) && inb (Dec (-1) 1) 1%dec (g r 5))%bool.
Fixpoint apart_from (x : list dec) (l : list (list dec)) : bool := match l with [] => true | y :: l' => (apartb 0.07 (c x 1) (c y 1) && apart_from x l')%bool end.
Fixpoint all_apart (l : list (list dec)) : bool := match l with [] => true | x :: l' => (apart_from x l' && all_apart l')%bool end.
Lemma o2_ranges : forallb (fun t => forallb o2_range (snd t) && all_apart (snd t) && existsb (fun r => inb 118.7503%dec 118.7503%dec (g r 1)) (snd t))%bool o2_tables = true.
Proof. vm_cast_no_check (eq_refl true). Qed.

Lemma apart_from_R x l r : apart_from x l = true -> In r l -> 0.07 <= Rabs (litR (g x 1) - litR (g r 1)).
Proof.
  induction l as [|y l IH]; intros H I; [destruct I|destruct I as [<-|I]]; cbn [apart_from] in H; apply andb_true_iff in H; destruct H as [H1 H2]; [|apply IH; assumption].
  apply apartb_R in H1; [|unfold Q2R; cbn; lra]. rewrite !c_R in H1. unfold g. unfold Q2R in H1 at 1. cbn [Qnum Qden] in H1. lra.
Qed.
Lemma all_apart_R l i j : all_apart l = true -> (i < j)%nat -> (j < List.length l)%nat -> 0.07 <= Rabs (litR (g (nth i l []) 1) - litR (g (nth j l []) 1)).
Proof.
  revert i j. induction l as [|x l IH]; intros i j H Hij Hj; [cbn in Hj; lia|]. cbn [all_apart] in H. apply andb_true_iff in H. destruct H as [H1 H2].
  destruct j as [|j]; [lia|]. cbn [List.length] in Hj. destruct i as [|i]; [|cbn [nth]; apply IH; [exact H2|lia|lia]]. cbn [nth]. apply (apart_from_R x l); [exact H1|apply nth_In; lia].
Qed.

Lemma same_length {X Y} (P : X -> Y -> Prop) l l' : Forall2 P l l' -> List.length l = List.length l'.
Proof. induction 1; cbn; congruence. Qed.

Theorem C117_oxygen m ll : shipped_o2 (A:=RA) m = Some ll ->
  (forall k, In k (o_lines ll) -> within 50 896 (o_f k) /\ within 1e-18 1.2e-14 (o_s300 k) /\ within 0.008 10 (o_be k) /\ within 0.66 2.8 (o_w300 k) /\ within (-1) 1 (mixing m k)) /\
  (forall i j, (i < j)%nat -> (j < List.length (o_lines ll))%nat -> forall a b, nth_error (o_lines ll) i = Some a -> nth_error (o_lines ll) j = Some b -> 0.07 <= Rabs (o_f a - o_f b)) /\
  (exists k, In k (o_lines ll) /\ (o_f k : R) = 118.7503).
Proof.
  intros H. destruct (o2_table m ll H) as (rows & T & L). assert (P := o2_ranges). apply (proj1 (forallb_forall _ _)) with (x := (m, rows)) in P; [|exact T]. cbn [fst snd] in P.
  rewrite !andb_true_iff in P. destruct P as ((P1 & P2) & P3). clear T H. split; [|split].
  - intros k Hk. destruct (of_line _ _ _ k L Hk) as (r & Hr & E1 & E2 & E3 & E4 & E5). apply (proj1 (forallb_forall _ _)) with (x := r) in P1; [|exact Hr].
    unfold o2_range in P1. rewrite !andb_true_iff in P1. destruct P1 as ((((Q1 & Q2) & Q3) & Q4) & Q5). apply inb_R in Q1, Q2, Q3, Q4, Q5.
    rewrite E1, E2, E3, E4, E5. unfold within, g in *. unfold litR in *. powers. lra.
  - intros i j Hij Hj a b Ha Hb.
    assert (F : forall l l' n x, Forall2 (row_of m) l l' -> nth_error l n = Some x -> (o_f x : R) = litR (g (nth n l' []) 1)).
    { intros l l' n x F. revert n. induction F as [|y r l l' Hy F IH]; intros n Hn; [destruct n; discriminate|]. destruct n as [|n]; [injection Hn as <-; apply Hy|apply IH, Hn]. }
    rewrite (F _ _ i a L Ha), (F _ _ j b L Hb). apply all_apart_R; [exact P2|exact Hij|]. rewrite <- (same_length _ _ _ L). exact Hj.
  - apply existsb_exists in P3. destruct P3 as (r & Hr & P3). destruct (of_row _ _ _ r L Hr) as (k & Hk & E1 & _). exists k. split; [exact Hk|]. rewrite E1. apply inb_R in P3. unfold within, g, litR in *. lra.
Qed.

(** *** Ozone *)
Definition o3_range (r : list dec) : bool :=
  (inb 96%dec 1001%dec (g r 1) && inb (Dec 12 100000000000000) (Dec 17 1000000000000) (g r 2) && inb 0.02%dec 5.1%dec (g r 3) && inb 1.9%dec 2.7%dec (g r 4) && inb 0.76%dec 0.84%dec (g r 5))%bool.
Lemma o3_ranges : forallb (fun t => forallb o3_range (snd t) && incb (map (fun r => g r 1) (snd t)))%bool o3_tables = true.
Proof. vm_cast_no_check (eq_refl true). Qed.

Theorem C117_ozone m ll : shipped_o3 (A:=RA) m = Some ll ->
  (forall k, In k (z_lines ll) -> within 96 1001 (z_fl k) /\ within 1.2e-13 1.7e-11 (z_s1 k) /\ within 0.02 5.1 (z_b k) /\ within (1.9 * MHz) (2.7 * MHz) (z_w k) /\ within 0.76 0.84 (z_x k)) /\
  increasing (map (fun k : o3_line RA => z_fl k : R) (z_lines ll)).
Proof.
  intros H. destruct (o3_table m ll H) as (mtx & T & L). assert (P := o3_ranges). apply (proj1 (forallb_forall _ _)) with (x := (m, mtx)) in P; [|exact T]. cbn [fst snd] in P.
  rewrite !andb_true_iff in P. destruct P as (P1 & P2). clear T H. split.
  - intros k Hk. rewrite L in Hk. apply in_map_iff in Hk. destruct Hk as (r & <- & Hr). apply (proj1 (forallb_forall _ _)) with (x := r) in P1; [|exact Hr].
    unfold o3_range in P1. rewrite !andb_true_iff in P1. destruct P1 as ((((Q1 & Q2) & Q3) & Q4) & Q5). apply inb_R in Q1, Q2, Q3, Q4, Q5.
    unfold o3_row, col. cbn [z_fl z_s1 z_b z_w z_x lit RA]. change (div (a:=RA)) with Rdiv. unfold within, g, MHz in *. unfold litR in *. powers. lra.
  - assert (E : map (fun k : o3_line RA => z_fl k : R) (z_lines ll) = map litR (map (fun r => g r 1) mtx)) by (rewrite L, !map_map; reflexivity). rewrite E. apply incb_R, P2.
Qed.

(** ** Non-trivial cases *)
(** The hypotheses hold for lines of different releases. *)
Example C116_oxygen_example : exists ll ll' a b, shipped_o2 (A:=RA) "R16" = Some ll /\ shipped_o2 (A:=RA) "R24" = Some ll' /\ In a (o_lines ll) /\ In b (o_lines ll') /\ (o_f a : R) = 118.7503 /\ (o_f b : R) = 118.7503 /\
  near 1.24 (o_w300 a) (o_w300 b).
Proof.
  eexists _, _. destruct (C117_oxygen "R16" _ eq_refl) as (_ & _ & a & Ha & Fa). destruct (C117_oxygen "R24" _ eq_refl) as (_ & _ & b & Hb & Fb).
  exists a, b. split; [reflexivity|]. split; [reflexivity|]. split; [exact Ha|]. split; [exact Hb|]. split; [exact Fa|]. split; [exact Fb|].
  refine (proj1 (proj2 (proj2 (C116_oxygen "R16" "R24" _ _ a b eq_refl eq_refl Ha Hb _ _)))).
  - rewrite Fa, Fb. unfold Rminus. rewrite Rplus_opp_r, Rabs_R0. lra.
  - rewrite Fa. unfold line234, Rabs. destruct (Rcase_abs _); lra.
Qed.

Lemma first_water (A : Arith) m ll : shipped_h2o (A:=A) m = Some ll -> h_lines ll <> [].
Proof. intros H. destruct (h2o_table A m ll H) as (mtx & ctr & T & L & _). rewrite L. intros E. cbn [In h2o_tables] in T. assert (mtx <> []) by (repeat (destruct T as [[= <- <- <-]|T]; [discriminate|]); destruct T). destruct mtx; [congruence|discriminate]. Qed.
Example C116_water_example : exists ll ll' a b, shipped_h2o (A:=RA) "R98" = Some ll /\ shipped_h2o (A:=RA) "R24" = Some ll' /\ In a (h_lines ll) /\ In b (h_lines ll') /\ Rabs (h_fl a - h_fl b) < 0.02 /\ near 1.19 (h_w0 a) (h_w0 b).
Proof.
  eexists _, _. destruct (C117_water "R98" _ eq_refl) as (_ & _ & Fa & _). destruct (C117_water "R24" _ eq_refl) as (_ & _ & Fb & _).
  assert (Na := first_water RA "R98" _ eq_refl). assert (Nb := first_water RA "R24" _ eq_refl).
  destruct (h_lines (h2o_load (A:=RA) "R98" _ _ _ _ _)) as [|a la] eqn:Ea in Fa, Na; [congruence|].
  destruct (h_lines (h2o_load (A:=RA) "R24" _ _ _ _ _)) as [|b lb] eqn:Eb in Fb, Nb; [congruence|]. cbn [map nth] in Fa, Fb.
  exists a, b. assert (Ia : In a (h_lines (h2o_load (A:=RA) "R98" h2o_mtx_R98 h2o_ctr_R98 h2o_reftline_R98 0%dec 0%dec))) by (rewrite Ea; left; reflexivity).
  assert (Ib : In b (h_lines (h2o_load (A:=RA) "R24" h2o_mtx_R24 h2o_ctr_R24 h2o_reftline_R24 0%dec 0%dec))) by (rewrite Eb; left; reflexivity).
  assert (D : Rabs (h_fl a - h_fl b) < 0.02) by (unfold within in *; unfold Rabs; destruct (Rcase_abs _); lra).
  split; [reflexivity|]. split; [reflexivity|]. split; [exact Ia|]. split; [exact Ib|]. split; [exact D|].
  apply (C116_water "R98" "R24" _ _ a b eq_refl eq_refl Ia Ib D).
Qed.
