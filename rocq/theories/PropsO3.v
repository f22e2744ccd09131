(** Claim C56 (ozone), over the reals. *)

From Coq Require Import ZArith QArith Reals Lra Lia Psatz String List Bool Sorted.
Import ListNotations.
From Verif Require Import Arith PyBase Utils Absorption Clear Spectrum Spec RealAux SolverGen LineData Lineshape PropsAbsN2 PropsLiq PropsClear PropsO2H2O PropsH2O.
Local Open Scope string_scope.
Open Scope R_scope.

(** Lines in ascending order of frequency. *)
Definition by_freq (a b : o3_line RA) : Prop := (z_fl a : R) <= z_fl b.
Definition within (f : R) (k : o3_line RA) : bool := if Rle_dec (Rabs (z_fl k - f)) 1 then true else false.

Lemma within_true f k : within f k = true <-> Rabs (z_fl k - f) <= 1.
Proof. unfold within. destruct (Rle_dec _ _); split; auto; discriminate. Qed.

Lemma Rabs_between a b : Rabs a <= b -> - b <= a <= b.
Proof. intros H. assert (A := Rle_abs a). assert (B := Rle_abs (- a)). rewrite Rabs_Ropp in B. lra. Qed.

Lemma filter_none {T} (p : T -> bool) l : Forall (fun x => p x = false) l -> filter p l = [].
Proof. induction 1 as [|x l H _ IH]; cbn; [|rewrite H]; auto. Qed.

(** The loop with its early exit adds up exactly the lines within 1 GHz. *)
Theorem C56_window (term : o3_line RA -> car RA) f ls s : StronglySorted by_freq ls ->
  o3_loop (A:=RA) term f ls s = sum_from (A:=RA) s (map term (filter (within f) ls)).
Proof.
  intros H. revert s. induction H as [|k r Hr IH Hk]; intros s; [reflexivity|]. cbn [o3_loop].
  match goal with |- context [@ltb ?A ?a ?b] => destruct (Rltb_spec a b) as [L|L]; change (@ltb A a b) with (Rltb a b) end.
  - assert (L' : f + 1 < z_fl k) by (revert L; ra; lra). replace (Rltb _ _) with true by (symmetry; apply Rltb_true; exact L).
    rewrite filter_none; [reflexivity|]. constructor; [|apply Forall_forall; intros x Hx; assert (B := proj1 (Forall_forall _ _) Hk x Hx); unfold by_freq in B];
    (unfold within; destruct (Rle_dec _ _) as [C|C]; auto; exfalso; apply Rabs_between in C; lra).
  - assert (L' : z_fl k <= f + 1) by (revert L; ra; lra). replace (Rltb _ _) with false by (symmetry; apply Rltb_false; exact (Rnot_lt_le _ _ L)).
    match goal with |- context [@leb ?A ?a ?b] => destruct (Rleb_spec a b) as [M|M]; change (@leb A a b) with (Rleb a b) end.
    + assert (M' : f - 1 <= z_fl k) by (revert M; ra; lra). replace (Rleb _ _) with true by (symmetry; apply Rleb_true; exact M).
      cbn [filter]. replace (within f k) with true by (symmetry; apply within_true; apply Rabs_le; lra). cbn [map]. rewrite IH. reflexivity.
    + assert (M' : z_fl k < f - 1) by (revert M; ra; lra). replace (Rleb _ _) with false by (symmetry; apply Rleb_false; exact (Rnot_le_lt _ _ M)).
      cbn [filter]. replace (within f k) with false by (symmetry; apply not_true_iff_false; rewrite within_true; intros C%Rabs_between; lra). apply IH.
Qed.

(** ** Sign *)

Record good_o3 (k : o3_line RA) : Prop := mkGoodO3 { g3_s : 0 <= z_s1 k; g3_w : 0 <= z_w k }.

Lemma strength_nonneg ti k : good_o3 k -> 0 <= o3_strength (A:=RA) ti k.
Proof. intros [H _]. unfold o3_strength. ra. assert (X := exp_pos (z_b k * (10 / 10 - ti))). apply Rmult_le_pos; lra. Qed.

Lemma lorentz_nonneg t p f ti k : good_o3 k -> 0 <= t -> 0 <= p -> 0 < ti -> 0 <= o3_term_lorentz (A:=RA) t p f ti k.
Proof.
  intros G Ht Hp Hti. assert (S := strength_nonneg ti k G). destruct G as [_ Hw]. unfold o3_term_lorentz. cbv zeta. rewrite !powi2.
  set (s := o3_strength (A:=RA) ti k) in *. clearbody s. ra. rewrite Rpowf_pos by auto. assert (X := Rpower_pos ti (z_x k)).
  set (q := Rpower ti (z_x k)) in *. clearbody q. set (wc := z_w k * p * q).
  assert (Hwc : 0 <= wc) by (unfold wc; apply Rmult_le_pos; [apply Rmult_le_pos; auto|lra]). clearbody wc.
  match goal with |- context [R_sqrt.sqrt ?x] => assert (Hq := sqrt_pos x); set (r := R_sqrt.sqrt x) in * end. clearbody r.
  set (w := 5346 / 10000 * wc + r) in *. assert (W : 0 <= w) by (unfold w; lra). clearbody w.
  apply Rmult_le_pos; auto. set (d := (f - z_fl k) * (f - z_fl k) + w * w). assert (D : 0 <= d) by (assert (A := sq_nonneg (f - z_fl k)); assert (B := sq_nonneg w); unfold d; lra).
  assert (F := sq_nonneg (f / z_fl k)). assert (N : 0 <= f / z_fl k * (f / z_fl k) * w) by (apply Rmult_le_pos; auto).
  destruct (Req_dec d 0) as [Z|Z]; [|apply div_nonneg; lra].
  assert (w = 0) as ->. { unfold d in Z. assert (A := sq_nonneg (f - z_fl k)). assert (B := sq_nonneg w). nra. }
  unfold Rdiv at 1. rewrite Rmult_0_r, Rmult_0_l. lra.
Qed.

Lemma loop_nonneg term f ls s : (forall k, In k ls -> 0 <= term k) -> 0 <= s -> 0 <= o3_loop (A:=RA) term f ls s.
Proof.
  revert s. induction ls as [|k r IH]; intros s H Hs; cbn [o3_loop]; auto.
  assert (A := H k (or_introl eq_refl)). destruct (@ltb RA _ _); auto. destruct (@leb RA _ _); apply IH; auto; try (intros; apply H; right; auto). ra. lra.
Qed.

Lemma qvinv_pos t : 0 < t -> 0 < 1 - exp (- 1008 / t).
Proof.
  intros Ht. assert (0 < 1008 / t) by (apply div_pos; lra). assert (exp (- 1008 / t) < exp 0); [apply exp_increasing; unfold Rdiv in *; lra|]. rewrite exp_0 in H0. lra.
Qed.

(** Ozone absorption is never negative in the models that use the combined Lorentz width. *)
Theorem C56_nonnegative m (ll : o3_ll RA) t p f o3n : str_in m ["R22"; "R22SD"] = false -> Forall good_o3 (z_lines ll) -> 0 < z_reftline ll ->
  0 < t -> 0 <= p -> 0 <= o3n -> 0 <= o3_absorption (A:=RA) m ll t p f o3n.
Proof.
  intros Hm G Hr Ht Hp Hn. unfold o3_absorption. destruct (@eqb RA _ _); [ra; lra|]. cbv zeta. rewrite Hm.
  assert (Hti : 0 < z_reftline ll / t) by (apply div_pos; auto).
  match goal with |- context [o3_loop ?a ?b ?c ?d] => assert (L : 0 <= o3_loop (A:=RA) a b c d) end.
  { apply loop_nonneg; [|ra; lra]. intros k Hk. apply lorentz_nonneg; auto; try lra; exact (proj1 (Forall_forall _ _) G k Hk). }
  match goal with |- context [o3_loop ?a ?b ?c ?d] => set (x := o3_loop (A:=RA) a b c d) in * end. clearbody x. ra.
  rewrite Rpowf_pos by auto. assert (P := Rpower_pos (z_reftline ll / t) (25 / 10)). assert (V := qvinv_pos t Ht).
  replace (- (10080 / 10) / t) with (- 1008 / t) by (unfold Rdiv; lra). 
  apply Rmult_le_pos; [|lra]. apply Rmult_le_pos; [|lra]. apply Rmult_le_pos; [|lra]. lra.
Qed.

Theorem C56_no_ozone m (ll : o3_ll RA) t p f : o3_absorption (A:=RA) m ll t p f 0 = 0.
Proof. unfold o3_absorption. match goal with |- context [@eqb ?A ?a ?b] => replace (@eqb A a b) with true by (symmetry; apply Reqb_true; ra; lra) end. ra. lra. Qed.

(** ** The shipped lists *)

Definition dec_le (a b : dec) : bool := match a, b with Dec n p, Dec n' p' => Z.leb (n * Zpos p') (n' * Zpos p) end.
Lemma dec_le_R a b : dec_le a b = true -> litR a <= litR b.
Proof.
  destruct a as [n p], b as [n' p']. cbn. intros H%Z.leb_le%IZR_le. rewrite !mult_IZR in H.
  assert (A : 0 < IZR (Zpos p)) by (apply (IZR_lt 0); lia). assert (B : 0 < IZR (Zpos p')) by (apply (IZR_lt 0); lia).
  apply (Rmult_le_reg_r (IZR (Zpos p) * IZR (Zpos p'))); [apply Rmult_lt_0_compat; auto|]. 
  replace (IZR n / IZR (Zpos p) * (IZR (Zpos p) * IZR (Zpos p'))) with (IZR n * IZR (Zpos p')) by (field; lra).
  replace (IZR n' / IZR (Zpos p') * (IZR (Zpos p) * IZR (Zpos p'))) with (IZR n' * IZR (Zpos p)) by (field; lra). exact H.
Qed.

Fixpoint sorted_rows (l : list (list dec)) : bool :=
  match l with
  | r :: ((r' :: _) as rest) => dec_le (nth 1 r 0%dec) (nth 1 r' 0%dec) && sorted_rows rest
  | _ => true
  end.
Lemma sorted_rows_R l : sorted_rows l = true -> StronglySorted by_freq (map (o3_row (A:=RA)) l).
Proof.
  intros H. apply Sorted_StronglySorted; [intros a b c X Y; unfold by_freq in *; lra|].
  induction l as [|r l IH]; cbn [map]; [constructor|]. destruct l as [|r' l]; [repeat constructor|].
  cbn [sorted_rows] in H. apply andb_true_iff in H. destruct H as [H1 H2]. constructor; [apply IH; auto|]. cbn [map]. constructor.
  unfold by_freq, o3_row, col. cbn [z_fl]. apply dec_le_R. exact H1.
Qed.

Definition o3_row_ok (r : list dec) : bool := dec_nn (nth 2 r 0%dec) && dec_nn (nth 4 r 0%dec).
Lemma o3_row_good l : forallb o3_row_ok l = true -> Forall good_o3 (map (o3_row (A:=RA)) l).
Proof.
  intros H. apply Forall_forall. intros x Hx. apply in_map_iff in Hx. destruct Hx as (r & <- & Hr).
  assert (K := proj1 (forallb_forall _ _) H r Hr). unfold o3_row_ok in K. apply andb_true_iff in K. destruct K as [K1 K2]. apply dec_nn_R in K1, K2.
  split; unfold o3_row, col; cbn [z_s1 z_w]; auto. apply div_nonneg; [exact K2|ra; lra].
Qed.

(** The shipped ozone lists are sorted and have non-negative strengths and widths. *)
Theorem C56_shipped_lists m ll : db_o3 (@shipped RA) m = Some ll -> StronglySorted by_freq (z_lines ll) /\ Forall good_o3 (z_lines ll) /\ 0 < z_reftline ll.
Proof.
  intros H. change (shipped_o3 (A:=RA) m = Some ll) in H. unfold shipped_o3 in H.
  assert (X : forall mtx rl, sorted_rows mtx = true -> forallb o3_row_ok mtx = true -> dec_pos rl = true ->
     Some (o3_load (A:=RA) mtx rl) = Some ll -> StronglySorted by_freq (z_lines ll) /\ Forall good_o3 (z_lines ll) /\ 0 < z_reftline ll).
  { intros mtx rl A B C E. apply (f_equal (fun o : option (o3_ll RA) => match o with Some l => l | None => ll end)) in E. cbv beta iota in E. rewrite <- E.
    unfold o3_load. cbn [z_lines z_reftline]. split; [apply sorted_rows_R; auto|]. split; [apply o3_row_good; auto|apply dec_pos_R; auto]. }
  destruct (String.eqb m "R18"); [refine (X _ _ _ _ _ H); vm_compute; reflexivity|].
  destruct (String.eqb m "R22"); [refine (X _ _ _ _ _ H); vm_compute; reflexivity|].
  destruct (String.eqb m "R23"); [refine (X _ _ _ _ _ H); vm_compute; reflexivity|]. discriminate.
Qed.

Example C56_example : exists ll, db_o3 (@shipped RA) "R18" = Some ll /\ List.length (z_lines ll) = 321%nat /\
  0 <= o3_absorption (A:=RA) "R18" ll 220 50 110.836 3e18.
Proof.
  destruct (shipped_o3 (A:=RA) "R18") as [ll|] eqn:E; [|discriminate E]. exists ll. split; [exact E|]. split.
  - apply (f_equal (fun o : option (o3_ll RA) => match o with Some l => List.length (z_lines l) | None => 0%nat end)) in E. cbv beta iota in E. rewrite <- E. vm_compute. reflexivity.
  - destruct (C56_shipped_lists "R18" ll E) as (_ & G & R). apply C56_nonnegative; auto; lra.
Qed.
