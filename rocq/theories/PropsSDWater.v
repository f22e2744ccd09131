(** Claim C57 for the models with speed-dependent shapes, over the reals. *)

From Coq Require Import ZArith Reals Lra Lia Psatz String List Bool.
Import ListNotations.
From Verif Require Import Arith PyBase Utils Absorption Clear Spectrum Spec RealAux SolverGen LineData Lineshape PropsAbsN2 PropsLiq PropsClear PropsO2H2O PropsH2O SDShape PropsSD PropsSelfCont SelfMWL.
Local Open Scope string_scope.
Open Scope R_scope.

(** ** One line *)

(** Half-widths of absorption_model.py:537-556, for dry pressure, vapour pressure and inverse temperature [ti]. *)
Definition halfwidth (e : h2o_env RA) (ti : R) (ln : h2o_line RA) : R :=
  h_w0 ln * e_pda e * Rpower ti (h_x ln) + h_w0s ln * e_pvap e * Rpower ti (h_xs ln).
Definition halfwidth2 (m : string) (e : h2o_env RA) (ti : R) (ln : h2o_line RA) : R :=
  if str_in m h2o_delta2_models
  then (if Rlt_dec 0 (h_w2 ln) then h_w2 ln * e_pda e * Rpower ti (h_xw2 ln) + h_w2s ln * e_pvap e * Rpower ti (h_xw2s ln) else 0)
  else h_w2 ln * e_pda e + h_w2s ln * e_pvap e.

(** The speed dependence of a line is absent or a correction, and the line is narrow on the scale of the cut-off. *)
Definition tame (m : string) (ll : h2o_ll RA) (e : h2o_env RA) (ti : R) (i : nat) (ln : h2o_line RA) : Prop :=
  halfwidth2 m e ti ln <= 0 \/ (mild (halfwidth e ti ln) (halfwidth2 m e ti ln) (shift2 m ll e i ln) /\ halfwidth e ti ln <= 70).

Lemma sd_above_base m ll e i ln (w0 w2 d : R) : mild w0 w2 (shift2 m ll e i ln) -> w0 <= 70 -> Rabs d <= 10 * w0 ->
  0 <= sd_line (A:=RA) m ll e i ln w0 w2 (w0 / (5625000/10 + w0 * w0)) d.
Proof.
  intros Hm Hw Hd. assert (K := C114_water_within m ll e i ln w0 w2 (w0 / (5625000/10 + w0 * w0)) d Hm Hd). destruct Hm as (H0 & (H1 & H1') & H2).
  assert (D : d * d <= 100 * (w0 * w0)).
  { replace (d * d) with (Rabs d * Rabs d) by (rewrite <- Rabs_mult; apply Rabs_pos_eq; nra). assert (G := Rabs_pos d). nra. }
  assert (B : w0 / (5625000/10 + w0 * w0) <= 88/100 * lorentz w0 d).
  { unfold lorentz. assert (0 < w0 * w0) by nra. assert (0 <= d * d) by nra.
    replace (88/100 * (w0 / (w0 * w0 + d * d))) with (w0 / (100/88 * (w0 * w0 + d * d))) by (field; lra).
    apply Rmult_le_compat_l; [lra|]. apply Rinv_le_contravar; nra. }
  lra.
Qed.

Lemma line_sd_nonneg m ll (e : h2o_env RA) (f ti tiln ti2 : R) i (ln : h2o_line RA) : good_line ln -> 0 <= e_pda e -> 0 <= e_pvap e -> 0 < ti -> 0 <= ti2 ->
  tame m ll e ti i ln -> 0 <= h2o_line_sd (A:=RA) m ll e f ti tiln ti2 i ln.
Proof.
  intros [Hs Hw Hws] Hp Hv Ht Ht2 HT. unfold h2o_line_sd. cbv zeta.
  match goal with |- context [local_line ?c ?w ?q ?b ?d] => set (W := w) end.
  match goal with |- context [ltb (a:=RA) (lit (Dec 0 1)) ?w2] => set (W2 := w2) end.
  assert (EW : (W : R) = halfwidth e ti ln) by (unfold W, halfwidth; ra; rewrite !Rpowf_pos by auto; reflexivity).
  assert (EW2 : (W2 : R) = halfwidth2 m e ti ln).
  { unfold W2, halfwidth2. destruct (str_in m h2o_delta2_models); [|reflexivity]. ra. rewrite !Rpowf_pos by auto. unfold Rltb. destruct (Rlt_dec (0/1) (h_w2 ln)), (Rlt_dec 0 (h_w2 ln)); try lra. }
  assert (HW : 0 <= W).
  { rewrite EW. unfold halfwidth. assert (A1 := Rpower_pos ti (h_x ln)). assert (A2 := Rpower_pos ti (h_xs ln)).
    apply Rplus_le_le_0_compat; apply Rmult_le_pos; try lra; apply Rmult_le_pos; auto. }
  unfold tame in HT. rewrite <- EW, <- EW2 in HT. clear EW EW2. clearbody W W2. rewrite powi2.
  match goal with |- context [add (add _ ?x) ?y] =>
    assert (L1 : 0 <= x); [|assert (L2 : 0 <= y) by (apply local_line_nonneg; exact HW); set (l1 := x) in *; set (l2 := y) in *] end.
  { match goal with |- context [if ?b then _ else _] => destruct b eqn:EB end; [|apply local_line_nonneg; exact HW].
    apply andb_true_iff in EB. destruct EB as [B1 B2]. ra. destruct (Rltb_spec (0/1) W2); [|discriminate]. 
    match type of B2 with Rltb ?a ?b = true => destruct (Rltb_spec a b); [|discriminate] end.
    destruct HT as [HT|[HT HT2]]; [lra|].
    apply sd_above_base; auto. lra. }
  clearbody l1 l2. ra. assert (X := exp_pos (h_b2 ln * (10 / 10 - ti))). assert (F := sq_nonneg (f / h_fl ln)).
  apply Rmult_le_pos; [|exact F]. apply Rmult_le_pos; [|lra]. apply Rmult_le_pos; [|lra]. apply Rmult_le_pos; auto.
Qed.

Lemma summ_sd_nonneg m ll (e : h2o_env RA) f s : startswith m h2o_sd_models = true -> Forall good_line (h_lines ll) -> 0 < h_reftline ll -> 0 < e_t e -> 0 <= e_pda e -> 0 <= e_pvap e ->
  (forall i ln, nth_error (h_lines ll) i = Some ln -> tame m ll e (h_reftline ll / e_t e) i ln) ->
  h2o_summ (A:=RA) m ll e f = Some s -> 0 <= s.
Proof.
  intros Hm Hl Hr Ht Hp Hv HT H. unfold h2o_summ in H. rewrite Hm in H.
  apply (f_equal (fun o : option (car RA) => match o with Some x => x : R | None => 0 end)) in H. cbv beta iota zeta in H. rewrite <- H.
  apply sum_from_nonneg; [ra; lra|]. intros x Hx. apply in_map_iff in Hx. destruct Hx as ((i & ln) & <- & Hln).
  assert (0 < h_reftline ll / e_t e) by (apply div_pos; auto).
  assert (HI : nth_error (h_lines ll) i = Some ln).
  { clear - Hln. assert (G : forall (l : list (h2o_line RA)) k, In (i, ln) (combine (seq k (List.length l)) l) -> (k <= i)%nat /\ nth_error l (i - k) = Some ln).
    { induction l as [|a l IH]; intros k; cbn [List.length seq combine In]; [tauto|]. intros [E|E].
      - injection E as <- <-. split; [lia|]. rewrite Nat.sub_diag. reflexivity.
      - apply IH in E. destruct E as [E1 E2]. split; [lia|]. replace (i - k)%nat with (S (i - S k)) by lia. exact E2. }
    apply G in Hln. rewrite Nat.sub_0_r in Hln. tauto. }
  apply line_sd_nonneg; auto.
  - exact (proj1 (Forall_forall _ _) Hl ln (nth_error_In _ _ HI)).
  - ra. apply Rlt_le, exp_pos.
Qed.

(** ** The shipped lists *)

Definition sd_models := ["R19SD"; "R20SD"; "R21SD"; "R22SD"; "R23SD"; "R24"; "MWL24"].

Lemma pow_unit lo hi ti x : 0 < lo <= 1 -> 1 <= hi -> lo <= ti <= hi -> 0 <= x <= 1 -> lo <= Rpower ti x <= hi.
Proof.
  intros Hl Hh Ht Hx. assert (0 < ti) by lra. split.
  - destruct (Rle_dec 1 ti) as [G|G].
    + apply Rle_trans with 1; [lra|]. rewrite <- (Rpower_O ti) by lra. apply Rle_Rpower; lra.
    + apply Rle_trans with ti; [lra|]. rewrite <- (Rpower_1 ti) at 1 by lra. unfold Rpower. 
      assert (ln ti < 0) by (rewrite <- ln_1; apply ln_increasing; lra). 
      destruct (Req_dec (1 * ln ti) (x * ln ti)) as [->|N]; [lra|]. apply Rlt_le, exp_increasing. nra.
  - destruct (Rle_dec 1 ti) as [G|G].
    + apply Rle_trans with ti; [|lra]. rewrite <- (Rpower_1 ti) at 2 by lra. apply Rle_Rpower; lra.
    + apply Rle_trans with 1; [|lra]. unfold Rpower. rewrite <- exp_0. 
      assert (ln ti < 0) by (rewrite <- ln_1; apply ln_increasing; lra). 
      destruct (Req_dec (x * ln ti) 0) as [->|N]; [lra|]. apply Rlt_le, exp_increasing. nra.
Qed.

(** Exponents up to 5/4: one factor more, the fourth root. *)
Lemma pow_quarter lo hi l4 h4 ti x : 0 < lo <= 1 -> 1 <= hi -> lo <= ti <= hi -> 0 < l4 <= 1 -> 1 <= h4 -> l4 * l4 * (l4 * l4) <= lo -> hi <= h4 * h4 * (h4 * h4) -> 1 <= x <= 5/4 ->
  lo * l4 <= Rpower ti x <= hi * h4.
Proof.
  intros Hl Hh Ht L4 H4 E1 E2 Hx. assert (0 < ti) by lra. replace x with (1 + (x - 1)) by ring. rewrite Rpower_plus, Rpower_1 by lra.
  assert (P := Rpower_pos ti (x - 1)). set (q := Rpower ti (x - 1)) in *.
  assert (Q : q * q * (q * q) = Rpower ti (4 * (x - 1))).
  { replace (4 * (x - 1)) with ((x - 1) + (x - 1) + ((x - 1) + (x - 1))) by ring. rewrite !Rpower_plus. reflexivity. }
  destruct (pow_unit lo hi ti (4 * (x - 1)) Hl Hh Ht ltac:(lra)) as [B1 B2]. rewrite <- Q in B1, B2. clearbody q.
  assert (Q1 : l4 <= q).
  { apply Rnot_lt_le. intros C. assert (q * q < l4 * l4) by nra. assert (q * q * (q * q) < l4 * l4 * (l4 * l4)) by (apply Rmult_gt_0_lt_compat; nra). lra. }
  assert (Q2 : q <= h4).
  { apply Rnot_lt_le. intros C. assert (h4 * h4 < q * q) by nra. assert (h4 * h4 * (h4 * h4) < q * q * (q * q)) by (apply Rmult_gt_0_lt_compat; nra). lra. }
  split; nra.
Qed.

(** A line whose foreign and self parts are both mild. *)
Lemma tame_sum (p v a as_ b bs d ds : R) : 0 <= p -> 0 <= v -> p + v <= 1100 -> 0 < b -> 0 < bs -> 5 * b <= a <= 36 * b -> 5 * bs <= as_ <= 36 * bs ->
  Rabs d <= 13/100 * b -> Rabs ds <= 13/100 * bs -> a <= 63/1000 -> as_ <= 63/1000 ->
  p * b + v * bs <= 0 \/ (mild (p * a + v * as_) (p * b + v * bs) (p * d + v * ds) /\ p * a + v * as_ <= 70).
Proof.
  intros Hp Hv S B Bs A As D Ds U Us. destruct (Rle_dec (p * b + v * bs) 0) as [L|L]; [left; exact L|right].
  split; [|nra]. split; [lra|]. split; [split; nra|].
  eapply Rle_trans; [apply Rabs_triang|]. rewrite !Rabs_mult, (Rabs_pos_eq p), (Rabs_pos_eq v) by auto. nra.
Qed.

Definition dec_zero (d : dec) : bool := match d with Dec n _ => Z.eqb n 0 end.
Lemma dec_zero_R d : dec_zero d = true -> litR d = 0.
Proof. destruct d as [n q]. cbn. intros ->%Z.eqb_eq. unfold Rdiv. apply Rmult_0_l. Qed.

(** Rows without speed dependence. *)
Definition flat (m : string) (r : list dec) : bool :=
  dec_zero (nth 14 r 0%dec) && (str_in m h2o_delta2_models || dec_zero (nth 15 r 0%dec)).

Lemma flat_tame m ll e ti i r : In m sd_models -> flat m r = true -> tame m ll e ti i (h2o_row (A:=RA) m r).
Proof.
  intros Hm H. left. unfold flat in H. apply andb_true_iff in H. destruct H as [H14 H15]. apply dec_zero_R in H14.
  assert (W2 : (h_w2 (h2o_row (A:=RA) m r) : R) = 0).
  { unfold h2o_row. cbn [h_w2]. unfold col. assert (X : (div (a:=RA) (lit (a:=RA) (nth 14 r 0%dec)) (lit (Dec 10000 10)) : R) = 0).
    { ra. rewrite H14. unfold Rdiv. ring. } 
    match goal with |- (if ?b then _ else _) = _ => destruct b end; [exact X|ra; lra]. }
  unfold halfwidth2. destruct (str_in m h2o_delta2_models) eqn:E2.
  - destruct (Rlt_dec 0 (h_w2 (h2o_row (A:=RA) m r))); [exfalso; lra|lra].
  - cbn [orb] in H15. apply dec_zero_R in H15.
    assert (W2s : (h_w2s (h2o_row (A:=RA) m r) : R) = 0).
    { assert (X : (div (a:=RA) (lit (a:=RA) (nth 15 r 0%dec)) (lit (Dec 10000 10)) : R) = 0). { ra. rewrite H15. unfold Rdiv. ring. }
      clear - X Hm E2. unfold sd_models in Hm. cbn [In] in Hm. 
      repeat (destruct Hm as [<-|Hm]; [try discriminate E2; exact X|]). contradiction. }
    rewrite W2, W2s. lra.
Qed.

(** Temperatures from 100 K to 385 K, reference temperature 296 K. *)
Lemma warm_pow ti x : 296/385 <= ti <= 296/100 -> 0 <= x <= 1 -> 7688/10000 <= Rpower ti x <= 296/100.
Proof. intros Ht Hx. apply pow_unit; lra. Qed.
Lemma warm_pow' ti x : 296/385 <= ti <= 296/100 -> 1 <= x <= 5/4 -> 719/1000 <= Rpower ti x <= 39/10.
Proof. intros Ht Hx. destruct (pow_quarter (7688/10000) (296/100) (936/1000) (1312/1000) ti x) as [A B]; try lra. Qed.

Lemma warm_pow45 ti x : 296/385 <= ti <= 296/100 -> 0 <= x <= 4/5 -> 81/100 <= Rpower ti x <= 296/100.
Proof.
  intros Ht Hx. split; [|apply warm_pow; lra]. assert (P := Rpower_pos ti x). set (q := Rpower ti x) in *.
  assert (B : 7688/10000 * (7688/10000) * (7688/10000 * (7688/10000)) <= q * q * (q * q) * q).
  { assert (Q : q * q * (q * q) * q = Rpower ti (5 / 4 * x) * Rpower ti (5 / 4 * x) * (Rpower ti (5 / 4 * x) * Rpower ti (5 / 4 * x))).
    { unfold q. rewrite <- !Rpower_plus. f_equal. lra. }
    rewrite Q. destruct (warm_pow ti (5 / 4 * x) Ht ltac:(lra)) as [W _]. set (w := Rpower ti (5 / 4 * x)) in *. clearbody w. apply Rmult_le_compat; nra. }
  apply Rnot_lt_le. intros C. clearbody q. assert (q * q < 81/100 * (81/100)) by nra. assert (q * q * (q * q) < 81/100 * (81/100) * (81/100 * (81/100))) by (apply Rmult_gt_0_lt_compat; nra).
  assert (q * q * (q * q) * q < 81/100 * (81/100) * (81/100 * (81/100)) * (81/100)) by (apply Rmult_gt_0_lt_compat; nra). lra.
Qed.

Lemma warm_pow35 ti x : 296/385 <= ti <= 296/100 -> 0 <= x <= 3/5 -> 85/100 <= Rpower ti x <= 296/100.
Proof.
  intros Ht Hx. split; [|apply warm_pow; lra]. assert (P := Rpower_pos ti x). set (q := Rpower ti x) in *.
  assert (B : 7688/10000 * (7688/10000) * (7688/10000) <= q * q * (q * q) * q).
  { assert (Q : q * q * (q * q) * q = Rpower ti (5 / 3 * x) * Rpower ti (5 / 3 * x) * Rpower ti (5 / 3 * x)).
    { unfold q. rewrite <- !Rpower_plus. f_equal. lra. }
    rewrite Q. destruct (warm_pow ti (5 / 3 * x) Ht ltac:(lra)) as [W _]. set (w := Rpower ti (5 / 3 * x)) in *. clearbody w. apply Rmult_le_compat; nra. }
  apply Rnot_lt_le. intros C. clearbody q. assert (q * q < 85/100 * (85/100)) by nra. assert (q * q * (q * q) < 85/100 * (85/100) * (85/100 * (85/100))) by (apply Rmult_gt_0_lt_compat; nra).
  assert (q * q * (q * q) * q < 85/100 * (85/100) * (85/100 * (85/100)) * (85/100)) by (apply Rmult_gt_0_lt_compat; nra). lra.
Qed.

Section Rows.
Variables (e : h2o_env RA) (ti : R) (ll : h2o_ll RA).
Hypothesis Hp : 0 <= (e_pda e : R).
Hypothesis Hv : 0 <= (e_pvap e : R).
Hypothesis Hs : (e_pda e : R) + (e_pvap e : R) <= 1100.
Hypothesis Ht : 296/385 <= ti <= 296/100.

Lemma tame_row m i (r : list dec) (a as_ b bs d ds : R) : str_in m h2o_delta2_models = false ->
  h_w0 (h2o_row (A:=RA) m r) * Rpower ti (h_x (h2o_row (A:=RA) m r)) = a -> h_w0s (h2o_row (A:=RA) m r) * Rpower ti (h_xs (h2o_row (A:=RA) m r)) = as_ ->
  (h_w2 (h2o_row (A:=RA) m r) : R) = b -> (h_w2s (h2o_row (A:=RA) m r) : R) = bs -> shift2 m ll e i (h2o_row (A:=RA) m r) = e_pda e * d + e_pvap e * ds ->
  0 < b -> 0 < bs -> 5 * b <= a <= 36 * b -> 5 * bs <= as_ <= 36 * bs ->
  Rabs d <= 13/100 * b -> Rabs ds <= 13/100 * bs -> a <= 63/1000 -> as_ <= 63/1000 -> tame m ll e ti i (h2o_row (A:=RA) m r).
Proof.
  intros Hm Ea Eas Eb Ebs Es B Bs A As D Ds U Us. unfold tame, halfwidth2, halfwidth. rewrite Hm, Es, Eb, Ebs.
  destruct (tame_sum (e_pda e) (e_pvap e) a as_ b bs d ds Hp Hv Hs B Bs A As D Ds U Us) as [L|[L1 L2]].
  - left. lra.
  - right. rewrite <- Ea, <- Eas in L1, L2. split.
    + match type of L1 with mild ?x ?y ?z => match goal with |- mild ?x' ?y' ?z' => replace x' with x by ring; replace y' with y by ring; exact L1 end end.
    + eapply Rle_trans; [|exact L2]. apply Req_le. ring.
Qed.

Lemma tame_row2 m i (r : list dec) (a as_ b bs d ds : R) : str_in m h2o_delta2_models = true -> String.eqb m "R20SD" = false ->
  h_w0 (h2o_row (A:=RA) m r) * Rpower ti (h_x (h2o_row (A:=RA) m r)) = a -> h_w0s (h2o_row (A:=RA) m r) * Rpower ti (h_xs (h2o_row (A:=RA) m r)) = as_ ->
  0 < (h_w2 (h2o_row (A:=RA) m r) : R) -> h_w2 (h2o_row (A:=RA) m r) * Rpower ti (h_xw2 (h2o_row (A:=RA) m r)) = b -> h_w2s (h2o_row (A:=RA) m r) * Rpower ti (h_xw2s (h2o_row (A:=RA) m r)) = bs ->
  (h_d2 (h2o_row (A:=RA) m r) : R) = d -> (h_d2s (h2o_row (A:=RA) m r) : R) = ds ->
  0 < b -> 0 < bs -> 5 * b <= a <= 36 * b -> 5 * bs <= as_ <= 36 * bs ->
  Rabs d <= 13/100 * b -> Rabs ds <= 13/100 * bs -> a <= 63/1000 -> as_ <= 63/1000 -> tame m ll e ti i (h2o_row (A:=RA) m r).
Proof.
  intros Hm Hm' Ea Eas W2 Eb Ebs Ed Eds B Bs A As D Ds U Us. unfold tame, halfwidth2, halfwidth, shift2. rewrite Hm, Hm', Ed, Eds.
  destruct (Rlt_dec 0 (h_w2 (h2o_row (A:=RA) m r))) as [_|N]; [|contradiction].
  destruct (tame_sum (e_pda e) (e_pvap e) a as_ b bs d ds Hp Hv Hs B Bs A As D Ds U Us) as [L|[L1 L2]].
  - left. rewrite <- Eb, <- Ebs in L. lra.
  - right. rewrite <- Ea, <- Eas in L1, L2. rewrite <- Eb, <- Ebs in L1. split.
    + match type of L1 with mild ?x ?y ?z => match goal with |- mild ?x' ?y' ?z' => replace x' with x by ring; replace y' with y by ring; replace z' with z by ring; exact L1 end end.
    + eapply Rle_trans; [|exact L2]. apply Req_le. ring.
Qed.
End Rows.

Lemma rows_tame m (ll : h2o_ll RA) (e : h2o_env RA) ti mtx : In m sd_models -> h_lines ll = map (h2o_row (A:=RA) m) mtx -> forallb (flat m) (skipn 2 mtx) = true ->
  (forall i r, (i < 2)%nat -> nth_error mtx i = Some r -> tame m ll e ti i (h2o_row (A:=RA) m r)) ->
  forall i ln, nth_error (h_lines ll) i = Some ln -> tame m ll e ti i ln.
Proof.
  intros Hm E F H2 i ln. rewrite E, nth_error_map. destruct (nth_error mtx i) as [r|] eqn:N; [|discriminate]. cbn [option_map]. intros X. injection X as <-.
  destruct (Nat.lt_ge_cases i 2) as [L|L]; [apply H2; auto|]. apply flat_tame; auto.
  apply (proj1 (forallb_forall _ _) F). rewrite <- (firstn_skipn 2 mtx) in N.
  assert (LF : (List.length (firstn 2 mtx) <= i)%nat) by (rewrite firstn_length; lia). rewrite nth_error_app2 in N by exact LF. exact (nth_error_In _ _ N).
Qed.

Ltac rowcbn := cbn [h2o_row h_w0 h_w0s h_x h_xs h_w2 h_w2s h_xw2 h_xw2s h_d2 h_d2s str_in existsb String.eqb Ascii.eqb Bool.eqb orb]; unfold col; cbn [nth]; ra.
Ltac absn := match goal with |- Rabs ?x <= _ => first [rewrite (Rabs_pos_eq x) by lra | rewrite (Rabs_left x) by lra]; lra end.

Ltac start H ll e ti T TI mtx rf :=
  cbn [String.eqb Ascii.eqb Bool.eqb] in H;
  apply (f_equal (fun o : option (h2o_ll RA) => match o with Some l => l | None => ll end)) in H; cbv beta iota in H;
  assert (T : 296/385 <= h_reftline ll / e_t e <= 296/100) by (apply TI; rewrite <- H; cbn [h2o_load h_reftline]; unfold rf; ra; lra);
  set (ti := h_reftline ll / e_t e) in *; clearbody ti;
  apply (rows_tame _ _ _ _ mtx); [auto|rewrite <- H; reflexivity|vm_compute; reflexivity|].

Theorem tame_shipped m (ll : h2o_ll RA) (e : h2o_env RA) : In m sd_models -> db_h2o (@shipped RA) m = Some ll -> 100 <= e_t e <= 385 -> 0 <= e_pda e -> 0 <= e_pvap e -> e_pda e + e_pvap e <= 1100 ->
  forall i ln, nth_error (h_lines ll) i = Some ln -> tame m ll e (h_reftline ll / e_t e) i ln.
Proof.
  intros Hm H Ht Hp Hv Hs. change (shipped_h2o (A:=RA) m = Some ll) in H. unfold shipped_h2o in H.
  assert (TI : forall l : R, l = 296 -> 296/385 <= l / e_t e <= 296/100).
  { intros l ->. split; (apply Rmult_le_compat_l; [lra|apply Rinv_le_contravar; lra]). }
  assert (Hm' := Hm). unfold sd_models in Hm'. cbn [In] in Hm'.
  destruct Hm' as [Hm'|Hm'].
  { subst m. start H ll e ti T TI h2o_mtx_R19SD h2o_reftline_R19SD.
    intros [|[|i]] r L N; [| |lia]; unfold h2o_mtx_R19SD in N; cbn [nth_error] in N; injection N as <-; [apply flat_tame; auto|].
    destruct (warm_pow45 ti (55/100) T ltac:(lra)). destruct (warm_pow45 ti (79/100) T ltac:(lra)).
    eapply (tame_row e ti ll Hp Hv Hs) with (d := 0) (ds := 0); try reflexivity; rowcbn; try lra; [|absn..].
    change (0 = e_pda e * 0 + e_pvap e * 0). lra. }
  destruct Hm' as [Hm'|Hm'].
  { subst m. start H ll e ti T TI h2o_mtx_R20SD h2o_reftline_R20SD.
    intros [|[|i]] r L N; [| |lia]; unfold h2o_mtx_R20SD in N; cbn [nth_error] in N; injection N as <-.
    - destruct (warm_pow45 ti (76/100) T ltac:(lra)). destruct (warm_pow' ti (12/10) T ltac:(lra)).
      eapply (tame_row e ti ll Hp Hv Hs) with (d := 0) (ds := 0); try reflexivity; rowcbn; try lra; [|absn..].
      change (0 = e_pda e * 0 + e_pvap e * 0). lra.
    - destruct (warm_pow45 ti (62/100) T ltac:(lra)). destruct (warm_pow ti (82/100) T ltac:(lra)).
      eapply (tame_row e ti ll Hp Hv Hs) with (d := litR h2o_d2air_R20SD) (ds := litR h2o_d2self_R20SD); try reflexivity; rowcbn; unfold h2o_d2air_R20SD, h2o_d2self_R20SD; cbn [litR]; try lra; [|absn..].
      unfold shift2. cbn [String.eqb Ascii.eqb Bool.eqb Nat.eqb]. rewrite <- H. cbn [h2o_load h_d2air h_d2self]. unfold h2o_d2air_R20SD, h2o_d2self_R20SD. ra. lra. }
  assert (P0 : forall t, 0 < t -> Rpower t (0 / 10) = 1) by (intros t Hpt; replace (0 / 10) with 0 by lra; apply Rpower_O; auto).
  assert (SP : forall t a b c : R, a = b + c -> Rpower t a = Rpower t b * Rpower t c) by (intros t a b c ->; apply Rpower_plus).
  repeat (destruct Hm' as [Hm'|Hm']; [subst m;
    first [ start H ll e ti T TI h2o_mtx_R21SD h2o_reftline_R21SD | start H ll e ti T TI h2o_mtx_R22SD h2o_reftline_R22SD
          | start H ll e ti T TI h2o_mtx_R22SD h2o_reftline_R23SD | start H ll e ti T TI h2o_mtx_R22SD h2o_reftline_R24 | start H ll e ti T TI h2o_mtx_MWL24 h2o_reftline_MWL24 ];
    (intros [|[|i]] r L N; [| |lia]; unfold h2o_mtx_R21SD, h2o_mtx_R22SD, h2o_mtx_MWL24 in N; cbn [nth_error] in N; injection N as <-;
    [ destruct (warm_pow45 ti (76/100) T ltac:(lra)); destruct (warm_pow' ti (12/10) T ltac:(lra));
      eapply (tame_row2 e ti ll Hp Hv Hs); try reflexivity; rowcbn; rewrite ?P0 by lra; try lra; try absn
    | assert (X82 := warm_pow ti (82/100) T ltac:(lra)); rewrite (SP ti (82/100) (571/1000) (249/1000)) in X82 by lra;
      destruct (warm_pow45 ti (412/1000) T ltac:(lra)); destruct (warm_pow45 ti (208/1000) T ltac:(lra)); destruct (warm_pow35 ti (571/1000) T ltac:(lra)); destruct (warm_pow45 ti (249/1000) T ltac:(lra));
      eapply (tame_row2 e ti ll Hp Hv Hs); try reflexivity; rowcbn; rewrite ?P0 by lra;
      rewrite ?(SP ti (62/100) (412/1000) (208/1000)) by lra; rewrite ?(SP ti (82/100) (571/1000) (249/1000)) by lra; try lra; try absn; try nra])|]).
  contradiction.
Qed.

(** ** C57 for the models with speed-dependent shapes *)

(** Lines: any list whose lines are tame at the given conditions. *)
Theorem C57_sd_lines m (ll : h2o_ll RA) pd vx ek f n c : In m sd_models -> Forall good_line (h_lines ll) -> 0 < h_reftline ll -> 0 < vx -> 0 <= pd -> 0 <= ek -> 0 < f ->
  (forall i ln, nth_error (h_lines ll) i = Some ln -> tame m ll (h2o_env_of (A:=RA) m pd vx ek) (h_reftline ll / e_t (h2o_env_of (A:=RA) m pd vx ek)) i ln) ->
  h2o_absorption (A:=RA) m ll pd vx ek f = Ok (n, c) -> 0 <= n.
Proof.
  intros Hm Gl Gr Hv Hp He Hf HT H. destruct (h2o_env_range m pd vx ek Hv Hp He) as (E1 & E2 & E3 & E4 & E5).
  destruct (C53_h2o_units m ll pd vx ek f n c ltac:(lra) H) as [(_ & -> & ->)|(_ & s & con & Hs & Hc & Hn & Hcc)]; [lra|].
  assert (SW : startswith m h2o_sd_models = true) by (unfold sd_models in Hm; cbn [In] in Hm; intuition subst; reflexivity).
  assert (S := summ_sd_nonneg m ll _ f s SW Gl Gr E1 E4 E3 HT Hs).
  apply (npkm_sign f); auto. rewrite Hn. unfold line_npkm.
  destruct (str_in m ["R22SD"; "R23SD"; "R24"]); [|apply Rmult_le_pos; auto; apply Rmult_le_pos; lra].
  apply Rmult_le_pos; [apply Rmult_le_pos; [lra|apply div_nonneg; [exact E2|lra]]|apply div_nonneg; [exact S|apply PI_RGT_0]].
Qed.

Lemma sd_lists_good m ll : In m sd_models -> db_h2o (@shipped RA) m = Some ll ->
  Forall good_line (h_lines ll) /\ 0 < h_reftcon ll /\ 0 < h_reftline ll /\ 0 <= h_cf ll /\ (if str_in m ["R23SD"; "R24"] then h_cs ll <= 0 else 0 <= h_cs ll).
Proof.
  unfold sd_models. cbn [In]. intros Hm H. change (shipped_h2o (A:=RA) m = Some ll) in H. unfold shipped_h2o in H.
  assert (G : forall mtx ctr rl a b, forallb (row_ok m) mtx = true -> dec_pos (nth 0 ctr 0%dec) && dec_nn (nth 1 ctr 0%dec) && dec_pos rl = true ->
    let l := h2o_load (A:=RA) m mtx ctr rl a b in Forall good_line (h_lines l) /\ 0 < h_reftcon l /\ 0 < h_reftline l /\ 0 <= h_cf l).
  { intros mtx ctr rl a b H1 H2. rewrite !andb_true_iff in H2. destruct H2 as ((C0 & C1) & C3). apply dec_nn_R in C1. apply dec_pos_R in C0, C3.
    cbv zeta. cbn [h2o_load h_lines h_reftcon h_reftline h_cf]. split; [|auto].
    rewrite Forall_forall. intros x Hx. apply in_map_iff in Hx. destruct Hx as (r & <- & Hr). apply row_good. exact (proj1 (forallb_forall _ _) H1 r Hr). }
  repeat (destruct Hm as [Hm|Hm]; [subst m; cbn [String.eqb Ascii.eqb Bool.eqb] in H;
    apply (f_equal (fun o : option (h2o_ll RA) => match o with Some l => l | None => ll end)) in H; cbv beta iota in H; rewrite <- H;
    (match goal with |- context [h2o_load ?m ?mt ?ct ?rl ?a ?b] => destruct (G mt ct rl a b ltac:(vm_compute; reflexivity) ltac:(vm_compute; reflexivity)) as (G1 & G2 & G3 & G4) end);
    split; [exact G1|]; split; [exact G2|]; split; [exact G3|]; split; [exact G4|];
    cbn [str_in existsb String.eqb Ascii.eqb Bool.eqb orb h2o_load h_cs]; unfold h2o_ctr_R19SD, h2o_ctr_R20SD, h2o_ctr_R24, h2o_ctr_R23SD, h2o_ctr_MWL24, h2o_ctr_R22SD, h2o_ctr_R21SD, col; cbn [nth]; ra; lra|]).
  contradiction.
Qed.

(** The shipped lists between 100 K and 385 K and up to 1100 hPa.  The tables of R23SD and R24 end at 1199 GHz; the sign of the
    continuum of MWL24 is shown below the same frequency. *)
Theorem C57_sd_shipped m ll pd vx ek f : In m sd_models -> db_h2o (@shipped RA) m = Some ll -> 0 < vx -> 100 <= 300 / vx <= 385 -> 0 <= pd -> 0 <= ek -> pd + ek <= 110 -> 0 < f ->
  (In m ["R23SD"; "R24"] -> f < 4 * node) ->
  exists n c, h2o_absorption (A:=RA) m ll pd vx ek f = Ok (n, c) /\ 0 <= n /\ ((m = "MWL24" -> f < 4 * node) -> 0 <= c).
Proof.
  intros Hm H Hv Ht Hp He Hs Hf HF. destruct (h2o_env_range m pd vx ek Hv Hp He) as (E1 & E2 & E3 & E4 & E5). set (e := h2o_env_of (A:=RA) m pd vx ek) in *.
  destruct (sd_lists_good m ll Hm H) as (G1 & G2 & G3 & G4 & G5).
  assert (ET : (e_t e : R) = 300 / vx) by (unfold e, h2o_env_of; cbn [e_t]; ra; lra).
  assert (PS : (e_pda e : R) + e_pvap e = (pd + ek) * 10) by (unfold e, h2o_env_of; cbn [e_pda e_pvap]; ra; lra).
  assert (TT := tame_shipped m ll e Hm H ltac:(lra) E4 E3 ltac:(lra)).
  assert (SW : startswith m h2o_sd_models = true) by (unfold sd_models in Hm; cbn [In] in Hm; intuition subst; reflexivity).
  assert (T64 : 1 / 64 <= 296 / (300 / vx) <= 64).
  { split; [apply Rle_trans with (296 / 385)|apply Rle_trans with (296 / 100)]; try lra; apply Rmult_le_compat_l; try lra; apply Rinv_le_contravar; lra. }
  assert (EX : exists n c, h2o_absorption (A:=RA) m ll pd vx ek f = Ok (n, c)).
  { unfold h2o_absorption. fold e. destruct (@eqb RA _ _); [do 2 eexists; reflexivity|]. unfold h2o_summ. rewrite SW. unfold h2o_con2.
    destruct (str_in m ["R23SD"; "R24"]) eqn:M.
    - assert (IM : In m ["R23SD"; "R24"]) by (unfold str_in in M; apply existsb_exists in M; destruct M as (q & Q1 & Q2); apply String.eqb_eq in Q2; subst q; exact Q1).
      cbv zeta. match goal with |- context [@ltb ?A ?a ?b] => replace (@ltb A a b) with false by (symmetry; apply Rltb_false; ra; lra) end.
      destruct (C58_positive vx f Hv T64 ltac:(split; [lra|auto])) as (v & Ev & Pv). rewrite Ev. unfold bind.
      match goal with |- exists n c, Ok ?p = _ => exists (fst p), (snd p) end. reflexivity.
    - cbv zeta. unfold bind. match goal with |- exists n c, Ok ?p = _ => exists (fst p), (snd p) end. reflexivity. }
  destruct EX as (n & c & EX). exists n, c. split; [exact EX|]. split; [exact (C57_sd_lines m ll pd vx ek f n c Hm G1 G3 Hv Hp He Hf TT EX)|].
  intros FM. destruct (str_in m ["R23SD"; "R24"]) eqn:M.
  - assert (IM : In m ["R23SD"; "R24"]) by (unfold str_in in M; apply existsb_exists in M; destruct M as (q & Q1 & Q2); apply String.eqb_eq in Q2; subst q; exact Q1).
    exact (proj1 (C57_tabulated_continuum m ll pd vx ek f n c IM G5 G4 G3 Hv T64 Hp He Hf EX)).
  - destruct (C53_h2o_units m ll pd vx ek f n c ltac:(lra) EX) as [(_ & -> & ->)|(_ & s & con & Hs' & Hc & Hn & Hcc)]; [lra|].
    apply (npkm_sign f); auto. rewrite Hcc. unfold h2o_con2 in Hc. rewrite M in Hc. apply ok_inj in Hc. rewrite <- Hc. fold e.
    destruct (String.eqb_spec m "MWL24") as [Em|NM]; [|apply con1_nonneg; auto]. subst m. unfold h2o_con1. cbn [str_in existsb String.eqb Ascii.eqb Bool.eqb orb].
    assert (S := mwl_self_nonneg f vx Hv Ht ltac:(assert (X := FM eq_refl); unfold node in X; lra)).
    ra. set (q := h2o_continuum_mwl24 (A:=RA) f vx) in *. clearbody q. change (car RA) with R in q. rewrite !Rpowf_pos by (try apply div_pos; lra).
    apply Rplus_le_le_0_compat; (apply Rmult_le_pos; [apply Rmult_le_pos|]); auto.
    assert (P1 := Rpower_pos (3000 / 10 / e_t e) (44 / 10)). assert (P2 := Rpower_pos f (196 / 100)). apply Rmult_le_pos; [apply Rmult_le_pos; lra|lra].
Qed.

(** The wing of the 183-GHz line, model MWL24. *)
Example C57_sd_mwl_example : exists ll, db_h2o (@shipped RA) "MWL24" = Some ll /\ exists n c, h2o_absorption (A:=RA) "MWL24" ll 98 (300 / 290) 1 150 = Ok (n, c) /\ 0 <= n /\ 0 <= c.
Proof.
  destruct (shipped_h2o (A:=RA) "MWL24") as [ll|] eqn:E; [|discriminate E]. exists ll. split; [exact E|].
  assert (E9 : 100 <= 300 / (300 / 290) <= 385) by (replace (300 / (300 / 290)) with 290 by field; lra).
  destruct (C57_sd_shipped "MWL24" ll 98 (300 / 290) 1 150) as (n & c & X & Y & Z); try lra; auto.
  - unfold sd_models. cbn [In]. tauto.
  - intros _. unfold node. lra.
  - exists n, c. split; [exact X|]. split; [exact Y|]. apply Z. intros _. unfold node. lra.
Qed.

(** The centre of the 183-GHz line, model R24. *)
Example C57_sd_example : exists ll, db_h2o (@shipped RA) "R24" = Some ll /\ exists n c, h2o_absorption (A:=RA) "R24" ll 98 (300 / 290) 1 183.31 = Ok (n, c) /\ 0 <= n /\ 0 <= c.
Proof.
  destruct (shipped_h2o (A:=RA) "R24") as [ll|] eqn:E; [|discriminate E]. exists ll. split; [exact E|].
  assert (E9 : 100 <= 300 / (300 / 290) <= 385) by (replace (300 / (300 / 290)) with 290 by field; lra).
  destruct (C57_sd_shipped "R24" ll 98 (300 / 290) 1 183.31) as (n & c & X & Y & Z); try lra; auto.
  - unfold sd_models. cbn [In]. tauto.
  - intros _. unfold node. lra.
  - exists n, c. split; [exact X|]. split; [exact Y|]. apply Z. intros; discriminate.
Qed.
