(** Claim C58: the tabulated self-continuum of water vapour (model R24), over the reals. *)

From Coq Require Import ZArith Reals Lra Lia Psatz String List Bool.
From Coquelicot Require Import Coquelicot.
Import ListNotations.
From Verif Require Import Arith PyBase Utils Absorption Clear Spectrum Spec RealAux SolverGen LineData Lineshape PropsAbsN2 PropsLiq PropsClear PropsO2H2O PropsH2O.
Local Open Scope string_scope.
Open Scope R_scope.

(** Specification: the fitted self-continuum at k times 299.792458 GHz (10 cm-1), for theta = 296 / t. *)
Definition mt_ckd (k : nat) (theta : R) : R :=
  let c := nth k [2.877; 2.855; 2.731; 2.49; 2.178; 1.863] 0 in
  let n := nth k [6.413; 6.414; 6.275; 6.049; 5.789; 5.557] 0 in
  6.532e12 * (c * 1e-21) * Rpower theta (n + 3).
Definition node : R := 299.792458.

(** The ordinates of the interpolation: the table extended by a mirror value in front. *)
Definition ord (theta : R) (i : nat) : R := match i with O => mt_ckd 1 theta | S k => mt_ckd k theta end.

(** The interpolating cubic on the interval between nodes [j] and [j+1], [p] in 0..1. *)
Definition cub (y : nat -> R) (j : nat) (p : R) : R :=
  let h00 := (1 + 2 * p) * (1 - p) * (1 - p) in let h01 := p * p * (3 - 2 * p) in
  let h10 := p * (1 - p) * (1 - p) in let h11 := p * p * (p - 1) in
  h00 * y (j + 1)%nat + h01 * y (j + 2)%nat + h10 * ((y (j + 2)%nat - y j) / 2) + h11 * ((y (j + 3)%nat - y (j + 1)%nat) / 2).

Lemma table_ord vx : 0 < vx -> continuum_table (A:=RA) vx = map (ord (296 / (300 / vx))) (seq 0 7).
Proof.
  intros Hv. assert (Ht : 0 < 296 / (300 / vx)) by (repeat apply div_pos; lra).
  unfold continuum_table, selfcon, selftexp. cbn [combine map seq nth ord]. cbv zeta. ra.
  replace (2960 / 10 / (3000 / 10 / vx)) with (296 / (300 / vx)) by (field; lra). set (th := 296 / (300 / vx)) in *.
  unfold mt_ckd. cbn [nth]. rewrite !Rpowf_pos by auto.
  repeat (apply f_equal2; [f_equal; [lra|f_equal; lra]|]). reflexivity.
Qed.

Lemma trunc_unit x j : IZR j <= x < IZR j + 1 -> 0 <= x -> Rtrunc x = j.
Proof.
  intros H Hx. unfold Rtrunc. destruct (Rle_dec 0 x); [|contradiction]. destruct (base_Int_part x) as [B1 B2].
  set (i := Int_part x) in *. clearbody i. assert (IZR i < IZR (j + 1)) by (rewrite plus_IZR; lra). assert (IZR j < IZR (i + 1)) by (rewrite plus_IZR; lra).
  apply lt_IZR in H0, H1. lia.
Qed.

Lemma cubic4_cub y j p : cubic4 (A:=RA) (y j) (y (j + 1)%nat) (y (j + 2)%nat) (y (j + 3)%nat) p = cub y j p.
Proof. unfold cubic4, cub. ra. field. Qed.

(** Inside the table the code returns the cubic Hermite interpolant through the ordinates, with central differences as
    slopes. *)
Theorem C58_value vx f j : 0 < vx -> (j <= 3)%nat -> INR j * node <= f < (INR j + 1) * node ->
  h2o_continuum (A:=RA) f vx = Ok (cub (ord (296 / (300 / vx))) j (f / node - INR j)).
Proof.
  intros Hv Hj Hf. unfold h2o_continuum. rewrite table_ord by auto. set (th := 296 / (300 / vx)).
  assert (N : 0 < node) by (unfold node; lra).
  assert (E : trunc (a:=RA) (div (a:=RA) f (deltaf (A:=RA))) = Some (Z.of_nat j)).
  { cbn [trunc RA]. f_equal. assert (D : div (a:=RA) f (deltaf (A:=RA)) = f / node) by (unfold deltaf, node; ra; f_equal; lra). rewrite D.
    assert (INR j <= f / node < INR j + 1).
    { split; [apply (Rmult_le_reg_r node)|apply (Rmult_lt_reg_r node)]; auto; unfold Rdiv; rewrite Rmult_assoc, Rinv_l, Rmult_1_r; lra. }
    apply trunc_unit; [rewrite <- INR_IZR_INZ; auto|]. assert (X := pos_INR j). lra. }
  cbv zeta. rewrite E. 
  assert (D : div (a:=RA) f (deltaf (A:=RA)) = f / node) by (unfold deltaf, node; ra; f_equal; lra). rewrite D.
  assert (Z.min (Z.of_nat j) 4 = Z.of_nat j) as -> by lia.
  assert (G : forall i, (i <= 6)%nat -> py_get (map (ord th) (seq 0 7)) (Z.of_nat i) = Ok (ord th i)).
  { intros i Hi. do 7 (destruct i as [|i]; [reflexivity|]). lia. }
  replace (Z.of_nat j + 1)%Z with (Z.of_nat (j + 1)) by lia. replace (Z.of_nat j + 2)%Z with (Z.of_nat (j + 2)) by lia. replace (Z.of_nat j + 3)%Z with (Z.of_nat (j + 3)) by lia.
  rewrite !G by lia. cbn [bind]. f_equal. rewrite <- cubic4_cub. f_equal. rewrite INR_IZR_INZ. ra. lra.
Qed.

(** Node values. *)
Theorem C58_nodes vx j : 0 < vx -> (j <= 3)%nat -> h2o_continuum (A:=RA) (INR j * node) vx = Ok (mt_ckd j (296 / (300 / vx))).
Proof.
  intros Hv Hj. assert (N : 0 < node) by (unfold node; lra). rewrite (C58_value vx _ j) by (auto; lra). f_equal.
  replace (INR j * node / node - INR j) with 0 by (field; lra). unfold cub. replace (j + 1)%nat with (S j) by lia. cbn [ord]. field.
Qed.

(** Frequencies at or above the fourth node raise, although two more table entries exist. *)
Theorem C58_out_of_range vx f : 0 < vx -> 4 * node <= f -> h2o_continuum (A:=RA) f vx = Err IndexError.
Proof.
  intros Hv Hf. unfold h2o_continuum. rewrite table_ord by auto. cbv zeta. cbn [trunc RA].
  assert (D : div (a:=RA) f (deltaf (A:=RA)) = f / node) by (unfold deltaf, node; ra; f_equal; lra). rewrite D.
  assert (N : 0 < node) by (unfold node; lra).
  assert (4 <= f / node) by (apply (Rmult_le_reg_r node); auto; unfold Rdiv; rewrite Rmult_assoc, Rinv_l, Rmult_1_r; lra).
  assert (Z.min (Rtrunc (f / node)) 4 = 4%Z) as ->; [|reflexivity].
  apply Z.min_r. unfold Rtrunc. destruct (Rle_dec 0 (f / node)); [|lra]. destruct (base_Int_part (f / node)) as [B1 B2].
  set (i := Int_part _) in *. clearbody i. assert (IZR 3 < IZR i) by lra. apply lt_IZR in H0. lia.
Qed.

(** The returned value as a function of the frequency. *)
Definition selfc (vx f : R) : R := match h2o_continuum (A:=RA) f vx with Ok v => v | Err _ => 0 end.

Lemma cub_continuous y j p : continuous (cub y j) p.
Proof. apply (ex_derive_continuous (cub y j)). unfold cub. auto_derive. auto. Qed.

Lemma Rmin_alt x c : Rmin x c = (x + c - Rabs (x - c)) / 2.
Proof. unfold Rmin. destruct (Rle_dec x c); [rewrite Rabs_left1 by lra|rewrite Rabs_right by lra]; lra. Qed.
Lemma Rmax_alt x c : Rmax x c = (x + c + Rabs (x - c)) / 2.
Proof. unfold Rmax. destruct (Rle_dec x c); [rewrite Rabs_left1 by lra|rewrite Rabs_right by lra]; lra. Qed.

Lemma cont_absdiff c x : continuous (fun x => Rabs (x - c)) x.
Proof. apply (continuous_comp (fun x => x - c) Rabs); [apply (ex_derive_continuous (fun x => x - c)); auto_derive; auto|apply continuous_Rabs]. Qed.

Lemma cont_min c x : continuous (fun x => Rmin x c) x.
Proof.
  apply (continuous_ext (fun x => (x + c - Rabs (x - c)) / 2)); [intros; symmetry; apply Rmin_alt|].
  apply (continuous_comp (fun x => x + c - Rabs (x - c)) (fun y => y / 2)); [|apply (ex_derive_continuous (fun y => y / 2)); auto_derive; auto].
  apply (continuous_minus (fun x => x + c) (fun x => Rabs (x - c))); [apply (ex_derive_continuous (fun x => x + c)); auto_derive; auto|apply cont_absdiff].
Qed.
Lemma cont_max c x : continuous (fun x => Rmax x c) x.
Proof.
  apply (continuous_ext (fun x => (x + c + Rabs (x - c)) / 2)); [intros; symmetry; apply Rmax_alt|].
  apply (continuous_comp (fun x => x + c + Rabs (x - c)) (fun y => y / 2)); [|apply (ex_derive_continuous (fun y => y / 2)); auto_derive; auto].
  apply (continuous_plus (fun x => x + c) (fun x => Rabs (x - c))); [apply (ex_derive_continuous (fun x => x + c)); auto_derive; auto|apply cont_absdiff].
Qed.

(** Around node [j] the value is the left cubic up to the node and the right cubic after it. *)
Definition glue (y : nat -> R) (j : nat) (u : R) : R :=
  cub y (j - 1) (Rmin u (INR j) - INR (j - 1)) + cub y j (Rmax u (INR j) - INR j) - y (j + 1)%nat.

Lemma glue_continuous y j u : continuous (glue y j) u.
Proof.
  unfold glue. apply (continuous_minus (fun u => cub y (j - 1) (Rmin u (INR j) - INR (j - 1)) + cub y j (Rmax u (INR j) - INR j)) (fun _ => y (j + 1)%nat)); [|apply continuous_const].
  apply (continuous_plus (fun u => cub y (j - 1) (Rmin u (INR j) - INR (j - 1))) (fun u => cub y j (Rmax u (INR j) - INR j))).
  - apply (continuous_comp (fun u => Rmin u (INR j)) (fun v => cub y (j - 1) (v - INR (j - 1)))); [apply cont_min|].
    apply (continuous_comp (fun v => v - INR (j - 1)) (cub y (j - 1))); [|apply cub_continuous]. apply (ex_derive_continuous (fun v => v - INR (j - 1))). auto_derive; auto.
  - apply (continuous_comp (fun u => Rmax u (INR j)) (fun v => cub y j (v - INR j))); [apply cont_max|].
    apply (continuous_comp (fun v => v - INR j) (cub y j)); [|apply cub_continuous]. apply (ex_derive_continuous (fun v => v - INR j)). auto_derive; auto.
Qed.

Lemma cub_0 y j : cub y j 0 = y (j + 1)%nat. Proof. unfold cub. field. Qed.
Lemma cub_1 y j : cub y j 1 = y (j + 2)%nat. Proof. unfold cub. field. Qed.

Lemma selfc_glue vx j f : 0 < vx -> (1 <= j <= 3)%nat -> (INR j - 1) * node <= f < (INR j + 1) * node -> selfc vx f = glue (ord (296 / (300 / vx))) j (f / node).
Proof.
  intros Hv Hj Hf. assert (N : 0 < node) by (unfold node; lra). unfold selfc, glue.
  assert (U : f = f / node * node) by (field; lra).
  assert (Ij : INR (j - 1) = INR j - 1) by (rewrite minus_INR by lia; reflexivity).
  destruct (Rlt_le_dec f (INR j * node)) as [L|L].
  - assert (f / node < INR j) by (apply (Rmult_lt_reg_r node); lra).
    rewrite (C58_value vx f (j - 1)) by (auto; try lia; rewrite Ij; lra). rewrite Rmin_left, Rmax_right by lra.
    replace (INR j - INR j) with 0 by ring. rewrite cub_0. ring.
  - assert (INR j <= f / node) by (apply (Rmult_le_reg_r node); lra).
    rewrite (C58_value vx f j) by (auto; try lia; lra). rewrite Rmin_right, Rmax_left by lra. rewrite Ij.
    replace (INR j - (INR j - 1)) with 1 by ring. rewrite cub_1. replace (j - 1 + 2)%nat with (j + 1)%nat by lia. ring.
Qed.

(** No jumps between 0 and the fourth node. *)
Theorem C58_continuous vx f : 0 < vx -> 0 < f < 4 * node -> continuous (selfc vx) f.
Proof.
  intros Hv Hf. assert (N : 0 < node) by (unfold node; lra).
  assert (X : exists j, (1 <= j <= 3)%nat /\ (INR j - 1) * node < f < (INR j + 1) * node).
  { destruct (Rlt_le_dec f (2 * node)); [exists 1%nat; cbn; split; [lia|lra]|]. destruct (Rlt_le_dec f (3 * node)); [exists 2%nat; cbn; split; [lia|lra]|]. exists 3%nat; cbn; split; [lia|lra]. }
  destruct X as (j & Hj & Hfj).
  apply (continuous_ext_loc _ (fun x => glue (ord (296 / (300 / vx))) j (x / node))).
  - assert (D : 0 < Rmin (f - (INR j - 1) * node) ((INR j + 1) * node - f)) by (apply Rmin_pos; lra).
    exists (mkposreal _ D). intros y Hy. unfold ball in Hy. cbn in Hy. unfold AbsRing_ball, abs, minus, plus, opp in Hy. cbn in Hy.
    assert (M1 := Rmin_l (f - (INR j - 1) * node) ((INR j + 1) * node - f)). assert (M2 := Rmin_r (f - (INR j - 1) * node) ((INR j + 1) * node - f)).
    apply Rabs_def2 in Hy. symmetry. apply selfc_glue; auto. cbn in *. lra.
  - apply (continuous_comp (fun x => x / node) (glue (ord (296 / (300 / vx))) j)); [|apply glue_continuous].
    apply (ex_derive_continuous (fun x => x / node)). auto_derive; auto.
Qed.

(** Positivity, for 4.7 K <= t <= 18944 K. *)
Lemma Rpower_le4 th d : 1 / 64 <= th <= 64 -> - (1 / 3) <= d <= 1 / 3 -> Rpower th d <= 4.
Proof.
  intros Ht Hd. unfold Rpower. rewrite <- (exp_ln 4) by lra.
  assert (L64 : ln 64 = 3 * ln 4) by (replace 64 with (4 * (4 * 4)) by lra; rewrite !ln_mult by lra; lra).
  assert (L4 : 0 < ln 4) by (rewrite <- ln_1; apply ln_increasing; lra).
  assert (U : ln th <= ln 64) by (destruct (Req_dec th 64) as [->|]; [lra|apply Rlt_le, ln_increasing; lra]).
  assert (L : - ln 64 <= ln th).
  { rewrite <- ln_Rinv by lra. destruct (Req_dec (/ 64) th) as [->|]; [lra|apply Rlt_le, ln_increasing; lra]. }
  assert (X : d * ln th <= ln 4) by nra.
  destruct (Req_dec (d * ln th) (ln 4)) as [->|]; [lra|]. apply Rlt_le, exp_increasing. lra.
Qed.

Lemma ord_pos th i : (i <= 6)%nat -> 0 < ord th i.
Proof.
  intros Hi. assert (P : forall c n, 0 < c -> 0 < 6.532e12 * (c * 1e-21) * Rpower th n).
  { intros c n Hc. apply Rmult_lt_0_compat; [lra|apply Rpower_pos]. }
  do 7 (destruct i as [|i]; [apply P; cbn [nth]; lra|]). lia.
Qed.

Lemma ord_ratio th i : 1 / 64 <= th <= 64 -> (i <= 5)%nat -> ord th i <= 6 * ord th (i + 1) /\ ord th (i + 1) <= 6 * ord th i.
Proof.
  intros Ht Hi.
  assert (P : forall c n c' n', 0 < c' -> 4 * c <= 6 * c' -> - (1 / 3) <= n - n' <= 1 / 3 ->
     6.532e12 * (c * 1e-21) * Rpower th (n + 3) <= 6 * (6.532e12 * (c' * 1e-21) * Rpower th (n' + 3))).
  { intros c n c' n' Hc' Hc Hn. replace (n + 3) with (n' + 3 + (n - n')) by lra. rewrite Rpower_plus.
    assert (Q := Rpower_le4 th (n - n') Ht Hn). assert (Q' := Rpower_pos th (n - n')). assert (R' := Rpower_pos th (n' + 3)).
    set (r := Rpower th (n' + 3)) in *. set (q := Rpower th (n - n')) in *. clearbody r q.
    assert (X : c * q <= 6 * c').
    { destruct (Rle_lt_dec c 0); [assert (0 <= - c * q) by (apply Rmult_le_pos; lra); lra|]. assert (c * q <= c * 4) by (apply Rmult_le_compat_l; lra). lra. }
    assert (0 <= r * (6 * c' - c * q)) by (apply Rmult_le_pos; lra). nra. }
  do 6 (destruct i as [|i]; [cbn [ord Nat.add]; unfold mt_ckd; cbn [nth]; split; apply P; lra|]). lia.
Qed.

Theorem C58_positive vx f : 0 < vx -> 1 / 64 <= 296 / (300 / vx) <= 64 -> 0 <= f < 4 * node -> exists v, h2o_continuum (A:=RA) f vx = Ok v /\ 0 < v.
Proof.
  intros Hv Ht Hf. assert (N : 0 < node) by (unfold node; lra).
  assert (X : exists j, (j <= 3)%nat /\ INR j * node <= f < (INR j + 1) * node).
  { destruct (Rlt_le_dec f node); [exists 0%nat; cbn; split; [lia|lra]|]. destruct (Rlt_le_dec f (2 * node)); [exists 1%nat; cbn; split; [lia|lra]|].
    destruct (Rlt_le_dec f (3 * node)); [exists 2%nat; cbn; split; [lia|lra]|]. exists 3%nat; cbn; split; [lia|lra]. }
  destruct X as (j & Hj & Hfj). eexists. split; [apply (C58_value vx f j); auto|].
  set (th := 296 / (300 / vx)) in *. clearbody th.
  assert (P : 0 <= f / node - INR j < 1).
  { split; [apply (Rmult_le_reg_r node)|apply (Rmult_lt_reg_r node)]; auto; unfold Rdiv, Rminus; rewrite Rmult_plus_distr_r, Rmult_assoc, Rinv_l; lra. }
  set (p := f / node - INR j) in *. clearbody p.
  destruct (ord_ratio th j Ht ltac:(lia)) as [R1 _]. destruct (ord_ratio th (j + 2) Ht ltac:(lia)) as [_ R2].
  assert (P1 := ord_pos th (j + 1) ltac:(lia)). assert (P2 := ord_pos th (j + 2) ltac:(lia)).
  replace (j + 2 + 1)%nat with (j + 3)%nat in R2 by lia.
  unfold cub. set (y0 := ord th j) in *. set (y1 := ord th (j + 1)) in *. set (y2 := ord th (j + 2)) in *. set (y3 := ord th (j + 3)) in *. clearbody y0 y1 y2 y3.
  set (q := 1 - p). assert (Hq : 0 < q <= 1) by (unfold q; lra).
  replace (_ + _ + _ + _) with (q * q * ((1 + 2 * p) * y1 - p * y0 / 2) + p * q * q * (y2 / 2) + p * p * ((3 - 2 * p) * y2 - q * y3 / 2) + p * p * q * (y1 / 2)) by (unfold q; field).
  assert (0 < q * q * ((1 + 2 * p) * y1 - p * y0 / 2)).
  { apply Rmult_lt_0_compat; [nra|]. assert (p * y0 <= p * (6 * y1)) by (apply Rmult_le_compat_l; lra). assert (0 <= (1 - p) * y1) by (apply Rmult_le_pos; lra). nra. }
  assert (0 <= p * q * q * (y2 / 2)) by (repeat apply Rmult_le_pos; lra).
  assert (0 <= p * p * ((3 - 2 * p) * y2 - q * y3 / 2)).
  { apply Rmult_le_pos; [nra|]. assert (q * y3 <= q * (6 * y2)) by (apply Rmult_le_compat_l; lra). unfold q in *. nra. }
  assert (0 <= p * p * q * (y1 / 2)) by (repeat apply Rmult_le_pos; lra).
  lra.
Qed.

(** The continuum of R24 and R23SD with the shipped lists (negative cs: the table is used). *)
Theorem C57_tabulated_continuum m (ll : h2o_ll RA) pd vx ek f n c : In m ["R23SD"; "R24"] -> h_cs ll <= 0 -> 0 <= h_cf ll -> 0 < h_reftline ll ->
  0 < vx -> 1 / 64 <= 296 / (300 / vx) <= 64 -> 0 <= pd -> 0 <= ek -> 0 < f -> h2o_absorption (A:=RA) m ll pd vx ek f = Ok (n, c) -> 0 <= c /\ (0 < ek -> f < 4 * node).
Proof.
  intros Hm Hcs Hcf Hr Hv Ht Hp He Hf H. destruct (h2o_env_range m pd vx ek Hv Hp He) as (E1 & E2 & E3 & E4 & E5).
  destruct (C53_h2o_units m ll pd vx ek f n c ltac:(lra) H) as [(E0 & -> & ->)|(_ & s & con & Hs & Hc & Hn & Hcc)].
  - split; [lra|]. intros Hek. exfalso. revert E0. unfold h2o_env_of. cbn [e_rho]. ra. intros E0.
    assert (0 < ek * (100 / 10) / (1 / 100 * (831451 / 100000) / (1801528 / 100000) * (3000 / 10 / vx))); [|lra].
    apply div_pos; [lra|]. apply Rmult_lt_0_compat; [lra|]. apply div_pos; lra.
  - assert (M : str_in m ["R23SD"; "R24"] = true) by (cbn [In] in Hm; destruct Hm as [<-|[<-|[]]]; reflexivity).
    unfold h2o_con2 in Hc. rewrite M in Hc. cbv zeta in Hc.
    match type of Hc with context [@ltb ?A ?a ?b] => replace (@ltb A a b) with false in Hc by (symmetry; apply Rltb_false; ra; lra) end.
    apply bind_Ok in Hc. destruct Hc as (cs & Ecs & Hc). apply ok_inj in Hc.
    destruct (Rlt_le_dec f (4 * node)) as [L|L]; [|rewrite (C58_out_of_range vx f Hv L) in Ecs; discriminate].
    split; auto. destruct (C58_positive vx f Hv Ht ltac:(lra)) as (v & Ev & Pv). rewrite Ev in Ecs. apply ok_inj in Ecs. subst cs.
    apply (npkm_sign f); auto. rewrite Hcc, <- Hc. rewrite powi2. assert (F := sq_nonneg f). assert (0 < h_reftline ll / e_t (h2o_env_of (A:=RA) m pd vx ek)) by (apply div_pos; auto).
    ra. rewrite Rpowf_pos by auto. set (ti := h_reftline ll / _) in *. assert (A1 := Rpower_pos ti (h_xcf ll)). clearbody ti.
    apply Rmult_le_pos; auto. apply Rmult_le_pos; auto. assert (X : 0 <= v * e_pvap (h2o_env_of (A:=RA) m pd vx ek)) by (apply Rmult_le_pos; lra).
    apply Rplus_le_le_0_compat; auto. apply Rmult_le_pos; auto. apply Rmult_le_pos; lra.
Qed.

Example C58_example : exists v, h2o_continuum (A:=RA) 183.31 (300 / 280) = Ok v /\ 0 < v.
Proof. apply C58_positive; [lra| |unfold node; lra]. replace (296 / (300 / (300 / 280))) with (296 / 280) by field. lra. Qed.

(** ** The positive-coefficient branch of R23SD and R24 *)

(** The power law used by every other model, cs * ti ** xcs, is not what this branch computes: with cs > 0 (an uncertainty
    dictionary sets it, absorption_model.py:456-458) the exponent enters as a factor. *)
Theorem C86_self_continuum_factor (ll : h2o_ll RA) (e : h2o_env RA) vx f : 0 < h_cs ll -> 0 < h_reftline ll -> 0 < e_t e ->
  let ti := h_reftline ll / e_t e in
  h2o_con2 (A:=RA) "R24" ll e vx f = Ok ((h_cf ll * Rpower ti (h_xcf ll) * e_pda e + h_cs ll * ti * h_xcs ll * e_pvap e) * e_pvap e * (f * f)).
Proof.
  intros Hc Hr Ht ti. assert (Hti : 0 < ti) by (apply div_pos; auto). unfold h2o_con2. cbn [str_in String.eqb Ascii.eqb Bool.eqb existsb orb]. cbv zeta.
  match goal with |- context [@ltb ?A ?a ?b] => replace (@ltb A a b) with true by (symmetry; apply Rltb_true; ra; lra) end.
  cbn [bind]. f_equal. rewrite powi2. ra. fold ti. rewrite Rpowf_pos by auto. reflexivity.
Qed.

(** At the reference temperature of the list the self part should be cs * pvap^2 * f^2 whatever the exponent; it is xcs times
    that. *)
Theorem C86_power_law_refuted : exists (ll : h2o_ll RA) (e : h2o_env RA) vx f v, 0 < h_cs ll /\ h_cf ll = 0 /\ h_reftline ll = e_t e /\
  h2o_con2 (A:=RA) "R24" ll e vx f = Ok v /\ v = h_xcs ll * (h_cs ll * e_pvap e * e_pvap e * f * f) /\ v <> h_cs ll * e_pvap e * e_pvap e * f * f.
Proof.
  exists (mkH2OLL (A:=RA) 296 296 0 3 1 (75 / 10) 0 0 []), (mkH2OEnv (A:=RA) 296 1 1 1 1), 1, 1, (75 / 10).
  cbn [h_cs h_cf h_reftline e_t h_xcs e_pvap]. repeat split; try lra.
  rewrite C86_self_continuum_factor by (cbn [h_cs h_reftline e_t]; lra). cbn [h_cs h_cf h_reftline e_t h_xcs h_xcf e_pvap e_pda].
  replace (296 / 296) with 1 by lra. match goal with |- Ok ?a = Ok ?b => assert (H : (a : R) = b) by lra; rewrite H; reflexivity end.
Qed.
