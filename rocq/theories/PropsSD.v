(** Claim C114: speed-dependent line shapes against the Lorentz shape, over the reals. *)

From Coq Require Import ZArith Reals Lra Lia Psatz String List Bool.
Import ListNotations.
From Coquelicot Require Import Rcomplements Complex.
From Verif Require Import Arith PyBase Utils Absorption Clear Spectrum Spec RealAux SDShape.
Local Open Scope string_scope.
Open Scope R_scope.

(** ** Specification *)

(** The Lorentz shape of half-width [w] at distance [d] from the line centre, and its version with first-order line mixing. *)
Definition lorentz (w d : R) : R := w / (w*w + d*d).
Definition mixed (w y d : R) : R := (w + y*d) / (w*w + d*d).

(** Widths [w0], [w2] and second shift [s2] of a speed-dependent line: the speed dependence is a correction. *)
Definition mild (w0 w2 s2 : R) : Prop := 0 < w2 /\ 5 * w2 <= w0 <= 36 * w2 /\ Rabs s2 <= 13/100 * w2.

(** ** Complex numbers of the model as complex numbers of the library *)

Definition toC (z : cpx RA) : C := (re z : R, im z : R).

Lemma toC_div a b : toC (c_div a b) = (toC a / toC b)%C.
Proof.
  destruct a as [a1 a2], b as [b1 b2]. unfold toC, c_div, c_norm2. cbn [re im]. ra. unfold Cdiv, Cmult, Cinv, Rdiv. cbn [fst snd]. cbn [pow]. rewrite !Rmult_1_r. f_equal; ring.
Qed.
Lemma toC_mul a b : toC (c_mul a b) = (toC a * toC b)%C.
Proof. destruct a as [a1 a2], b as [b1 b2]. unfold toC, c_mul, Cmult. cbn [re im fst snd]. ra. f_equal; ring. Qed.
Lemma toC_sub a b : toC (c_sub a b) = (toC a - toC b)%C.
Proof. destruct a as [a1 a2], b as [b1 b2]. unfold toC, c_sub, Cminus, Cplus, Copp. cbn [re im fst snd]. ra. f_equal; ring. Qed.
Lemma toC_add a b : toC (c_add a b) = (toC a + toC b)%C.
Proof. destruct a as [a1 a2], b as [b1 b2]. reflexivity. Qed.
Lemma toC_of (r : R) : toC (c_of (A:=RA) r) = RtoC r.
Proof. unfold toC, c_of, RtoC. cbn [re im]. ra. f_equal; lra. Qed.
Lemma toC_scale (k : R) a : toC (c_scale (A:=RA) k a) = (RtoC k * toC a)%C.
Proof. destruct a as [a1 a2]. unfold toC, c_scale, Cmult, RtoC. cbn [re im fst snd]. ra. f_equal; ring. Qed.

Lemma toC_horner (l : R) (cs : list R) z : toC (horner (A:=RA) (c_of (A:=RA) l) cs z) = pev (cs ++ [l]) (toC z).
Proof.
  induction cs as [|c r IH]; cbn [horner app pev]; [rewrite toC_of; ring|].
  rewrite toC_add, toC_mul, IH. rewrite (toC_of c). reflexivity.
Qed.

Lemma dcerr_a_pa : (firstn 6 (dcerr_a (A:=RA)) ++ [lit (a:=RA) (Dec 564189583562615 1000000000000000)])%list = pa.
Proof. unfold pa, dcerr_a. cbn [firstn app]. ra. repeat (f_equal; try lra). Qed.
Lemma dcerr_b_qb : (dcerr_b (A:=RA) ++ [lit (a:=RA) (Dec 1 1)])%list = qb.
Proof. unfold qb, dcerr_b. cbn [app]. ra. repeat (f_equal; try lra). Qed.

Lemma dcerr_w_C (x : cpx RA) : 0 <= (re x : R) -> toC (dcerr_w (A:=RA) (opp (a:=RA) (im x)) (re x)) = (pev pa (toC x) / pev qb (toC x))%C.
Proof.
  intros H. unfold dcerr_w. cbv zeta. rewrite toC_div, !toC_horner.
  assert (E : toC (mkC (absv (a:=RA) (re x)) (opp (a:=RA) (opp (a:=RA) (im x)))) = toC x).
  { unfold toC. cbn [re im]. ra. rewrite Rabs_pos_eq by auto. f_equal. ring. }
  apply (f_equal2 Cdiv); (apply (f_equal2 pev); [|exact E]); [exact dcerr_a_pa|exact dcerr_b_qb].
Qed.

Lemma dcerror_C (x : cpx RA) : 0 <= (re x : R) -> toC (dcerror (A:=RA) (opp (a:=RA) (im x)) (re x)) = (pev pa (toC x) / pev qb (toC x))%C.
Proof.
  intros H. unfold dcerror. cbv zeta. replace (leb (a:=RA) (lit (Dec 0 1)) (re x)) with true by (symmetry; apply Rleb_true; ra; lra). apply dcerr_w_C; auto.
Qed.

(** The principal square root. *)
Lemma c_sqrt_spec (z : cpx RA) : 0 <= (re (c_sqrt z) : R) /\ (toC (c_sqrt z) * toC (c_sqrt z))%C = toC z /\ (Cmod (toC (c_sqrt z)))^2 = Cmod (toC z).
Proof.
  destruct z as [a b]. unfold c_sqrt, c_abs, c_norm2, toC. cbn [re im]. ra.
  set (r := sqrt (a * a + b * b)).
  assert (Hs : 0 <= a * a + b * b) by nra.
  assert (R0 : 0 <= r) by apply sqrt_pos. assert (R2 : r * r = a * a + b * b) by (apply sqrt_sqrt; auto).
  assert (A1 : - r <= a <= r) by (split; nra).
  assert (P1 : 0 <= (r + a) / (2 / 1)) by lra. assert (P2 : 0 <= (r - a) / (2 / 1)) by lra.
  set (p := sqrt ((r + a) / (2 / 1))). set (q := sqrt ((r - a) / (2 / 1))).
  assert (Hp : 0 <= p) by apply sqrt_pos. assert (Hq : 0 <= q) by apply sqrt_pos.
  assert (Ep : p * p = (r + a) / (2 / 1)) by (apply sqrt_sqrt; auto). assert (Eq : q * q = (r - a) / (2 / 1)) by (apply sqrt_sqrt; auto).
  assert (PQ : (2 * (p * q)) * (2 * (p * q)) = b * b).
  { replace (2 * (p * q) * (2 * (p * q))) with (4 * ((p * p) * (q * q))) by ring. rewrite Ep, Eq. nra. }
  assert (PN : 0 <= p * q) by (apply Rmult_le_pos; auto).
  split; [exact Hp|]. split.
  - unfold Cmult. cbn [fst snd]. f_equal; destruct (Rltb_spec b (0 / 1)).
    + nra.
    + nra.
    + assert (2 * (p * q) = - b) by nra. lra.
    + assert (2 * (p * q) = b) by nra. lra.
  - rewrite mod_sq. cbn [fst snd]. unfold Cmod. cbn [fst snd pow]. rewrite !Rmult_1_r. fold r. destruct (Rltb_spec b (0 / 1)); nra.
Qed.

(** What the code computes from the square root. *)
Lemma pxw_C (x : cpx RA) : 0 <= (re x : R) ->
  toC (c_sub (c_of (A:=RA) (lit (Dec 10 10))) (c_mul (c_scale (lit (Dec 177245385090551603 100000000000000000)) x) (dcerror (A:=RA) (opp (a:=RA) (im x)) (re x))))
  = (1 - RtoC sp * toC x * (pev pa (toC x) / pev qb (toC x)))%C.
Proof.
  intros H. rewrite toC_sub, toC_of, toC_mul, toC_scale, dcerror_C by auto.
  replace (RtoC (lit (a:=RA) (Dec 10 10))) with (RtoC 1) by (f_equal; ra; lra). reflexivity.
Qed.

(** ** The shape lies close to the inverse of [w0 + i d] *)

Lemma Cmod_re (z : C) : Rabs (fst z) <= Cmod z.
Proof.
  rewrite <- (Rabs_pos_eq (Cmod z)) by apply Cmod_ge_0. apply Rsqr_le_abs_0. rewrite !Rsqr_pow2, mod_sq. nra.
Qed.

Lemma mod_pos (a b : R) : 0 < a -> a <= Cmod (a, b).
Proof. intros H. assert (X := Cmod_re (a, b)). cbn [fst] in X. rewrite Rabs_pos_eq in X; lra. Qed.

Section Close.
Variables w0 w2 s2 d : R.
Hypothesis Hm : mild w0 w2 s2.
Hypothesis Hd : Rabs d <= 10 * w0.
Let w : C := (w2, - s2).
Let y : C := (w0, d).

Lemma w_mod : w2 <= Cmod w <= 101/100 * w2.
Proof.
  destruct Hm as (H0 & H1 & H2). split; [apply mod_pos; auto|]. apply Rsqr_incr_0_var; [|lra]. rewrite !Rsqr_pow2, mod_sq. unfold w. cbn [fst snd].
  apply Rabs_le_between in H2. nra.
Qed.

Lemma y_mod : w0 <= Cmod y.
Proof. destruct Hm as (H0 & H1 & H2). apply mod_pos. lra. Qed.

Lemma root_region (x : C) : 0 <= fst x -> (w * (x * x))%C = (w0 - 15/10 * w2, d + 15/10 * s2) -> region x /\ (w * (x * x + RtoC (3/2)) = y)%C.
Proof.
  intros Hx E. destruct Hm as (H0 & (H1 & H1') & H2). assert (W := w_mod).
  assert (E' : (w * (x * x + RtoC (3/2)) = y)%C).
  { replace (w * (x * x + RtoC (3/2)))%C with (w * (x * x) + w * RtoC (3/2))%C by ring. rewrite E. unfold w, y, Cplus, Cmult, RtoC. cbn [fst snd]. f_equal; lra. }
  split; [|exact E']. clear E'.
  set (a := w0 - 15/10 * w2) in *. set (b := d + 15/10 * s2) in *.
  assert (Ha : 35/10 * w2 <= a <= 345/10 * w2) by (unfold a; lra).
  assert (Hb : Rabs b <= 3602/10 * w2).
  { unfold b. eapply Rle_trans; [apply Rabs_triang|]. rewrite Rabs_mult, (Rabs_pos_eq (15/10)) by lra. lra. }
  assert (Em := f_equal Cmod E). rewrite !Cmod_mult in Em.
  replace (Cmod x * Cmod x) with ((Cmod x)^2) in Em by ring.
  assert (L : a <= Cmod (a, b)) by (apply mod_pos; lra).
  assert (U : Cmod (a, b) <= 3948/10 * w2).
  { replace (a, b) with (RtoC a + (0, b))%C by (unfold Cplus, RtoC; cbn [fst snd]; f_equal; ring). eapply Rle_trans; [apply Cmod_triangle|].
    rewrite Cmod_R, Rabs_pos_eq by lra. assert (Cmod (0, b) = Rabs b). { unfold Cmod. cbn [fst snd pow]. rewrite !Rmult_1_r, Rmult_0_l, Rplus_0_l. apply sqrt_Rsqr_abs. } lra. }
  assert (Q3 : 3 <= (Cmod x)^2) by nra.
  assert (Q4 : (Cmod x)^2 <= 400) by nra.
  split; [exact Hx|]. split; [exact Q3|]. split; [assert (G := Cmod_ge_0 x); nra|].
  (* the real part of x^2 *)
  assert (F := f_equal (fun z : C => fst (Cmult (Cconj w) z)) E). cbv beta in F.
  assert (RE : (w2 * w2 + s2 * s2) * ((fst x)^2 - (snd x)^2) = w2 * a - s2 * b).
  { destruct x as [u v]. unfold w, Cconj, Cmult in F. cbn [fst snd] in *. lra. }
  assert (WW : (Cmod w)^2 = w2 * w2 + s2 * s2) by (rewrite mod_sq; unfold w; cbn [fst snd]; ring).
  assert (B : Rabs b <= Cmod (a, b)). { rewrite <- (Rabs_pos_eq (Cmod (a, b))) by apply Cmod_ge_0. apply Rsqr_le_abs_0. rewrite !Rsqr_pow2, mod_sq. cbn [fst snd]. nra. }
  assert (SB : s2 * b <= 13/100 * w2 * Cmod (a, b)).
  { eapply Rle_trans; [apply Rle_abs|]. rewrite Rabs_mult. apply Rmult_le_compat; auto; apply Rabs_pos. }
  assert (WP : 0 < (Cmod w)^2) by (rewrite WW; nra).
  apply (Rmult_le_reg_l ((Cmod w)^2)); [exact WP|]. rewrite WW at 2. rewrite RE.
  replace ((Cmod w)^2 * (- (131/1000) * (Cmod x)^2)) with (- (131/1000) * Cmod w * (Cmod w * (Cmod x)^2)) by ring. rewrite Em.
  assert (0 <= w2 * a) by nra. assert (0 <= Cmod (a, b)) by apply Cmod_ge_0. nra.
Qed.

(** The shape, with the factor [1 + i k] of a mixed line. *)
Lemma close (x : C) (k : R) : 0 <= fst x -> (w * (x * x))%C = (w0 - 15/10 * w2, d + 15/10 * s2) ->
  Rabs (fst (((1, k) * (RtoC 2 * (1 - RtoC sp * x * (pev pa x / pev qb x)) / w))%C) - (w0 + k * d) / (w0 * w0 + d * d)) <= sqrt (1 + k * k) * (6/10 * w2 / (w0 * w0 + d * d)).
Proof.
  intros Hx E. destruct (root_region x Hx E) as (G & Y). assert (W := w_mod). assert (YM := y_mod). destruct Hm as (H0 & (H1 & H1') & H2).
  destruct (shape_inverse w x y G ltac:(lra) ltac:(lra) Y) as (z & Z1 & Z2 & Q & ->).
  assert (YP : 0 < Cmod y) by lra. assert (YN := nz_mod _ YP). assert (ZN := nz_mod _ Z2).
  assert (YQ : (Cmod y)^2 = w0 * w0 + d * d) by (rewrite mod_sq; unfold y; cbn [fst snd]; ring).
  assert (DP : 0 < w0 * w0 + d * d) by (rewrite <- YQ; nra).
  replace ((w0 + k * d) / (w0 * w0 + d * d)) with (fst ((1, k) * (1 / y))%C).
  2: { unfold y, Cdiv, Cmult, Cinv, RtoC. cbn [fst snd pow]. rewrite !Rmult_1_r. field. lra. }
  replace (fst ((1, k) * (1 / (y + z)))%C - fst ((1, k) * (1 / y))%C) with (fst ((1, k) * (- (z / (y * (y + z)))))%C).
  2: { replace (1 / y)%C with (1 / (y + z) + z / (y * (y + z)))%C by (field; split; assumption).
       set (p := (1 / (y + z))%C). set (q := (z / (y * (y + z)))%C). clearbody p q. unfold Cmult, Cplus, Copp. cbn [fst snd]. ring. }
  eapply Rle_trans; [apply Cmod_re|]. rewrite Cmod_mult, Cmod_opp, Cmod_div by (apply Cmult_neq_0; assumption). rewrite Cmod_mult.
  assert (K : Cmod (1, k) = sqrt (1 + k * k)) by (unfold Cmod; cbn [fst snd pow]; f_equal; ring).
  rewrite K. apply Rmult_le_compat_l; [apply sqrt_pos|].
  assert (T : Cmod y <= Cmod (y + z)%C + Cmod z). { rewrite <- (Cmod_opp z). replace y with ((y + z) + - z)%C at 1 by ring. apply Cmod_triangle. }
  assert (Z3 : 89/100 * Cmod y <= Cmod (y + z)%C) by lra.
  assert (PP : 0 < Cmod y * Cmod (y + z)%C) by (apply Rmult_lt_0_compat; lra).
  rewrite <- YQ. apply (Rmult_le_reg_r (Cmod y * Cmod (y + z)%C)); [exact PP|]. unfold Rdiv. rewrite (Rmult_assoc (Cmod z)), Rinv_l, Rmult_1_r by lra.
  replace (6 * / 10 * w2 * / (Cmod y)^2 * (Cmod y * Cmod (y + z)%C)) with (6/10 * w2 * (Cmod (y + z)%C / Cmod y)) by (field; lra).
  assert (89/100 <= Cmod (y + z)%C / Cmod y). { apply (Rmult_le_reg_r (Cmod y)); [lra|]. unfold Rdiv. rewrite (Rmult_assoc _ (/ Cmod y)), Rinv_l by lra. lra. }
  nra.
Qed.
End Close.

(** ** C114: water vapour *)

(** The second shift of a line (absorption_model.py:572-577). *)
Definition shift2 (m : string) (ll : h2o_ll RA) (e : h2o_env RA) (i : nat) (ln : h2o_line RA) : R :=
  if String.eqb m "R20SD" then (if Nat.eqb i 1 then h_d2air ll * e_pda e + h_d2self ll * e_pvap e else 0)
  else if str_in m h2o_delta2_models then h_d2 ln * e_pda e + h_d2s ln * e_pvap e else 0.

Theorem C114_water_shape m (ll : h2o_ll RA) (e : h2o_env RA) i (ln : h2o_line RA) (w0 w2 base d : R) :
  mild w0 w2 (shift2 m ll e i ln) -> Rabs d <= 10 * w0 ->
  Rabs (sd_line (A:=RA) m ll e i ln w0 w2 base d - (lorentz w0 d - base)) <= 6/10 * (w2 / w0) * lorentz w0 d.
Proof.
  intros Hm Hd. assert (Hm' := Hm). destruct Hm' as (H0 & (H1 & H1') & H2).
  unfold sd_line. cbv zeta.
  set (has := orb (String.eqb m "R20SD") (str_in m h2o_delta2_models)).
  set (s2 := shift2 m ll e i ln) in *.
  match goal with |- context [if String.eqb m "R20SD" then ?a else ?b] => set (dl := if String.eqb m "R20SD" then a else b) end.
  assert (DL : has = true -> (dl : R) = s2).
  { unfold has, dl, s2, shift2. destruct (String.eqb m "R20SD"); [intros _; destruct (Nat.eqb i 1); [reflexivity|ra; lra]|]. cbn [orb]. intros ->. reflexivity. }
  assert (S0 : has = false -> s2 = 0).
  { unfold has, s2, shift2. destruct (String.eqb m "R20SD"); [discriminate|]. cbn [orb]. intros ->. reflexivity. }
  clearbody dl has.
  match goal with |- context [c_sqrt ?z] => set (xc := z) end.
  pose (W := (w2, - s2) : C).
  assert (XC : (W * toC xc)%C = (w0 - 15/10 * w2, d + 15/10 * s2)).
  { unfold xc. destruct has.
    - rewrite toC_div. unfold toC. cbn [re im]. ra. rewrite DL by auto.
      assert (NZ : W <> RtoC 0) by (intros X; apply (f_equal fst) in X; cbn in X; lra).
      change (w2, - s2) with W. set (V := (w0 - 15 / 10 * w2, d + 15 / 10 * s2) : C). change ((W * (V / W))%C = V). field. exact NZ.
    - rewrite toC_scale. unfold W, toC, Cmult, RtoC. cbn [re im fst snd]. ra. rewrite S0 by auto. f_equal; field; lra. }
  clearbody xc. destruct (c_sqrt_spec xc) as (P & Q & _). set (x := c_sqrt xc) in *. clearbody x.
  rewrite <- Q in XC. assert (K := close w0 w2 s2 d Hm Hd (toC x) 0 P XC).
  rewrite <- pxw_C in K by exact P. fold W in K.
  assert (HP : 0 < w0 * w0 + d * d) by (assert (0 < w0 * w0) by nra; assert (0 <= d * d) by (apply Rle_0_sqr); lra).
  replace ((w0 + 0 * d) / (w0 * w0 + d * d)) with (lorentz w0 d) in K by (unfold lorentz; f_equal; ring).
  replace (sqrt (1 + 0 * 0) * (6/10 * w2 / (w0 * w0 + d * d))) with (6/10 * (w2 / w0) * lorentz w0 d) in K.
  2: { replace (1 + 0 * 0) with 1 by ring. rewrite sqrt_1. unfold lorentz. field. split; lra. }
  set (top := c_sub _ _) in *. clearbody top.
  match goal with |- Rabs ?a <= _ => match type of K with Rabs ?b <= _ => replace a with b; [exact K|] end end.
  match goal with |- context [re ?z] => assert (E : (re z : R) = fst ((RtoC 1 * (RtoC 2 * toC top / W))%C)) end.
  { match goal with |- re ?z = _ => change (fst (toC z) = fst ((RtoC 1 * (RtoC 2 * toC top / W))%C)) end.
    replace ((RtoC 1) * (RtoC 2 * toC top / W))%C with (RtoC 2 * toC top / W)%C by ring.
    destruct has.
    - rewrite toC_div, toC_scale. replace (RtoC (lit (a:=RA) (Dec 20 10))) with (RtoC 2) by (f_equal; ra; lra).
      unfold toC at 2. cbn [re im]. ra. rewrite DL by auto. reflexivity.
    - unfold W. rewrite S0 by auto. rewrite !toC_scale. replace (RtoC (lit (a:=RA) (Dec 20 10))) with (RtoC 2) by (f_equal; ra; lra).
      generalize (toC top). intros [t1 t2]. unfold Cdiv, Cinv, Cmult, RtoC. cbn [fst snd]. ra. cbn [pow]. field. lra. }
  ra. change (1, 0) with (RtoC 1). rewrite <- E. ring.
Qed.

(** Hence inside ten half-widths the shape is positive and within an eighth of the Lorentz shape. *)
Corollary C114_water_within m (ll : h2o_ll RA) (e : h2o_env RA) i (ln : h2o_line RA) (w0 w2 base d : R) :
  mild w0 w2 (shift2 m ll e i ln) -> Rabs d <= 10 * w0 ->
  88/100 * lorentz w0 d <= sd_line (A:=RA) m ll e i ln w0 w2 base d + base <= 112/100 * lorentz w0 d.
Proof.
  intros Hm Hd. assert (K := C114_water_shape m ll e i ln w0 w2 base d Hm Hd). destruct Hm as (H0 & (H1 & H1') & H2).
  assert (L : 0 <= lorentz w0 d). { unfold lorentz. apply Rlt_le, Rdiv_lt_0_compat; [lra|]. assert (0 < w0 * w0) by nra. assert (X := Rle_0_sqr d). unfold Rsqr in X. lra. }
  assert (Q : w2 / w0 <= 1/5). { apply (Rmult_le_reg_r w0); [lra|]. unfold Rdiv at 1. rewrite Rmult_assoc, Rinv_l by lra. lra. }
  assert (6/10 * (w2 / w0) * lorentz w0 d <= 12/100 * lorentz w0 d) by (apply Rmult_le_compat_r; lra).
  apply Rabs_le_between in K. lra.
Qed.

(** ** C114: the 118-GHz oxygen line of R23 and R24 *)

Theorem C114_oxygen_shape (w fc y f : R) : 0 < w -> Rabs (f - fc) <= 10 * w ->
  Rabs (o2_sd (A:=RA) w fc y f - mixed w y (f - fc)) <= sqrt (1 + y * y) * (456/10000 * lorentz w (f - fc)).
Proof.
  intros Hw Hd. unfold o2_sd. cbv zeta.
  set (w2 := 76/1000 * w).
  assert (Hm : mild w w2 0) by (unfold mild, w2; rewrite Rabs_R0; lra).
  assert (W2 : 0 < w2) by (unfold w2; lra).
  set (d := f - fc) in *.
  match goal with |- context [c_sqrt ?z] => set (xc := z) end.
  pose (W := (w2, - 0) : C).
  assert (XC : (W * toC xc)%C = (w - 15/10 * w2, d + 15/10 * 0)).
  { unfold xc. rewrite toC_scale. unfold W, toC, Cmult, RtoC. cbn [re im fst snd]. ra. fold w2. fold d. f_equal; field; lra. }
  clearbody xc. destruct (c_sqrt_spec xc) as (P & Q & _). set (x := c_sqrt xc) in *. clearbody x.
  rewrite <- Q in XC. assert (K := close w w2 0 d Hm Hd (toC x) y P XC).
  rewrite <- pxw_C in K by exact P. fold W in K.
  assert (HP : 0 < w * w + d * d) by (assert (0 < w * w) by nra; assert (X := Rle_0_sqr d); unfold Rsqr in X; lra).
  replace (6/10 * w2 / (w * w + d * d)) with (456/10000 * lorentz w d) in K by (unfold lorentz, w2; field; lra).
  fold (mixed w y d) in K.
  set (top := c_sub _ _) in *. clearbody top.
  match goal with |- Rabs ?a <= _ => match type of K with Rabs ?b <= _ => replace a with b; [exact K|] end end.
  match goal with |- context [re ?z] => assert (E : (re z : R) = fst (((1, y) * (RtoC 2 * toC top / W))%C)) end.
  { match goal with |- re ?z = _ => change (fst (toC z) = fst (((1, y) * (RtoC 2 * toC top / W))%C)) end.
    rewrite toC_scale, toC_mul, toC_scale. generalize (toC top). intros [t1 t2]. unfold W, toC, Cdiv, Cinv, Cmult, RtoC. cbn [re im fst snd]. ra. cbn [pow]. fold w2. field. lra. }
  ra. rewrite <- E. reflexivity.
Qed.

(** ** Cases meeting the hypotheses *)

(** The 183-GHz line of R19SD at 296 K in dry air at 1000 hPa: widths 3.028 GHz and 0.406 GHz; 3 GHz from the centre. *)
Example C114_water_example (ll : h2o_ll RA) (e : h2o_env RA) ln :
  88/100 * lorentz 3.028 3 <= sd_line (A:=RA) "R19SD" ll e 1 ln 3.028 0.406 0 3 + 0 <= 112/100 * lorentz 3.028 3.
Proof.
  apply C114_water_within; [|rewrite Rabs_pos_eq; lra]. change (shift2 "R19SD" ll e 1 ln) with 0. unfold mild. rewrite Rabs_R0. lra.
Qed.

Example C114_oxygen_example : Rabs (o2_sd (A:=RA) 1.6 118.75 (1/10) 118 - mixed 1.6 (1/10) (118 - 118.75)) <= sqrt (1 + (1/10) * (1/10)) * (456/10000 * lorentz 1.6 (118 - 118.75)).
Proof. apply C114_oxygen_shape; [lra|]. rewrite Rabs_left; lra. Qed.
