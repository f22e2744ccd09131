(** Complex arithmetic and absorption by clouds: finite and equal to the ideal values. *)

From Coq Require Import ZArith Reals Lra Lia Psatz String List Bool.
Import ListNotations.
From Verif Require Import Arith PyBase Utils RTE Absorption Clear RealAux PropsAbsN2 PropsClear PropsLiq FinTransfer FinGas FinClear.
Local Open Scope string_scope.
Open Scope R_scope.

Definition DC (x : cpx XA) (r : cpx RA) : Prop := D (re x) (re r) /\ D (im x) (im r).
Definition nz (x : cpx RA) : Prop := 0 < (c_norm2 (A:=RA) x : R).

Lemma DC_mk a b r s : D a r -> D b s -> DC (mkC (A:=XA) a b) (mkC (A:=RA) r s). Proof. split; auto. Qed.
Lemma DC_of a r : D a r -> DC (c_of (A:=XA) a) (c_of (A:=RA) r). Proof. intros H. split; [exact H|apply D_lit]. Qed.
Lemma DC_add x y r s : DC x r -> DC y s -> DC (c_add (A:=XA) x y) (c_add (A:=RA) r s). Proof. intros [? ?] [? ?]. split; apply D_add; auto. Qed.
Lemma DC_sub x y r s : DC x r -> DC y s -> DC (c_sub (A:=XA) x y) (c_sub (A:=RA) r s). Proof. intros [? ?] [? ?]. split; apply D_sub; auto. Qed.
Lemma DC_scale k x q r : D k q -> DC x r -> DC (c_scale (A:=XA) k x) (c_scale (A:=RA) q r). Proof. intros ? [? ?]. split; apply D_mul; auto. Qed.
Lemma DC_conj x r : DC x r -> DC (c_conj (A:=XA) x) (c_conj (A:=RA) r). Proof. intros [? ?]. split; [auto|apply D_opp; auto]. Qed.
Lemma D_norm2 x r : DC x r -> D (c_norm2 (A:=XA) x) (c_norm2 (A:=RA) r). Proof. intros [? ?]. apply D_add; apply D_mul; auto. Qed.
Lemma DC_div x y r s : DC x r -> DC y s -> nz s -> DC (c_div (A:=XA) x y) (c_div (A:=RA) r s).
Proof.
  intros [H1 H2] Hy N. assert (E := D_norm2 _ _ Hy). destruct Hy as [H3 H4]. unfold nz in N.
  split; cbn [c_div re im]; apply D_div; try exact E; try (apply Rgt_not_eq; exact N); [apply D_add|apply D_sub]; apply D_mul; auto.
Qed.
Lemma DC_ln x r : DC x r -> nz r -> DC (c_ln (A:=XA) x) (c_ln (A:=RA) r).
Proof.
  intros H N. assert (E := D_norm2 _ _ H). destruct H as [H1 H2]. unfold nz in N. split; cbn [c_ln re im].
  - unfold c_abs. apply D_ln; [apply D_sqrt; [exact E|lra]|]. apply sqrt_lt_R0, N.
  - unfold D in *. rewrite H1, H2. reflexivity.
Qed.

Lemma nz_re (x : cpx RA) : (re x : R) <> 0 -> nz x.
Proof. intros H. unfold nz, c_norm2. ra. assert (K := sq_nonneg (im x)). nra. Qed.
Lemma nz_im (x : cpx RA) : (im x : R) <> 0 -> nz x.
Proof. intros H. unfold nz, c_norm2. ra. assert (K := sq_nonneg (re x)). nra. Qed.
Lemma nz_div (x y : cpx RA) : nz x -> nz y -> nz (c_div (A:=RA) x y).
Proof.
  intros Hx Hy. unfold nz in *.
  assert (E : (c_norm2 (A:=RA) (c_div (A:=RA) x y) : R) = c_norm2 (A:=RA) x / c_norm2 (A:=RA) y).
  { unfold c_div, c_norm2 in *. cbn [re im] in *. ra. cbn in Hy. change (car RA) with R in *. field. lra. }
  rewrite E. apply Rdiv_lt_0_compat; auto.
Qed.
Lemma nz_conj (x : cpx RA) : nz x -> nz (c_conj (A:=RA) x).
Proof. unfold nz, c_norm2, c_conj. cbn [re im]. ra. intros H. nra. Qed.

(** The denominator of the band of the permittivity model. *)
Lemma cnorm_pos f1 : 0 < f1 -> 0 < (im (c_ln (A:=RA) (c_div (A:=RA) (mkC (A:=RA) (-4500) 2000) (c_scale (A:=RA) f1 (mkC (A:=RA) (- (3 / 4)) 1)))) : R).
Proof.
  intros H1.
  set (l := lnmod 4500 2000 - lnmod (3 / 4 * f1) f1). set (lam := atan (f1 / (3 / 4 * f1)) - atan (2000 / 4500)).
  assert (EL : c_ln (A:=RA) (c_div (A:=RA) (mkC (A:=RA) (-4500) 2000) (c_scale (A:=RA) f1 (mkC (A:=RA) (- (3 / 4)) 1))) = mkC (A:=RA) l lam).
  { transitivity (c_ln (A:=RA) (c_div (A:=RA) (mkC (A:=RA) 4500 (-2000)) (mkC (A:=RA) (3 / 4 * f1) (- f1)))).
    - f_equal. unfold c_div, c_scale, c_norm2. cbn [re im]. ra. f_equal; field; nra.
    - rewrite cln_div by lra. unfold l, lam, lnmod. f_equal.
      + replace (-2000 * -2000) with (2000 * 2000) by ring. replace (- f1 * - f1) with (f1 * f1) by ring. reflexivity.
      + replace (-2000 / 4500) with (- (2000 / 4500)) by lra. replace (- f1 / (3 / 4 * f1)) with (- (f1 / (3 / 4 * f1))) by (field; lra).
        rewrite !atan_opp. lra. }
  rewrite EL. cbn [im]. unfold lam. assert (atan (2000 / 4500) < atan (f1 / (3 / 4 * f1))); [|lra]. apply atan_increasing.
  replace (f1 / (3 / 4 * f1)) with (4 / 3) by (field; lra). lra.
Qed.

Lemma dilec12_D f t : 208.15 <= t -> DC (dilec12 (A:=XA) (Fin f) (Fin t)) (dilec12 (A:=RA) f t).
Proof.
  intros Ht. unfold dilec12. cbv zeta.
  assert (Tp : D (div (a:=XA) (lit 300.0) (Fin t)) (div (a:=RA) (lit 300.0) t)) by (apply D_div; [apply D_lit|reflexivity|lra]).
  assert (Tpos : 0 < (div (a:=RA) (lit 300.0) t : R)) by (ra; apply Rdiv_lt_0_compat; lra).
  assert (Tc : D (sub (a:=XA) (Fin t) (lit 273.15)) (sub (a:=RA) t (lit 273.15))) by (apply D_sub; [reflexivity|apply D_lit]).
  assert (Hf1 : 0 < (add (a:=RA) (add (a:=RA) (add (a:=RA) (lit 10.46012) (mul (a:=RA) (lit 0.1454962) (sub (a:=RA) t (lit 273.15))))
      (mul (a:=RA) (lit 0.063267156) (powi (A:=RA) (sub (a:=RA) t (lit 273.15)) 2))) (mul (a:=RA) (lit 0.00093786645) (powi (A:=RA) (sub (a:=RA) t (lit 273.15)) 3)) : R)).
  { rewrite powi2, powi3. ra. assert (K := dilec_f1_pos (t - 27315 / 100) ltac:(lra)). lra. }
  assert (Df1 : D (add (a:=XA) (add (a:=XA) (add (a:=XA) (lit 10.46012) (mul (a:=XA) (lit 0.1454962) (sub (a:=XA) (Fin t) (lit 273.15))))
      (mul (a:=XA) (lit 0.063267156) (powi (A:=XA) (sub (a:=XA) (Fin t) (lit 273.15)) 2))) (mul (a:=XA) (lit 0.00093786645) (powi (A:=XA) (sub (a:=XA) (Fin t) (lit 273.15)) 3)))
     (add (a:=RA) (add (a:=RA) (add (a:=RA) (lit 10.46012) (mul (a:=RA) (lit 0.1454962) (sub (a:=RA) t (lit 273.15))))
      (mul (a:=RA) (lit 0.063267156) (powi (A:=RA) (sub (a:=RA) t (lit 273.15)) 2))) (mul (a:=RA) (lit 0.00093786645) (powi (A:=RA) (sub (a:=RA) t (lit 273.15)) 3)))).
  { dfin. }
  match type of Df1 with D ?x ?r => set (xf1 := x) in *; set (f1 := r) in * end. clearbody xf1 f1.
  match type of Tc with D ?x ?r => set (xtc := x) in *; set (tc := r) in * end.
  assert (Tc2 : 0 < (add (a:=RA) tc (lit 133.07) : R)) by (unfold tc; ra; lra).
  clearbody xtc tc.
  match type of Tp with D ?x ?r => set (xth := x) in *; set (th := r) in * end. clearbody xth th.
  assert (Z : DC (mkC (A:=XA) (lit 0.0) (Fin f)) (mkC (A:=RA) (lit 0.0) f)) by (apply DC_mk; [apply D_lit|reflexivity]).
  assert (Z1 : DC (c_scale (A:=XA) xf1 (mkC (A:=XA) (opp (a:=XA) (lit 0.75)) (lit 1.0))) (c_scale (A:=RA) f1 (mkC (A:=RA) (opp (a:=RA) (lit 0.75)) (lit 1.0)))) by (apply DC_scale; [exact Df1|apply DC_mk; dfin]).
  assert (Z2 : DC (mkC (A:=XA) (opp (a:=XA) (lit 4500.0)) (lit 2000.0)) (mkC (A:=RA) (opp (a:=RA) (lit 4500.0)) (lit 2000.0))) by (apply DC_mk; dfin).
  assert (CN : c_ln (A:=RA) (c_div (A:=RA) (mkC (A:=RA) (opp (a:=RA) (lit 4500.0)) (lit 2000.0)) (c_scale (A:=RA) f1 (mkC (A:=RA) (opp (a:=RA) (lit 0.75)) (lit 1.0)))) =
     c_ln (A:=RA) (c_div (A:=RA) (mkC (A:=RA) (-4500) 2000) (c_scale (A:=RA) f1 (mkC (A:=RA) (- (3 / 4)) 1)))).
  { f_equal. f_equal; [f_equal; ra; lra|]. f_equal. f_equal; ra; lra. }
  assert (N1 : nz (c_scale (A:=RA) f1 (mkC (A:=RA) (opp (a:=RA) (lit 0.75)) (lit 1.0)))) by (apply nz_re; cbn [c_scale re]; ra; nra).
  assert (N2 : nz (mkC (A:=RA) (opp (a:=RA) (lit 4500.0)) (lit 2000.0))) by (apply nz_re; cbn [re]; ra; lra).
  assert (NC : nz (c_ln (A:=RA) (c_div (A:=RA) (mkC (A:=RA) (opp (a:=RA) (lit 4500.0)) (lit 2000.0)) (c_scale (A:=RA) f1 (mkC (A:=RA) (opp (a:=RA) (lit 0.75)) (lit 1.0)))))).
  { apply nz_im. rewrite CN. assert (K := cnorm_pos f1 Hf1). apply Rgt_not_eq. exact K. }
  assert (C : DC (c_ln (A:=XA) (c_div (A:=XA) (mkC (A:=XA) (opp (a:=XA) (lit 4500.0)) (lit 2000.0)) (c_scale (A:=XA) xf1 (mkC (A:=XA) (opp (a:=XA) (lit 0.75)) (lit 1.0)))))
     (c_ln (A:=RA) (c_div (A:=RA) (mkC (A:=RA) (opp (a:=RA) (lit 4500.0)) (lit 2000.0)) (c_scale (A:=RA) f1 (mkC (A:=RA) (opp (a:=RA) (lit 0.75)) (lit 1.0)))))).
  { apply DC_ln; [apply DC_div; auto|apply nz_div; auto]. }
  clear CN.
  assert (M1 : nz (c_sub (A:=RA) (mkC (A:=RA) (lit 0.0) f) (c_scale (A:=RA) f1 (mkC (A:=RA) (opp (a:=RA) (lit 0.75)) (lit 1.0))))) by (apply nz_re; cbn [c_sub c_scale re]; ra; nra).
  assert (M2 : nz (c_sub (A:=RA) (mkC (A:=RA) (lit 0.0) f) (mkC (A:=RA) (opp (a:=RA) (lit 4500.0)) (lit 2000.0)))) by (apply nz_re; cbn [c_sub re]; ra; lra).
  assert (M3 : nz (c_sub (A:=RA) (mkC (A:=RA) (lit 0.0) f) (c_conj (A:=RA) (c_scale (A:=RA) f1 (mkC (A:=RA) (opp (a:=RA) (lit 0.75)) (lit 1.0)))))) by (apply nz_re; cbn [c_sub c_scale c_conj re]; ra; nra).
  assert (M4 : nz (c_sub (A:=RA) (mkC (A:=RA) (lit 0.0) f) (c_conj (A:=RA) (mkC (A:=RA) (opp (a:=RA) (lit 4500.0)) (lit 2000.0))))) by (apply nz_re; cbn [c_sub c_conj re]; ra; lra).
  assert (HD : D (div (a:=XA) (mul (a:=XA) (lit 4.008724) (expf (a:=XA) (div (a:=XA) (opp (a:=XA) xtc) (lit 103.05)))) (lit 2.0))
                 (div (a:=RA) (mul (a:=RA) (lit 4.008724) (expf (a:=RA) (div (a:=RA) (opp (a:=RA) tc) (lit 103.05)))) (lit 2.0))).
  { dfin; ra; lra. }
  apply DC_add.
  - apply DC_sub; [apply DC_of; dfin|]. apply DC_div; [apply DC_scale; [dfin; ra; lra|exact Z]|apply DC_add; [apply DC_of; dfin; try lra|exact Z]|].
    apply nz_re. cbn [c_add c_of re]. ra. match goal with |- 1164023 / 1000 * exp ?e + _ <> 0 => assert (K := exp_pos e); lra end.
  - apply DC_sub; [|apply DC_of; dfin; ra; lra]. apply DC_add.
    + apply DC_div; [apply DC_scale; [exact HD|]|exact C|exact NC]. apply DC_ln; [apply DC_div; [apply DC_sub; auto|apply DC_sub; auto|exact M1]|apply nz_div; auto].
    + apply DC_div; [apply DC_scale; [exact HD|]|apply DC_conj; exact C|apply nz_conj; exact NC].
      apply DC_ln; [apply DC_div; [apply DC_sub; auto using DC_conj|apply DC_sub; auto using DC_conj|exact M3]|apply nz_div; auto].
Qed.

Lemma debye_D m f t : 0 < t -> DC (liq_eps_debye (A:=XA) m (Fin f) (Fin t)) (liq_eps_debye (A:=RA) m f t).
Proof.
  intros Ht. unfold liq_eps_debye. cbv zeta.
  assert (Th : D (sub (a:=XA) (lit 1.0) (div (a:=XA) (lit 300.0) (Fin t))) (sub (a:=RA) (lit 1.0) (div (a:=RA) (lit 300.0) t))).
  { apply D_sub; [apply D_lit|]. apply D_div; [apply D_lit|reflexivity|lra]. }
  match type of Th with D ?x ?r => set (xth := x) in *; set (th := r) in * end. clearbody xth th.
  assert (Fp : exists xfp fp, D xfp fp /\ 0 < (fp : R) /\
     (if String.eqb m "R03" then mul (a:=XA) (lit 20.1) (expf (a:=XA) (mul (a:=XA) (lit 7.88) xth)) else
        add (a:=XA) (mul (a:=XA) (add (a:=XA) (mul (a:=XA) (lit 316.0) xth) (lit 146.4)) xth) (lit 20.2)) = xfp /\
     (if String.eqb m "R03" then mul (a:=RA) (lit 20.1) (expf (a:=RA) (mul (a:=RA) (lit 7.88) th)) else
        add (a:=RA) (mul (a:=RA) (add (a:=RA) (mul (a:=RA) (lit 316.0) th) (lit 146.4)) th) (lit 20.2)) = fp).
  { destruct (String.eqb m "R03"); do 2 eexists; (split; [|split; [|split; reflexivity]]); [dfin|ra; assert (K := exp_pos (788 / 100 * th)); lra|dfin|].
    ra. assert (K := sq_nonneg (316 * th + 146.4 / 2)). lra. }
  destruct Fp as (xfp & fp & Fd & Fpos & -> & ->).
  assert (Fne : (fp : R) <> 0) by lra.
  assert (Fs : (mul (a:=RA) (lit 39.8) fp : R) <> 0) by (ra; lra).
  apply DC_add; [apply DC_add|apply DC_of; dfin]; (apply DC_div; [apply DC_of; dfin|apply DC_mk; dfin; try reflexivity|apply nz_re; cbn [re]; ra; lra]); auto.
Qed.

Lemma liquid_D m w f t : In m liq_models -> 0 < f -> 208.15 <= t <= 396 ->
  exists a, liquid_water_absorption (A:=XA) m (Fin w) (Fin f) (Fin t) = Ok (Fin a) /\ liquid_water_absorption (A:=RA) m w f t = Ok a /\ 0 <= a.
Proof.
  intros Hm Hf Ht. destruct (proj1 (C24_liquid_names RA m w f t) Hm) as [a Ea]. exists a.
  split; [|split; [exact Ea|apply (C24_liquid_nonnegative m w f t a); auto; lra]].
  unfold liquid_water_absorption in *. rewrite (D_leb (Fin w) (lit 0) w (lit 0) eq_refl (D_lit _)).
  destruct (leb (a:=RA) w (lit 0)) eqn:Ew; [apply ok_inj in Ea; subst a; reflexivity|].
  assert (L : forall x e, DC x e -> (im e : R) < 0 -> liq_from_eps (A:=XA) x (Fin f) (Fin w) = Fin (liq_from_eps (A:=RA) e f w)).
  { intros x e Hx He. match goal with |- ?x = Fin ?y => change (D x y) end. unfold liq_from_eps. cbv zeta.
    assert (Q : DC (c_div (A:=XA) (c_sub (A:=XA) x (c_of (A:=XA) (lit 1.0))) (c_add (A:=XA) x (c_of (A:=XA) (lit 2.0)))) (c_div (A:=RA) (c_sub (A:=RA) e (c_of (A:=RA) (lit 1.0))) (c_add (A:=RA) e (c_of (A:=RA) (lit 2.0))))).
    { apply DC_div; [apply DC_sub; [exact Hx|apply DC_of, D_lit]|apply DC_add; [exact Hx|apply DC_of, D_lit]|]. apply nz_im. cbn [c_add c_of im]. ra. lra. }
    apply D_mul; [|reflexivity]. apply D_mul; [|reflexivity]. apply D_mul; [dfin|]. apply Q. }
  destruct (str_in m liq_debye_models).
  - apply ok_inj in Ea. subst a. f_equal. apply L; [apply debye_D; lra|apply debye_passive; lra].
  - destruct (str_in m liq_dilec_models); [|discriminate]. apply ok_inj in Ea. subst a. f_equal. apply L; [apply dilec12_D; lra|apply dilec12_passive; lra].
Qed.

(** One level: the liquid formula is needed only where there is liquid water. *)
Lemma cloud_level_D m f t dl di : 0 < f -> (0 < dl -> In m liq_models /\ 208.15 <= t <= 396) ->
  exists al ai, cloudy_level (A:=XA) (Some m) (Fin f) (Fin t) (Fin dl) (Fin di) = Ok (Fin al, Fin ai) /\
    cloudy_level (A:=RA) (Some m) f t dl di = Ok (al, ai) /\ 0 <= al /\ 0 <= ai.
Proof.
  intros Hf Hl. unfold cloudy_level. cbv zeta. cbn [mname].
  rewrite (D_ltb (lit 0) (Fin dl) (lit 0) dl (D_lit _) eq_refl), (D_ltb (lit 0) (Fin di) (lit 0) di (D_lit _) eq_refl).
  assert (W : (div (a:=RA) (mul (a:=RA) k_light (lit 100)) (mul (a:=RA) f (lit 1e9)) : R) <> 0).
  { unfold k_light. ra. apply Rgt_not_eq. apply Rdiv_lt_0_compat; lra. }
  assert (I : D (if ltb (a:=RA) (lit 0) di then mul (a:=XA) (mul (a:=XA) (mul (a:=XA) (div (a:=XA) (lit 8.18645) (div (a:=XA) (mul (a:=XA) k_light (lit 100)) (mul (a:=XA) (Fin f) (lit 1e9)))) (Fin di)) (lit 0.000959553)) db2np else lit 0)
     (if ltb (a:=RA) (lit 0) di then mul (a:=RA) (mul (a:=RA) (mul (a:=RA) (div (a:=RA) (lit 8.18645) (div (a:=RA) (mul (a:=RA) k_light (lit 100)) (mul (a:=RA) f (lit 1e9)))) di) (lit 0.000959553)) db2np else lit 0)).
  { apply D_if; [reflexivity| |apply D_lit]. apply D_mul; [|exact db2np_D]. apply D_mul; [|apply D_lit]. apply D_mul; [|reflexivity].
    apply D_div; [apply D_lit| |exact W]. apply D_div; [apply D_mul; [unfold k_light; dfin|apply D_lit]|apply D_mul; [reflexivity|apply D_lit]|ra; lra]. }
  assert (IN : Rle 0 (if ltb (a:=RA) (lit 0) di then mul (a:=RA) (mul (a:=RA) (mul (a:=RA) (div (a:=RA) (lit 8.18645) (div (a:=RA) (mul (a:=RA) k_light (lit 100)) (mul (a:=RA) f (lit 1e9)))) di) (lit 0.000959553)) db2np else lit (a:=RA) 0)).
  { destruct (ltb (a:=RA) (lit 0) di) eqn:E; [|ra; lra]. change (ltb (a:=RA) (lit 0) di) with (Rltb (0 / 1) di) in E. unfold Rltb in E. destruct (Rlt_dec (0 / 1) di); [|discriminate].
    apply Rmult_le_pos; [|apply Rlt_le, db2np_pos]. unfold k_light. ra. apply Rmult_le_pos; [|lra]. apply Rmult_le_pos; [|lra].
    apply Rlt_le, Rdiv_lt_0_compat; [lra|]. apply Rdiv_lt_0_compat; lra. }
  match type of I with D ?x ?r => change (Rle 0 r) in IN; set (xi := x) in *; set (ii := r) in * end. clearbody xi ii. unfold D in I. subst xi.
  destruct (ltb (a:=RA) (lit 0) dl) eqn:E.
  - change (ltb (a:=RA) (lit 0) dl) with (Rltb (0 / 1) dl) in E. unfold Rltb in E. destruct (Rlt_dec (0 / 1) dl); [|discriminate].
    destruct (Hl ltac:(lra)) as [Hm Ht]. destruct (liquid_D m dl f t Hm Hf Ht) as (a & L1 & L2 & L3). rewrite L1, L2. cbn [bind]. exists a, ii. split; [reflexivity|]. split; [reflexivity|]. split; [exact L3|exact IN].
  - cbn [bind]. exists (0 : R), ii. split; [change (lit (a:=XA) 0) with (Fin (0 / 1)); repeat f_equal; lra|]. split; [repeat f_equal; ra; lra|]. split; [lra|exact IN].
Qed.

Theorem cloud_D m f (ts dl di : list R) : 0 < f -> length dl = length ts -> length di = length ts ->
  (forall i, (i < length ts)%nat -> 0 < nth i dl 0 -> In m liq_models /\ 208.15 <= nth i ts 0 <= 396) ->
  exists al ai, cloudy_absorption (A:=XA) (Some m) (map Fin ts) (map Fin dl) (map Fin di) (Fin f) = Ok (map Fin al, map Fin ai) /\
    cloudy_absorption (A:=RA) (Some m) ts dl di f = Ok (al, ai) /\ length al = length ts /\ length ai = length ts /\ (forall v, In v al \/ In v ai -> 0 <= v).
Proof.
  intros Hf L1 L2 Hl.
  set (P := fun (x : car XA * (car XA * car XA)) (y : car RA * (car RA * car RA)) => x = (Fin (fst y), (Fin (fst (snd y)), Fin (snd (snd y)))) /\
     (0 < fst (snd y) -> In m liq_models /\ 208.15 <= fst y <= 396)).
  assert (FP : Forall2 P (combine (map Fin ts) (combine (map Fin dl) (map Fin di))) (combine ts (combine dl di))).
  { revert dl di L1 L2 Hl. induction ts as [|t ts IH]; intros [|l dl] [|i di] L1 L2 Hl; cbn [length] in *; try discriminate; cbn [map combine]; [constructor|].
    constructor.
    - split; [reflexivity|]. cbn [fst snd]. apply (Hl 0%nat). lia.
    - apply IH; try lia. intros k Hk. apply (Hl (S k)). lia. }
  destruct (mapM_D P (fun '(t, (l, i)) => cloudy_level (A:=XA) (Some m) (Fin f) t l i) (fun '(t, (l, i)) => cloudy_level (A:=RA) (Some m) f t l i) _ _ FP) as (r & M1 & M2 & M3 & M4).
  { intros x (t & l & i). cbn. intros (-> & H). destruct (cloud_level_D m f t l i Hf H) as (al & ai & C1 & C2 & C3 & C4). exists al, ai. auto. }
  assert (Lr : length r = length ts) by (rewrite M3; repeat rewrite combine_length; repeat rewrite map_length; lia).
  exists (map fst r), (map snd r). split; [|split; [|split; [|split]]].
  - etransitivity; [apply (f_equal (fun m => bind m _)); exact M1|]. cbn [bind]. rewrite !map_map. reflexivity.
  - etransitivity; [apply (f_equal (fun m => bind m _)); exact M2|]. reflexivity.
  - rewrite map_length. exact Lr.
  - rewrite map_length. exact Lr.
  - intros v [Hv|Hv]; apply in_map_iff in Hv; destruct Hv as (x & <- & Hx); apply M4; exact Hx.
Qed.
