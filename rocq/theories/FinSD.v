(** From the extended numbers to the ideal reals for the models with speed-dependent line shapes: inside the domain of the shapes
    the computation over [XA] stays finite and gives the numbers computed over [RA]. *)

From Coq Require Import ZArith Reals Lra Lia Psatz String List Bool.
Import ListNotations.
From Coquelicot Require Import Rcomplements Complex.
From Verif Require Import Arith PyBase Utils Absorption Clear Spectrum Spec RealAux SolverGen LineData Lineshape PropsAbsN2 PropsLiq PropsClear PropsO2H2O PropsH2O SDShape PropsSD PropsSelfCont PropsSDWater FinTransfer FinGas.
Local Open Scope string_scope.
Open Scope R_scope.

(** ** Complex numbers *)

Definition Dc (x : cpx XA) (z : cpx RA) : Prop := D (re x) (re z) /\ D (im x) (im z).

Lemma Dc_mk a b r s : D a r -> D b s -> Dc (mkC a b) (mkC r s). Proof. split; auto. Qed.
Lemma Dc_of a r : D a r -> Dc (c_of (A:=XA) a) (c_of (A:=RA) r). Proof. split; [auto|apply D_lit]. Qed.
Lemma Dc_add x y z w : Dc x z -> Dc y w -> Dc (c_add x y) (c_add z w).
Proof. intros [A B] [E F]. split; cbn [c_add re im]; dfin. Qed.
Lemma Dc_sub x y z w : Dc x z -> Dc y w -> Dc (c_sub x y) (c_sub z w).
Proof. intros [A B] [E F]. split; cbn [c_sub re im]; dfin. Qed.
Lemma Dc_mul x y z w : Dc x z -> Dc y w -> Dc (c_mul x y) (c_mul z w).
Proof. intros [A B] [E F]. split; cbn [c_mul re im]; dfin. Qed.
Lemma Dc_scale k r x z : D k r -> Dc x z -> Dc (c_scale k x) (c_scale r z).
Proof. intros H [A B]. split; cbn [c_scale re im]; dfin. Qed.
Lemma Dc_div x y z w : Dc x z -> Dc y w -> 0 < Cmod (toC w) -> Dc (c_div x y) (c_div z w).
Proof.
  intros [A B] [E F] H. assert (N : (c_norm2 w : R) <> 0).
  { unfold Cmod in H. intros X. unfold toC in H. cbn [fst snd] in H. replace (re w ^ 2 + im w ^ 2) with 0 in H; [rewrite sqrt_0 in H; lra|].
    unfold c_norm2 in X. ra. rewrite <- X at 1. ring. }
  split; unfold c_div; cbn [re im]; (apply D_div; [dfin| |exact N]); unfold c_norm2; dfin.
Qed.
Lemma Dc_sqrt x z : Dc x z -> Dc (c_sqrt x) (c_sqrt z).
Proof.
  intros [A B]. destruct x as [xa xb], z as [a b]. cbn [re im] in A, B.
  assert (S : 0 <= (c_norm2 (mkC a b) : R)). { unfold c_norm2. cbn [re im]. ra. assert (X := sq_nonneg a). assert (Y := sq_nonneg b). lra. }
  assert (R1 : D (c_abs (mkC xa xb)) (c_abs (mkC a b))). { unfold c_abs. apply D_sqrt; [|exact S]. unfold c_norm2. cbn [re im]. dfin. }
  assert (P : - (c_abs (mkC a b) : R) <= a <= c_abs (mkC a b)).
  { unfold c_abs. set (r := sqrtf (a:=RA) (c_norm2 (mkC a b))). assert (R0 : 0 <= (r : R)) by apply sqrt_pos.
    assert (R2 : (r : R) * r = a * a + b * b). { unfold r. change (sqrt (c_norm2 (mkC a b)) * sqrt (c_norm2 (mkC a b)) = a * a + b * b). rewrite sqrt_sqrt by exact S. reflexivity. }
    clearbody r. change (car RA) with R in *. split; nra. }
  unfold c_sqrt. cbv zeta. revert R1 P. generalize (c_abs (mkC xa xb)) (c_abs (mkC a b)). cbn [re im]. intros xr r R1 P.
  assert (N : (lit (a:=RA) (Dec 2 1) : R) <> 0) by (ra; lra).
  split; cbn [re im].
  - apply D_sqrt; [dfin|ra; lra].
  - apply D_if; [dfin| |]; [apply D_opp|]; (apply D_sqrt; [dfin|ra; lra]).
Qed.
Lemma Dc_horner xl l (xs : list (car XA)) (cs : list (car RA)) x z : Dc xl l -> Forall2 D xs cs -> Dc x z -> Dc (horner (A:=XA) xl xs x) (horner (A:=RA) l cs z).
Proof. intros Hl H Hx. induction H as [|c d xs cs Hc H IH]; cbn [horner]; [exact Hl|]. apply Dc_add; [apply Dc_mul; auto|apply Dc_of; auto]. Qed.

Lemma Dc_dcerror x z : Dc x z -> 0 <= (re z : R) -> 0 < Cmod (pev qb (toC z)) ->
  Dc (dcerror (A:=XA) (opp (a:=XA) (im x)) (re x)) (dcerror (A:=RA) (opp (a:=RA) (im z)) (re z)).
Proof.
  intros [A B] H Q. unfold dcerror. cbv zeta. rewrite (D_leb _ _ _ _ (D_lit (Dec 0 1)) A).
  replace (leb (a:=RA) (lit (Dec 0 1)) (re z)) with true by (symmetry; apply Rleb_true; ra; lra).
  unfold dcerr_w. cbv zeta.
  assert (Z : Dc (mkC (absv (a:=XA) (re x)) (opp (a:=XA) (opp (a:=XA) (im x)))) (mkC (absv (a:=RA) (re z)) (opp (a:=RA) (opp (a:=RA) (im z))))) by (apply Dc_mk; dfin).
  assert (E : toC (mkC (absv (a:=RA) (re z)) (opp (a:=RA) (opp (a:=RA) (im z)))) = toC z).
  { unfold toC. cbn [re im]. ra. rewrite Rabs_pos_eq by auto. f_equal. ring. }
  apply Dc_div.
  - apply Dc_horner; [apply Dc_of, D_lit| |exact Z]. unfold dcerr_a. cbn [firstn]. repeat constructor.
  - apply Dc_horner; [apply Dc_of, D_lit| |exact Z]. unfold dcerr_b. repeat constructor.
  - rewrite toC_horner, E. rewrite <- dcerr_b_qb in Q. exact Q.
Qed.

(** The expression under both shapes. *)
Lemma Dc_pxw x z : Dc x z -> 0 <= (re z : R) -> 0 < Cmod (pev qb (toC z)) ->
  Dc (c_sub (c_of (A:=XA) (lit (Dec 10 10))) (c_mul (c_scale (lit (Dec 177245385090551603 100000000000000000)) x) (dcerror (A:=XA) (opp (a:=XA) (im x)) (re x))))
     (c_sub (c_of (A:=RA) (lit (Dec 10 10))) (c_mul (c_scale (lit (Dec 177245385090551603 100000000000000000)) z) (dcerror (A:=RA) (opp (a:=RA) (im z)) (re z)))).
Proof. intros H P Q. apply Dc_sub; [apply Dc_of, D_lit|]. apply Dc_mul; [apply Dc_scale; [apply D_lit|exact H]|apply Dc_dcerror; auto]. Qed.

(** The root of the argument of a mild line. *)
Lemma root_ok (w0 w2 s2 d : R) (xc : cpx RA) : mild w0 w2 s2 -> Rabs d <= 10 * w0 -> Cmult (w2, - s2) (toC xc) = (w0 - 15/10 * w2, d + 15/10 * s2) ->
  0 <= (re (c_sqrt xc) : R) /\ 0 < Cmod (pev qb (toC (c_sqrt xc))).
Proof.
  intros Hm Hd XC. destruct (c_sqrt_spec xc) as (P & Q & _). split; [exact P|]. rewrite <- Q in XC.
  destruct (root_region w0 w2 s2 d Hm Hd (toC (c_sqrt xc)) P XC) as (G & Y).
  assert (W := w_mod w0 w2 s2 Hm). assert (YM := y_mod w0 w2 s2 d Hm). destruct Hm as (H0 & (H1 & H1') & H2).
  destruct (shape_inverse (w2, - s2) (toC (c_sqrt xc)) (w0, d) G ltac:(lra) ltac:(lra) Y) as (z & _ & _ & K & _). exact K.
Qed.

(** ** Water vapour *)

(** The columns read by the speed-dependent branch only. *)
Record Dh2 (x : h2o_line XA) (r : h2o_line RA) : Prop := mkDh2 {
  dh_w2 : D (h_w2 x) (h_w2 r); dh_w2s : D (h_w2s x) (h_w2s r); dh_xw2 : D (h_xw2 x) (h_xw2 r); dh_xw2s : D (h_xw2s x) (h_xw2s r);
  dh_d2 : D (h_d2 x) (h_d2 r); dh_d2s : D (h_d2s x) (h_d2s r) }.
Record Dhl2 (x : h2o_ll XA) (r : h2o_ll RA) : Prop := mkDhl2 {
  dl_d2air : D (h_d2air x) (h_d2air r); dl_d2self : D (h_d2self x) (h_d2self r); dl_lines2 : Forall2 Dh2 (h_lines x) (h_lines r) }.

Lemma sd_line_D m (xll : h2o_ll XA) (ll : h2o_ll RA) (xe : h2o_env XA) (e : h2o_env RA) i (xl : h2o_line XA) (l : h2o_line RA) (xw0 xw2 xb xd : car XA) (w0 w2 b d : R) :
  D (h_d2air xll) (h_d2air ll) -> D (h_d2self xll) (h_d2self ll) -> De xe e -> Dh2 xl l -> D xw0 w0 -> D xw2 w2 -> D xb b -> D xd d ->
  mild w0 w2 (shift2 m ll e i l) -> Rabs d <= 10 * w0 ->
  D (sd_line (A:=XA) m xll xe i xl xw0 xw2 xb xd) (sd_line (A:=RA) m ll e i l w0 w2 b d).
Proof.
  intros Ha Hs [Et Er Ev Ep Ed] [L1 L2 L3 L4 L5 L6] H0 H2 Hb Hd Hm Hr. assert (Hm' := Hm). destruct Hm' as (M0 & (M1 & M1') & M2).
  unfold sd_line. cbv zeta.
  set (has := orb (String.eqb m "R20SD") (str_in m h2o_delta2_models)).
  set (s2 := shift2 m ll e i l) in *.
  match goal with |- D _ ?g => match g with context [@mkC RA w2 (opp ?a)] => set (dl := a) end end.
  match goal with |- D ?g _ => match g with context [@mkC XA xw2 (opp ?a)] => set (xdl := a) end end.
  assert (DD : D xdl dl) by (unfold xdl, dl; destruct (String.eqb m "R20SD"), (Nat.eqb i 1); dfin).
  assert (DL : has = true -> (dl : R) = s2).
  { unfold has, dl, s2, shift2. destruct (String.eqb m "R20SD"); [intros _; destruct (Nat.eqb i 1); [reflexivity|ra; lra]|]. cbn [orb]. intros ->. reflexivity. }
  assert (S0 : has = false -> s2 = 0).
  { unfold has, s2, shift2. destruct (String.eqb m "R20SD"); [discriminate|]. cbn [orb]. intros ->. reflexivity. }
  clearbody dl xdl has.
  assert (W2 : (w2 : R) <> 0) by lra.
  assert (WM : 0 < Cmod (toC (mkC (w2 : car RA) (opp (a:=RA) dl)))) by (unfold toC; cbn [re im]; eapply Rlt_le_trans; [exact M0|apply mod_pos; exact M0]).
  match goal with |- D _ ?g => match g with context [@c_sqrt RA ?a] => set (xc := a) end end.
  match goal with |- D ?g _ => match g with context [@c_sqrt XA ?a] => set (xxc := a) end end.
  assert (DX : Dc xxc xc).
  { unfold xxc, xc. destruct has; [apply Dc_div; [apply Dc_mk; dfin|apply Dc_mk; dfin|exact WM]|apply Dc_scale; [dfin|apply Dc_mk; dfin]]. }
  pose (W := (w2, - s2) : C).
  assert (XC : (W * toC xc)%C = (w0 - 15/10 * w2, d + 15/10 * s2)).
  { unfold xc. destruct has.
    - rewrite toC_div. unfold toC. cbn [re im]. ra. rewrite DL by auto.
      assert (NZ : W <> RtoC 0) by (intros X; apply (f_equal fst) in X; cbn in X; lra).
      change (w2, - s2) with W. set (V := (w0 - 15 / 10 * w2, d + 15 / 10 * s2) : C). change ((W * (V / W))%C = V). field. exact NZ.
    - rewrite toC_scale. unfold W, toC, Cmult, RtoC. cbn [re im fst snd]. ra. rewrite S0 by auto. f_equal; field; lra. }
  clearbody xc xxc. destruct (root_ok w0 w2 s2 d xc Hm Hr XC) as (P & Q). assert (DR := Dc_sqrt _ _ DX).
  assert (T := Dc_scale _ _ _ _ (D_lit (Dec 20 10)) (Dc_pxw _ _ DR P Q)).
  apply D_sub; [|exact Hb]. destruct has; [apply (Dc_div _ _ _ _ T)|apply Dc_scale; [|exact T]].
  - apply Dc_mk; dfin.
  - exact WM.
  - dfin.
Qed.

Lemma h2o_line_sd_D m (xll : h2o_ll XA) (ll : h2o_ll RA) (xe : h2o_env XA) (e : h2o_env RA) (xf xti xtl xt2 : car XA) (f ti tl t2 : R) i (xl : h2o_line XA) (l : h2o_line RA) :
  D (h_d2air xll) (h_d2air ll) -> D (h_d2self xll) (h_d2self ll) -> De xe e -> D xf f -> D xti ti -> D xtl tl -> D xt2 t2 -> Dh xl l -> Dh2 xl l -> sharp l ->
  0 < (e_pda e : R) -> 0 <= (e_pvap e : R) -> 0 < ti -> tame m ll e ti i l ->
  D (h2o_line_sd (A:=XA) m xll xe xf xti xtl xt2 i xl) (h2o_line_sd (A:=RA) m ll e f ti tl t2 i l).
Proof.
  intros Ha Hss HE Hf Hti Htl Ht2 HL HL2 (S1 & S2 & S3) Pp Pv Pti HT.
  assert (HE' := HE). assert (HL' := HL). assert (HL2' := HL2). destruct HE' as [Et Er Ev Ep Ed]. destruct HL' as [L1 L2 L3 L4 L5 L6 L7 L8 L9 L10 L11 L12 L13 L14]. destruct HL2' as [K1 K2 K3 K4 K5 K6].
  unfold h2o_line_sd. cbv zeta.
  match goal with |- D _ ?g => match g with context [local_line ?c ?w ?q ?b ?d] => set (w0 := w) end end.
  match goal with |- D ?g _ => match g with context [local_line ?c ?w ?q ?b ?d] => set (xw0 := w) end end.
  match goal with |- D _ ?g => match g with context [sd_line ?m ?ll ?e ?i ?ln ?w ?v ?b ?d] => set (w2 := v) end end.
  match goal with |- D ?g _ => match g with context [sd_line ?m ?ll ?e ?i ?ln ?w ?v ?b ?d] => set (xw2 := v) end end.
  assert (D0 : D xw0 w0) by (unfold xw0, w0; dfin).
  assert (D2 : D xw2 w2) by (unfold xw2, w2; dfin).
  assert (EW : (w0 : R) = halfwidth e ti l) by (unfold w0, halfwidth; ra; rewrite !Rpowf_pos by auto; reflexivity).
  assert (EW2 : (w2 : R) = halfwidth2 m e ti l).
  { unfold w2, halfwidth2. destruct (str_in m h2o_delta2_models); [|reflexivity]. ra. rewrite !Rpowf_pos by auto. unfold Rltb. destruct (Rlt_dec (0/1) (h_w2 l)), (Rlt_dec 0 (h_w2 l)); try lra. }
  assert (HW : 0 < (w0 : R)).
  { rewrite EW. unfold halfwidth. assert (A1 := Rpower_pos ti (h_x l)). assert (A2 := Rpower_pos ti (h_xs l)).
    apply Rplus_lt_le_0_compat; [apply Rmult_lt_0_compat; auto; apply Rmult_lt_0_compat; auto|apply Rmult_le_pos; try lra; apply Rmult_le_pos; auto]. }
  unfold tame in HT. rewrite <- EW, <- EW2 in HT. clear EW EW2. clearbody w0 w2 xw0 xw2.
  assert (Q : D (powi (A:=XA) xw0 2) (powi (A:=RA) w0 2)) by dfin.
  assert (QP : 0 < (powi (A:=RA) w0 2 : R)) by (rewrite powi2; apply Rmult_lt_0_compat; auto).
  revert Q QP. generalize (powi (A:=XA) xw0 2) (powi (A:=RA) w0 2). intros xq q Q QP.
  assert (NB : (add (a:=RA) (lit (Dec 5625000 10)) q : R) <> 0) by (ra; lra).
  assert (NF : (h_fl l : R) <> 0) by lra.
  assert (B : D (div (a:=XA) xw0 (add (a:=XA) (lit (Dec 5625000 10)) xq)) (div (a:=RA) w0 (add (a:=RA) (lit (Dec 5625000 10)) q))) by dfin.
  revert B. generalize (div (a:=XA) xw0 (add (a:=XA) (lit (Dec 5625000 10)) xq)) (div (a:=RA) w0 (add (a:=RA) (lit (Dec 5625000 10)) q)). intros xb b B.
  match goal with |- D _ ?g => match g with context [sd_line ?m ?ll ?e ?i ?ln ?w ?v ?b ?d] => set (df := d) end end.
  match goal with |- D ?g _ => match g with context [sd_line ?m ?ll ?e ?i ?ln ?w ?v ?b ?d] => set (xdf := d) end end.
  assert (DF : D xdf df) by (unfold xdf, df; dfin). 
  apply D_mul; [apply D_mul; [dfin|apply D_add; [apply D_add; [apply D_lit|]|apply local_D; auto; dfin]]|dfin].
  clearbody df xdf.
  rewrite (D_ltb _ _ _ _ (D_lit (Dec 0 1)) D2), (D_ltb _ _ _ _ (D_abs _ _ DF) (D_mul _ _ _ _ (D_lit (Dec 10 1)) D0)).
  destruct (andb _ _) eqn:EB; [|apply local_D; auto].
  apply andb_true_iff in EB. destruct EB as [B1 B2]. ra. destruct (Rltb_spec (0/1) w2); [|discriminate].
  match type of B2 with Rltb ?a ?b = true => destruct (Rltb_spec a b); [|discriminate] end.
  destruct HT as [HT|[HT HT2]]; [lra|]. apply sd_line_D; auto. lra.
Qed.

Lemma F2_len {S T} (P : S -> T -> Prop) l m : Forall2 P l m -> List.length l = List.length m.
Proof. induction 1; cbn; congruence. Qed.

Lemma h2o_summ_sd_D m (xl : h2o_ll XA) (l : h2o_ll RA) (xe : h2o_env XA) e (xf : car XA) f : startswith m h2o_sd_models = true -> Dhl xl l -> Dhl2 xl l -> Forall sharp (h_lines l) ->
  0 < (h_reftline l : R) -> De xe e -> D xf f -> 0 < (e_t e : R) -> 0 < (e_pda e : R) -> 0 <= (e_pvap e : R) ->
  (forall i ln, nth_error (h_lines l) i = Some ln -> tame m l e (h_reftline l / e_t e) i ln) ->
  exists xs s, h2o_summ (A:=XA) m xl xe xf = Some xs /\ h2o_summ (A:=RA) m l e f = Some s /\ D xs s.
Proof.
  intros Hm HL HL2 Hs Hr HE Hf Pt Pp Pv HT. unfold h2o_summ. rewrite Hm.
  eexists _, _. split; [reflexivity|]. split; [reflexivity|].
  assert (Et := de_t _ _ HE). assert (Nt : (e_t e : R) <> 0) by lra. assert (RL := dl_reftline _ _ HL).
  assert (T : D (div (a:=XA) (h_reftline xl) (e_t xe)) (div (a:=RA) (h_reftline l) (e_t e))) by dfin.
  assert (TP : 0 < (div (a:=RA) (h_reftline l) (e_t e) : R)) by (apply div_pos; auto).
  change (forall i ln, nth_error (h_lines l) i = Some ln -> tame m l e (div (a:=RA) (h_reftline l) (e_t e)) i ln) in HT.
  revert T TP HT. generalize (div (a:=XA) (h_reftline xl) (e_t xe)) (div (a:=RA) (h_reftline l) (e_t e)). intros xti ti T TP HT.
  apply D_sum; [apply D_lit|].
  assert (A := dl_lines _ _ HL). assert (B := dl_lines2 _ _ HL2). assert (K1 := dl_d2air _ _ HL2). assert (K2 := dl_d2self _ _ HL2).
  rewrite (F2_len _ _ _ A).
  assert (HT' : forall i ln, nth_error (h_lines l) i = Some ln -> tame m l e ti (0 + i) ln) by exact HT. clear HT. revert HT'. 
  generalize 0%nat as k. revert A B Hs. generalize (h_lines xl) (h_lines l). intros la lb A.
  induction A as [|a b la lb Hab A IH]; intros B Hs k HT; [constructor|].
  inversion B; subst. inversion Hs; subst. cbn [length seq combine map]. constructor.
  - apply h2o_line_sd_D; auto; dfin. specialize (HT 0%nat b eq_refl). rewrite Nat.add_0_r in HT. exact HT.
  - apply IH; auto. intros i ln Hi. specialize (HT (S i) ln Hi). rewrite Nat.add_succ_r in HT. exact HT.
Qed.

Lemma py_get_D (xs : list (car XA)) (rs : list (car RA)) j v : Forall2 D xs rs -> py_get rs j = Ok v -> exists x, py_get xs j = Ok x /\ D x v.
Proof.
  intros H. unfold py_get. rewrite (F2_len _ _ _ H). destruct (py_pos (List.length rs) j) as [k|]; [|discriminate].
  revert k. induction H as [|x r xs rs Hx H IH]; intros [|k]; cbn [nth_error]; try discriminate; auto.
  intros E. apply ok_inj in E. subst v. exists x. auto.
Qed.

Lemma continuum_D (xf xv : car XA) (f v : R) c : D xf f -> D xv v -> 0 < v -> h2o_continuum (A:=RA) f v = Ok c -> exists x, h2o_continuum (A:=XA) xf xv = Ok x /\ D x c.
Proof.
  intros Hf Hv P. unfold h2o_continuum. cbv zeta.
  assert (N : (deltaf (A:=RA) : R) <> 0) by (unfold deltaf; ra; lra).
  assert (FJ : D (div (a:=XA) xf (deltaf (A:=XA))) (div (a:=RA) f (deltaf (A:=RA)))) by (apply D_div; [exact Hf|apply D_lit|exact N]).
  assert (TB : Forall2 D (continuum_table (A:=XA) xv) (continuum_table (A:=RA) v)).
  { assert (T : 0 < (div (a:=RA) (lit (Dec 3000 10)) v : R)) by (apply div_pos; auto; ra; lra).
    assert (TH : 0 < (div (a:=RA) (lit (Dec 2960 10)) (div (a:=RA) (lit (Dec 3000 10)) v) : R)) by (apply div_pos; auto; ra; lra).
    assert (NT : (div (a:=RA) (lit (Dec 3000 10)) v : R) <> 0) by lra. assert (NV : (v : R) <> 0) by lra.
    unfold continuum_table, selfcon, selftexp. cbv zeta. cbn [combine map nth]. repeat constructor; dfin. }
  revert FJ TB. generalize (div (a:=XA) xf (deltaf (A:=XA))) (div (a:=RA) f (deltaf (A:=RA))) (continuum_table (A:=XA) xv) (continuum_table (A:=RA) v). intros xj fj xs rs FJ TB.
  assert (TR : trunc (a:=XA) xj = trunc (a:=RA) fj) by (rewrite FJ; reflexivity). rewrite TR. destruct (trunc (a:=RA) fj) as [j0|]; [|discriminate].
  intros H. repeat (apply bind_Ok in H; let E := fresh "E" in let a := fresh "a" in destruct H as (a & E & H);
    let x := fresh "x" in let X := fresh "X" in let Y := fresh "Y" in destruct (py_get_D _ _ _ _ TB E) as (x & X & Y); rewrite X; cbn [bind]).
  eexists. split; [reflexivity|]. apply ok_inj in H. subst c. unfold cubic4. cbv zeta. dfin.
Qed.

Definition sd_fin_models := ["R19SD"; "R20SD"; "R21SD"; "R22SD"; "R23SD"; "R24"; "MWL24"].

Theorem h2o_sd_D m (xl : h2o_ll XA) (l : h2o_ll RA) (xp xv xe xf : car XA) pd vx ek f n c : In m sd_fin_models -> Dhl xl l -> Dhl2 xl l -> Forall sharp (h_lines l) ->
  0 < (h_reftcon l : R) -> 0 < (h_reftline l : R) ->
  D xp pd -> D xv vx -> D xe ek -> D xf f -> 0 < vx -> 0 < pd -> 0 <= ek -> 0 < f ->
  (forall i ln, nth_error (h_lines l) i = Some ln -> tame m l (h2o_env_of (A:=RA) m pd vx ek) (h_reftline l / e_t (h2o_env_of (A:=RA) m pd vx ek)) i ln) ->
  h2o_absorption (A:=RA) m l pd vx ek f = Ok (n, c) -> h2o_absorption (A:=XA) m xl xp xv xe xf = Ok (Fin n, Fin c).
Proof.
  intros Hm HL HL2 Hs Rc Rl Hp Hv He Hf Pv Pp Pe Pf HT H.
  assert (SW : startswith m h2o_sd_models = true) by (unfold sd_fin_models in Hm; cbn [In] in Hm; intuition subst; reflexivity).
  assert (HE := h2o_env_D m xp xv xe pd vx ek Hp Hv He Pv).
  destruct (h2o_env_range m pd vx ek Pv ltac:(lra) Pe) as (E1 & E2 & E3 & E4 & E5).
  assert (E6 : 0 < (e_pda (h2o_env_of (A:=RA) m pd vx ek) : R)).
  { assert (X := proj1 (proj2 (proj2 (proj2 (h2o_env_range m 0 vx ek Pv ltac:(lra) Pe))))).
    assert (Y : (e_pda (h2o_env_of (A:=RA) m pd vx ek) : R) = e_pda (h2o_env_of (A:=RA) m 0 vx ek) + pd * 10) by (unfold h2o_env_of; cbn [e_pda]; ra; lra).
    lra. }
  unfold h2o_absorption in *. cbv zeta in *.
  rewrite (D_eqb _ _ _ _ (de_rho _ _ HE) (D_lit (Dec 0 1))).
  destruct (eqb (e_rho (h2o_env_of (A:=RA) m pd vx ek)) (lit (Dec 0 1))).
  { apply ok_inj in H. assert (A := f_equal fst H). assert (B := f_equal snd H). cbn [fst snd] in A, B. subst n c. reflexivity. }
  destruct (h2o_summ_sd_D m xl l _ _ xf f SW HL HL2 Hs Rl HE Hf E1 E6 E3 HT) as (xs & s & S1 & S2 & S3).
  rewrite S2 in H. rewrite S1. apply bind_Ok in H. destruct H as (con & HC & H).
  assert (CX : exists x, h2o_con2 (A:=XA) m xl (h2o_env_of (A:=XA) m xp xv xe) xv xf = Ok x /\ D x con).
  { unfold h2o_con2 in *. cbv zeta in *. assert (Et := de_t _ _ HE). assert (Ed := de_pda _ _ HE). assert (Ev := de_pvap _ _ HE).
    destruct HL as [L1 L2 L3 L4 L5 L6 L7] eqn:EHL. assert (Nt : (e_t (h2o_env_of (A:=RA) m pd vx ek) : R) <> 0) by lra.
    assert (TP : 0 < (div (a:=RA) (h_reftline l) (e_t (h2o_env_of (A:=RA) m pd vx ek)) : R)) by (apply div_pos; auto).
    destruct (str_in m ["R23SD"; "R24"]).
    - rewrite (D_ltb _ _ _ _ (D_lit (Dec 0 1)) L5). apply bind_Ok in HC. destruct HC as (cs & HC1 & HC). apply ok_inj in HC. subst con.
      destruct (ltb (lit (Dec 0 1)) (h_cs l)).
      + apply ok_inj in HC1. subst cs. cbn [bind]. eexists. split; [reflexivity|]. dfin.
      + destruct (continuum_D xf xv f vx cs Hf Hv Pv HC1) as (x & X1 & X2). rewrite X1. cbn [bind]. eexists. split; [reflexivity|]. dfin.
    - apply ok_inj in HC. subst con. eexists. split; [reflexivity|]. apply h2o_con_D; auto. }
  destruct CX as (x & X1 & X2). rewrite X1. cbn [bind].
  apply ok_inj in H. assert (A := f_equal fst H). assert (B := f_equal snd H). cbn [fst snd] in A, B. subst n c. f_equal. f_equal.
  - assert (Dr := de_rho _ _ HE). assert (Dd := de_den _ _ HE).
    assert (P := PI_RGT_0). assert (NP : (pif (a:=RA) : R) <> 0) by (change (PI <> 0); lra).
    assert (N1 : (lit (a:=RA) (Dec 29915075 1000000000000000000000000000000) : R) <> 0) by (ra; lra).
    assert (N2 : (mul (a:=RA) pif (lit (Dec 29915075 1000000000000000000000000000000)) : R) <> 0) by (apply Rmult_integral_contrapositive_currified; auto).
    destruct (str_in m ["R22SD"; "R23SD"]); [|destruct (String.eqb m "R24")]; (apply quot_D; [|exact Hf|lra]); dfin.
  - apply quot_D; [exact X2|exact Hf|lra].
Qed.

(** The shipped lists. *)
Lemma h2o_row_D2 m r : Dh2 (h2o_row (A:=XA) m r) (h2o_row (A:=RA) m r).
Proof.
  assert (N : (lit (a:=RA) (Dec 10000 10) : R) <> 0) by (ra; lra).
  assert (M : forall i, D (div (a:=XA) (col (A:=XA) r i) (lit (Dec 10000 10))) (div (a:=RA) (col (A:=RA) r i) (lit (Dec 10000 10)))).
  { intros i. apply D_div; [apply D_lit|apply D_lit|exact N]. }
  assert (C : forall i, D (col (A:=XA) r i) (col (A:=RA) r i)) by (intros i; apply D_lit).
  unfold h2o_row. cbv zeta. constructor; cbn [h_w2 h_w2s h_xw2 h_xw2s h_d2 h_d2s];
    repeat match goal with |- context [if ?b then _ else _] => destruct b end; first [apply M | apply C | apply D_lit].
Qed.

Lemma h2o_load_D2 m mtx ctr rl a b : Dhl2 (h2o_load (A:=XA) m mtx ctr rl a b) (h2o_load (A:=RA) m mtx ctr rl a b).
Proof.
  constructor; cbn [h2o_load h_d2air h_d2self h_lines]; try apply D_lit.
  induction mtx as [|r mtx IH]; cbn [map]; constructor; [apply h2o_row_D2|exact IH].
Qed.

Lemma sd_fin_in m : In m sd_fin_models -> In m sd_models.
Proof. unfold sd_fin_models, sd_models. cbn [In]. tauto. Qed.

Lemma shipped_h2o_sd_D m : In m sd_fin_models -> exists xl l, db_h2o (@shipped XA) m = Some xl /\ db_h2o (@shipped RA) m = Some l /\ Dhl xl l /\ Dhl2 xl l /\ Forall sharp (h_lines l).
Proof.
  intros Hm. change (db_h2o (@shipped XA) m) with (shipped_h2o (A:=XA) m). change (db_h2o (@shipped RA) m) with (shipped_h2o (A:=RA) m).
  unfold sd_fin_models in Hm. cbn [In] in Hm. unfold shipped_h2o.
  repeat (destruct Hm as [Hm|Hm]; [subst m; cbn [String.eqb Ascii.eqb Bool.eqb]; eexists _, _; split; [reflexivity|]; split; [reflexivity|];
    split; [apply h2o_load_D|]; split; [apply h2o_load_D2|]; cbn [h2o_load h_lines]; apply sharp_rows; vm_compute; reflexivity|]). contradiction.
Qed.

(** Water vapour at one level, every input inside the range of [C57_sd_shipped]. *)
Theorem water_sd_level m pd vx ek f : In m sd_fin_models -> 0 < vx -> 100 <= 300 / vx <= 385 -> 0 < pd -> 0 <= ek -> pd + ek <= 110 -> 0 < f -> (In m ["R23SD"; "R24"; "MWL24"] -> f < 4 * node) ->
  exists xl l n c, db_h2o (@shipped XA) m = Some xl /\ db_h2o (@shipped RA) m = Some l /\ h2o_absorption (A:=RA) m l pd vx ek f = Ok (n, c) /\
    h2o_absorption (A:=XA) m xl (Fin pd) (Fin vx) (Fin ek) (Fin f) = Ok (Fin n, Fin c) /\ 0 <= n /\ 0 <= c.
Proof.
  intros Hm Hv Ht Hp He Hs Hf HF. assert (Hm' := sd_fin_in m Hm). destruct (shipped_h2o_sd_D m Hm) as (xl & l & X1 & X2 & X3 & X4 & X5).
  destruct (C57_sd_shipped m l pd vx ek f Hm' X2 Hv Ht ltac:(lra) He Hs Hf ltac:(intros Q; apply HF; cbn [In] in *; tauto)) as (n & c & H & Nn & Nc).
  exists xl, l, n, c. repeat (split; [assumption|]). split; [|split; [exact Nn|apply Nc; intros ->; apply HF; cbn [In]; tauto]].
  destruct (sd_lists_good m l Hm' X2) as (G1 & G2 & G3 & _).
  destruct (h2o_env_range m pd vx ek Hv ltac:(lra) He) as (E1 & E2 & E3 & E4 & E5).
  apply (h2o_sd_D m xl l (Fin pd) (Fin vx) (Fin ek) (Fin f) pd vx ek f n c); auto; try reflexivity.
  assert (ET : (e_t (h2o_env_of (A:=RA) m pd vx ek) : R) = 300 / vx) by (unfold h2o_env_of; cbn [e_t]; ra; lra).
  assert (PS : (e_pda (h2o_env_of (A:=RA) m pd vx ek) : R) + e_pvap (h2o_env_of (A:=RA) m pd vx ek) = (pd + ek) * 10) by (unfold h2o_env_of; cbn [e_pda e_pvap]; ra; lra).
  exact (tame_shipped m l (h2o_env_of (A:=RA) m pd vx ek) Hm' X2 ltac:(lra) E4 E3 ltac:(lra)).
Qed.

(** ** Oxygen, models R23 and R24 *)

Lemma o2_sd_D (xw xc xy xf : car XA) (w fc y f : R) : D xw w -> D xc fc -> D xy y -> D xf f -> 0 < w -> Rabs (f - fc) <= 10 * w ->
  D (o2_sd (A:=XA) xw xc xy xf) (o2_sd (A:=RA) w fc y f).
Proof.
  intros Hw Hc Hy Hf P Hd. unfold o2_sd. cbv zeta.
  assert (D2 : D (mul (a:=XA) (lit (Dec 76 1000)) xw) (mul (a:=RA) (lit (Dec 76 1000)) w)) by dfin.
  assert (E2 : (mul (a:=RA) (lit (Dec 76 1000)) w : R) = 76/1000 * w) by (ra; lra).
  revert D2 E2. generalize (mul (a:=XA) (lit (Dec 76 1000)) xw) (mul (a:=RA) (lit (Dec 76 1000)) w). intros xw2 w2 D2 E2. change (car RA) with R in w2.
  assert (Hm : mild w w2 0) by (unfold mild; rewrite E2, Rabs_R0; lra).
  assert (W2 : 0 < w2) by lra. assert (NW : (w2 : R) <> 0) by lra.
  match goal with |- D _ ?g => match g with context [@c_sqrt RA ?a] => set (zc := a) end end.
  match goal with |- D ?g _ => match g with context [@c_sqrt XA ?a] => set (xzc := a) end end.
  assert (DX : Dc xzc zc) by (unfold xzc, zc; apply Dc_scale; [dfin|apply Dc_mk; dfin]).
  assert (XC : Cmult (w2, - 0) (toC zc) = (w - 15/10 * w2, (f - fc) + 15/10 * 0)).
  { unfold zc. rewrite toC_scale. unfold toC, Cmult, RtoC. cbn [re im fst snd]. ra. f_equal; field; lra. }
  clearbody zc xzc. destruct (root_ok w w2 0 (f - fc) zc Hm Hd XC) as (Q1 & Q2). assert (DR := Dc_sqrt _ _ DX).
  apply Dc_scale; [dfin|]. apply Dc_mul; [apply Dc_scale; [apply D_lit|apply Dc_mk; dfin]|]. exact (Dc_pxw _ _ DR Q1 Q2).
Qed.

Lemma o2_line_sd_D (xf xa xw xy xg xc : car XA) (f a w y g fc : R) k : D xf f -> D xa a -> D xw w -> D xy y -> D xg g -> D xc fc -> 0 < w ->
  D (o2_line_sd (A:=XA) xf k xa xw xy xg xc) (o2_line_sd (A:=RA) f k a w y g fc).
Proof.
  intros Hf Ha Hw Hy Hg Hc P. unfold o2_line_sd. cbv zeta.
  assert (N : forall d : car RA, (add (a:=RA) (powi (A:=RA) d 2) (powi (A:=RA) w 2) : R) <> 0) by (intros d; rewrite !powi2; apply sq_plus; exact P).
  apply D_mul; [exact Ha|]. apply D_add; [|dfin; apply N].
  rewrite (D_ltb _ _ _ _ (D_abs _ _ (D_sub _ _ _ _ Hf Hc)) (D_mul _ _ _ _ (D_lit (Dec 100 10)) Hw)).
  destruct (andb _ _) eqn:EB; [|dfin; apply N].
  apply andb_true_iff in EB. destruct EB as [_ B2]. ra. match type of B2 with Rltb ?a ?b = true => destruct (Rltb_spec a b); [|discriminate] end.
  apply o2_sd_D; auto. lra.
Qed.

(** Numbered lines. *)
Definition Di (x : nat * o2_line XA) (r : nat * o2_line RA) : Prop := fst x = fst r /\ Do (snd x) (snd r) /\ sharp_o2 (snd r) /\ 0 < (o_s300 (snd r) : R).

Lemma indexed_D (xl : list (o2_line XA)) (l : list (o2_line RA)) : Forall2 Do xl l -> Forall sharp_o2 l -> Forall (fun k : o2_line RA => 0 < (o_s300 k : R)) l -> Forall2 Di (indexed xl) (indexed l).
Proof.
  intros H Hs Hp. unfold indexed. rewrite (F2_len _ _ _ H). generalize 0%nat. induction H; intros n; cbn [List.length seq combine]; [constructor|].
  inversion Hs; inversion Hp; subst. constructor; [unfold Di; cbn [fst snd]; auto|apply IHForall2; auto].
Qed.
Lemma filter_D (p : nat -> bool) (xs : list (nat * o2_line XA)) (rs : list (nat * o2_line RA)) : Forall2 Di xs rs -> Forall2 Di (filter (fun '(i, _) => p i) xs) (filter (fun '(i, _) => p i) rs).
Proof. induction 1 as [|[i x] [j r] xs rs [E H] HF IH]; cbn [filter]; [constructor|]. cbn [fst] in E. subst j. destruct (p i); [constructor; [split; auto|exact IH]|exact IH]. Qed.
Lemma F2_map {S T} (P : S -> T -> Prop) (F : S -> car XA) (G : T -> car RA) l m : Forall2 P l m -> (forall x y, P x y -> D (F x) (G y)) -> Forall2 D (map F l) (map G m).
Proof. intros H HF. induction H; constructor; auto. Qed.
Lemma F2_fold {S T} (P : S -> T -> Prop) (F : car XA -> S -> car XA) (G : car RA -> T -> car RA) l m : Forall2 P l m -> (forall a b x y, P x y -> D a b -> D (F a x) (G b y)) ->
  forall a b, D a b -> D (fold_left F l a) (fold_left G m b).
Proof. intros H HF. induction H; intros a b HD; cbn [fold_left]; auto. Qed.
Lemma sum_pos (l : list R) a : 0 <= a -> Forall (fun x => 0 < x) l -> (l <> [] \/ 0 < a) -> 0 < (sum_from (A:=RA) a l : R).
Proof.
  intros Ha H. revert a Ha. induction H as [|x l Hx H IH]; intros a Ha [N|N]; cbn [sum_from fold_left]; try contradiction; auto.
  - apply IH; [ra; lra|right; ra; lra].
  - apply IH; [ra; lra|right; ra; lra].
Qed.
Lemma band_pos (l : list (o2_line RA)) (F : o2_line RA -> R) : (2 <= List.length l)%nat -> Forall (fun k => 0 < F k) l ->
  0 < (sum_from (A:=RA) (lit (Dec 0 10)) (map (fun '(_, k) => F k) (filter (fun '(i, _) => in_1_37 i) (indexed l))) : R).
Proof.
  intros L H. destruct l as [|k0 [|k1 l]]; cbn [List.length] in L; try lia. apply sum_pos; [ra; lra| |left; discriminate].
  apply Forall_forall. intros x Hx. apply in_map_iff in Hx. destruct Hx as ([i k] & <- & Hx). apply filter_In in Hx. destruct Hx as [Hx _].
  unfold indexed in Hx. apply in_combine_r in Hx. exact (proj1 (Forall_forall _ _) H k Hx).
Qed.

Section O2.
Variables (xll : o2_ll XA) (ll : o2_ll RA) (xq : o2_env XA) (q : o2_env RA) (xf : car XA) (f : R).
Hypothesis HL : Dol xll ll.
Hypothesis HS : Forall sharp_o2 (o_lines ll).
Hypothesis HP : Forall (fun k : o2_line RA => 0 < (o_s300 k : R)) (o_lines ll).
Hypothesis HN : (2 <= List.length (o_lines ll))%nat.
Hypothesis HQ : Dq xq q.
Hypothesis HQ1 : D (q_pe1 xq) (q_pe1 q).
Hypothesis Hf : D xf f.
Hypothesis Th : 0 < (q_th q : R).
Hypothesis Den : 0 < (q_den q : R).
Hypothesis Pe : 0 < (q_pe1 q : R).
Hypothesis Nr : 0 < (q_dfnr q : R).
Hypothesis Wb : 0 < (o_wb300 ll : R).

Lemma o2_R24_D : D (o2_summ_R24 (A:=XA) xq xll xf) (o2_summ_R24 (A:=RA) q ll f).
Proof.
  assert (IL := indexed_D _ _ (dol_lines _ _ HL) HS HP). destruct HL as [L1 L2 L3]. destruct HQ as [Q1 Q2 Q3 Q4 Q5 Q6 Q7 Q8].
  unfold o2_summ_R24. cbv zeta.
  pose (xa := fun k : o2_line XA => div (a:=XA) (mul (a:=XA) (mul (a:=XA) (o_s300 k) (expf (a:=XA) (mul (a:=XA) (opp (a:=XA) (o_be k)) (q_th1 xq)))) (q_th xq)) (powi (A:=XA) (o_f k) 2)).
  pose (ra_ := fun k : o2_line RA => div (a:=RA) (mul (a:=RA) (mul (a:=RA) (o_s300 k) (expf (a:=RA) (mul (a:=RA) (opp (a:=RA) (o_be k)) (q_th1 q)))) (q_th q)) (powi (A:=RA) (o_f k) 2)).
  assert (AD : forall i j x r, Di (i, x) (j, r) -> D (xa x) (ra_ r)).
  { intros i j x r (_ & [K1 K2 K3 K4 K5 K6 K7 K8 K9 K10 K11 K12] & (S1 & S2) & S3). cbn [fst snd] in *. unfold xa, ra_.
    assert ((powi (A:=RA) (o_f r) 2 : R) <> 0) by (rewrite powi2; apply Rgt_not_eq, Rmult_lt_0_compat; auto). dfin. }
  assert (AP : Forall (fun k => 0 < (ra_ k : R)) (o_lines ll)).
  { apply Forall_forall. intros k Hk. destruct (proj1 (Forall_forall _ _) HS k Hk) as [S1 S2]. assert (S3 := proj1 (Forall_forall _ _) HP k Hk). cbv beta in S3.
    unfold ra_. rewrite powi2. apply div_pos; [|apply Rmult_lt_0_compat; auto]. apply Rmult_lt_0_compat; auto. apply Rmult_lt_0_compat; auto. apply exp_pos. }
  assert (AN : 0 < (sum_from (A:=RA) (lit (Dec 0 10)) (map (fun '(_, k) => ra_ k) (filter (fun '(i, _) => in_1_37 i) (indexed (o_lines ll)))) : R)) by (apply band_pos; auto).
  assert (AS : 0 < (sum_from (A:=RA) (lit (Dec 0 10)) (map (fun '(_, k) => powi (A:=RA) (ra_ k) 2) (filter (fun '(i, _) => in_1_37 i) (indexed (o_lines ll)))) : R)).
  { apply (band_pos (o_lines ll) (fun k => powi (A:=RA) (ra_ k) 2)); auto. eapply Forall_impl; [|exact AP]. intros k Hk. cbv beta in *. rewrite powi2. apply Rmult_lt_0_compat; auto. }
  assert (B := filter_D in_1_37 _ _ IL). assert (LO := filter_D (fun i => Nat.leb i 37) _ _ IL). cbv beta in LO.
  apply (F2_fold Di); [exact IL| |].
  - intros a b [i x] [j r] HD Hab. assert (A1 := AD i j x r HD). destruct HD as (E & [K1 K2 K3 K4 K5 K6 K7 K8 K9 K10 K11 K12] & (S1 & S2) & S3). cbn [fst snd] in *. subst j.
    assert (NF : (o_f r : R) <> 0) by lra.
    assert (SY : D (div (a:=XA) (sum_from (A:=XA) (mul (a:=XA) (lit (Dec 1584 100000000000000000000)) (o_wb300 xll))
                 (map (fun '(_, k) => mul (a:=XA) (mul (a:=XA) (lit (Dec 20 10)) (xa k)) (add (a:=XA) (o_w300 k) (mul (a:=XA) (mul (a:=XA) (lit (Dec 99 100)) (add (a:=XA) (o_y300 k) (mul (a:=XA) (o_y1 k) (q_th1 xq)))) (o_f k))))
                   (filter (fun '(i, _) => Nat.leb i 37) (indexed (o_lines xll)))))
                 (mul (a:=XA) (lit (Dec 20 10)) (sum_from (A:=XA) (lit (Dec 0 10)) (map (fun '(_, k) => xa k) (filter (fun '(i, _) => in_1_37 i) (indexed (o_lines xll)))))))
               (div (a:=RA) (sum_from (A:=RA) (mul (a:=RA) (lit (Dec 1584 100000000000000000000)) (o_wb300 ll))
                 (map (fun '(_, k) => mul (a:=RA) (mul (a:=RA) (lit (Dec 20 10)) (ra_ k)) (add (a:=RA) (o_w300 k) (mul (a:=RA) (mul (a:=RA) (lit (Dec 99 100)) (add (a:=RA) (o_y300 k) (mul (a:=RA) (o_y1 k) (q_th1 q)))) (o_f k))))
                   (filter (fun '(i, _) => Nat.leb i 37) (indexed (o_lines ll)))))
                 (mul (a:=RA) (lit (Dec 20 10)) (sum_from (A:=RA) (lit (Dec 0 10)) (map (fun '(_, k) => ra_ k) (filter (fun '(i, _) => in_1_37 i) (indexed (o_lines ll)))))))).
    { apply D_div.
      - apply D_sum; [dfin|]. apply (F2_map Di); [exact LO|]. intros [i1 x1] [i2 x2] H1. assert (A2 := AD _ _ _ _ H1). destruct H1 as (_ & [] & _). cbn [snd] in *. dfin.
      - apply D_mul; [apply D_lit|]. apply D_sum; [apply D_lit|]. apply (F2_map Di); [exact B|]. intros [i1 x1] [i2 x2] H1. exact (AD _ _ _ _ H1).
      - ra. lra. }
    assert (RT : D (div (a:=XA) (sum_from (A:=XA) (lit (Dec 0 10)) (map (fun '(_, k) => mul (a:=XA) (xa k) (add (a:=XA) (o_g0 k) (mul (a:=XA) (o_g1 k) (q_th1 xq)))) (filter (fun '(i, _) => in_1_37 i) (indexed (o_lines xll)))))
                        (sum_from (A:=XA) (lit (Dec 0 10)) (map (fun '(_, k) => powi (A:=XA) (xa k) 2) (filter (fun '(i, _) => in_1_37 i) (indexed (o_lines xll))))))
                   (div (a:=RA) (sum_from (A:=RA) (lit (Dec 0 10)) (map (fun '(_, k) => mul (a:=RA) (ra_ k) (add (a:=RA) (o_g0 k) (mul (a:=RA) (o_g1 k) (q_th1 q)))) (filter (fun '(i, _) => in_1_37 i) (indexed (o_lines ll)))))
                        (sum_from (A:=RA) (lit (Dec 0 10)) (map (fun '(_, k) => powi (A:=RA) (ra_ k) 2) (filter (fun '(i, _) => in_1_37 i) (indexed (o_lines ll))))))).
    { apply D_div.
      - apply D_sum; [apply D_lit|]. apply (F2_map Di); [exact B|]. intros [i1 x1] [i2 x2] H1. assert (A2 := AD _ _ _ _ H1). destruct H1 as (_ & [] & _). cbn [snd] in *. dfin.
      - apply D_sum; [apply D_lit|]. apply (F2_map Di); [exact B|]. intros [i1 x1] [i2 x2] H1. apply D_powi. exact (AD _ _ _ _ H1).
      - lra. }
    change (div (a:=XA) (mul (a:=XA) (mul (a:=XA) (o_s300 x) (expf (a:=XA) (mul (a:=XA) (opp (a:=XA) (o_be x)) (q_th1 xq)))) (q_th xq)) (powi (A:=XA) (o_f x) 2)) with (xa x).
    change (div (a:=RA) (mul (a:=RA) (mul (a:=RA) (o_s300 r) (expf (a:=RA) (mul (a:=RA) (opp (a:=RA) (o_be r)) (q_th1 q)))) (q_th q)) (powi (A:=RA) (o_f r) 2)) with (ra_ r).
    apply D_add; [exact Hab|]. apply o2_line_sd_D; auto.
    + dfin.
    + apply D_mul; [exact HQ1|]. apply D_if; [reflexivity| |dfin]. apply D_sub; [dfin|]. apply D_div; [exact SY|exact K1|exact NF].
    + apply D_if; [reflexivity| |apply D_lit]. apply D_add; [apply D_lit|]. apply D_mul; [exact Q7|]. apply D_if; [reflexivity| |dfin]. apply D_sub; [dfin|]. apply D_mul; [exact A1|exact RT].
    + dfin.
    + apply Rmult_lt_0_compat; auto.
  - assert (NZ : (add (a:=RA) (mul (a:=RA) f f) (mul (a:=RA) (mul (a:=RA) (o_wb300 ll) (q_pe1 q)) (mul (a:=RA) (o_wb300 ll) (q_pe1 q))) : R) <> 0) by (apply sq_plus, Rmult_lt_0_compat; auto).
    dfin.
Qed.

Lemma o2_R23_D : D (o2_summ_R23 (A:=XA) xq xll xf) (o2_summ_R23 (A:=RA) q ll f).
Proof.
  assert (IL := indexed_D _ _ (dol_lines _ _ HL) HS HP). destruct HL as [L1 L2 L3]. destruct HQ as [Q1 Q2 Q3 Q4 Q5 Q6 Q7 Q8].
  unfold o2_summ_R23. cbv zeta.
  pose (xa := fun k : o2_line XA => div (a:=XA) (mul (a:=XA) (o_s300 k) (expf (a:=XA) (mul (a:=XA) (opp (a:=XA) (o_be k)) (q_th1 xq)))) (powi (A:=XA) (o_f k) 2)).
  pose (ra_ := fun k : o2_line RA => div (a:=RA) (mul (a:=RA) (o_s300 k) (expf (a:=RA) (mul (a:=RA) (opp (a:=RA) (o_be k)) (q_th1 q)))) (powi (A:=RA) (o_f k) 2)).
  assert (AD : forall i j x r, Di (i, x) (j, r) -> D (xa x) (ra_ r)).
  { intros i j x r (_ & [K1 K2 K3 K4 K5 K6 K7 K8 K9 K10 K11 K12] & (S1 & S2) & S3). cbn [fst snd] in *. unfold xa, ra_.
    assert ((powi (A:=RA) (o_f r) 2 : R) <> 0) by (rewrite powi2; apply Rgt_not_eq, Rmult_lt_0_compat; auto). dfin. }
  assert (AP : Forall (fun k => 0 < (ra_ k : R)) (o_lines ll)).
  { apply Forall_forall. intros k Hk. destruct (proj1 (Forall_forall _ _) HS k Hk) as [S1 S2]. assert (S3 := proj1 (Forall_forall _ _) HP k Hk). cbv beta in S3.
    unfold ra_. rewrite powi2. apply div_pos; [|apply Rmult_lt_0_compat; auto]. apply Rmult_lt_0_compat; auto. apply exp_pos. }
  assert (AN : 0 < (sum_from (A:=RA) (lit (Dec 0 10)) (map (fun '(_, k) => ra_ k) (filter (fun '(i, _) => in_1_37 i) (indexed (o_lines ll)))) : R)) by (apply band_pos; auto).
  assert (B := filter_D in_1_37 _ _ IL).
  assert (OF : D (div (a:=XA) (sum_from (A:=XA) (lit (Dec 0 10)) (map (fun '(_, k) => mul (a:=XA) (xa k) (add (a:=XA) (o_g0 k) (mul (a:=XA) (o_g1 k) (q_th1 xq)))) (filter (fun '(i, _) => in_1_37 i) (indexed (o_lines xll)))))
                        (sum_from (A:=XA) (lit (Dec 0 10)) (map (fun '(_, k) => xa k) (filter (fun '(i, _) => in_1_37 i) (indexed (o_lines xll))))))
                   (div (a:=RA) (sum_from (A:=RA) (lit (Dec 0 10)) (map (fun '(_, k) => mul (a:=RA) (ra_ k) (add (a:=RA) (o_g0 k) (mul (a:=RA) (o_g1 k) (q_th1 q)))) (filter (fun '(i, _) => in_1_37 i) (indexed (o_lines ll)))))
                        (sum_from (A:=RA) (lit (Dec 0 10)) (map (fun '(_, k) => ra_ k) (filter (fun '(i, _) => in_1_37 i) (indexed (o_lines ll))))))).
  { apply D_div.
    - apply D_sum; [apply D_lit|]. apply (F2_map Di); [exact B|]. intros [i1 x1] [i2 x2] H1. assert (A2 := AD _ _ _ _ H1). destruct H1 as (_ & [] & _). cbn [snd] in *. dfin.
    - apply D_sum; [apply D_lit|]. apply (F2_map Di); [exact B|]. intros [i1 x1] [i2 x2] H1. exact (AD _ _ _ _ H1).
    - lra. }
  apply (F2_fold Di); [exact IL| |].
  - intros a b [i x] [j r] HD Hab. assert (A1 := AD i j x r HD). destruct HD as (E & [K1 K2 K3 K4 K5 K6 K7 K8 K9 K10 K11 K12] & (S1 & S2) & S3). cbn [fst snd] in *. subst j.
    match goal with |- D (if _ then maxv ?u _ else _) (if _ then maxv ?v _ else _) => assert (U : D u v); [|apply D_if; [reflexivity|apply D_maxv; [exact U|apply D_lit]|exact U]] end.
    apply D_add; [exact Hab|]. apply o2_line_sd_D; auto.
    + dfin.
    + dfin.
    + apply D_if; [reflexivity| |apply D_lit]. apply D_add; [apply D_lit|]. apply D_mul; [exact Q7|]. apply D_sub; [dfin|exact OF].
    + dfin.
    + apply Rmult_lt_0_compat; auto.
  - assert (NZ : (add (a:=RA) (mul (a:=RA) f f) (mul (a:=RA) (q_dfnr q) (q_dfnr q)) : R) <> 0) by (apply sq_plus; auto).
    assert (NT : (q_th q : R) <> 0) by lra. dfin.
Qed.
End O2.

Theorem o2_sd_all_D m (xl : o2_ll XA) (l : o2_ll RA) (xp xv xe xf : car XA) pd vx ek f n c : In m ["R23"; "R24"] -> Dol xl l -> Forall sharp_o2 (o_lines l) ->
  Forall (fun k : o2_line RA => 0 < (o_s300 k : R)) (o_lines l) -> (2 <= List.length (o_lines l))%nat -> 0 < (o_wb300 l : R) ->
  D xp pd -> D xv vx -> D xe ek -> D xf f -> 0 < vx -> 0 < pd -> 0 <= ek -> 0 < f ->
  o2_absorption (A:=RA) m l pd vx ek f = (n, c) -> o2_absorption (A:=XA) m xl xp xv xe xf = (Fin n, Fin c).
Proof.
  intros Hm HL Hs HP HN Hw Hp Hv He Hf Pv Pp Pe Pf H.
  assert (HQ := o2_env_D m xl l xp xv xe pd vx ek HL Hp Hv He Pv). destruct (o2_env_pos m l pd vx ek Pv Pp Pe Hw) as (E1 & E2 & E3).
  destruct (o2_env_vals m l pd vx ek Pv ltac:(lra) Pe ltac:(lra)) as (T & _).
  assert (PE : D (q_pe1 (o2_env_of (A:=XA) m xl xp xv xe)) (q_pe1 (o2_env_of (A:=RA) m l pd vx ek))).
  { assert (X := dq_den _ _ HQ). change (D (if str_in m ["R23"; "R23SD"] then mul (a:=XA) (lit (Dec 99 100)) (q_den (o2_env_of (A:=XA) m xl xp xv xe)) else q_den (o2_env_of (A:=XA) m xl xp xv xe))
      (if str_in m ["R23"; "R23SD"] then mul (a:=RA) (lit (Dec 99 100)) (q_den (o2_env_of (A:=RA) m l pd vx ek)) else q_den (o2_env_of (A:=RA) m l pd vx ek))). dfin. }
  assert (PP : 0 < (q_pe1 (o2_env_of (A:=RA) m l pd vx ek) : R)).
  { change (0 < (if str_in m ["R23"; "R23SD"] then mul (a:=RA) (lit (Dec 99 100)) (q_den (o2_env_of (A:=RA) m l pd vx ek)) else q_den (o2_env_of (A:=RA) m l pd vx ek))).
    destruct (str_in m ["R23"; "R23SD"]); [ra; lra|exact E2]. }
  unfold o2_absorption in *. set (xq := o2_env_of (A:=XA) m xl xp xv xe) in *. set (q := o2_env_of (A:=RA) m l pd vx ek) in *. clearbody xq q.
  assert (A := f_equal fst H). assert (B := f_equal snd H). cbn [fst snd] in A, B. subst n c. clear H.
  assert (T0 : 0 < (q_th q : R)) by (rewrite T; lra).
  assert (SM : D (o2_summ (A:=XA) m xq xl xf) (o2_summ (A:=RA) m q l f)).
  { cbn [In] in Hm. destruct Hm as [<-|[<-|[]]]; [apply o2_R23_D|apply o2_R24_D]; auto. }
  destruct HQ as [Q1 Q2 Q3 Q4 Q5 Q6 Q7 Q8].
  assert (NC : str_in m o2_nocont_models = true) by (cbn [In] in Hm; destruct Hm as [<-|[<-|[]]]; reflexivity). rewrite NC. f_equal.
  apply quot_D; [|exact Hf|lra]. unfold o2_abs. cbv zeta.
  assert (NP : (lit (a:=RA) (Dec 314159 100000) : R) <> 0) by (ra; lra). dfin.
Qed.
