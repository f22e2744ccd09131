(** Where the absorption formulas are defined: on physical arguments the computation over the reals with infinities and NaN gives the
    finite number of the ideal computation (no division by zero, no power or logarithm outside its domain). *)

From Coq Require Import ZArith Reals Lra Lia Psatz String List Bool.
Import ListNotations.
From Verif Require Import Arith PyBase Utils RTE Absorption Clear Spectrum RealAux SolverGen LineData Lineshape PropsAbsN2 PropsLiq PropsClear PropsO2H2O PropsH2O PropsO2Data
  FinTransfer.
Local Open Scope string_scope.
Open Scope R_scope.

Lemma db2np_D : D (db2np (A:=XA)) (db2np (A:=RA)).
Proof. unfold db2np. dfin. ra. lra. Qed.
Lemma db2np_nz : (db2np (A:=RA) : R) <> 0.
Proof. assert (H := db2np_pos). lra. Qed.

Lemma quot_D (xx xf : car XA) (x f : R) : D xx x -> D xf f -> f <> 0 ->
  D (div (a:=XA) (div (a:=XA) xx db2np) (mul (a:=XA) (lit (Dec 182 1000)) xf)) (div (a:=RA) (div (a:=RA) x db2np) (mul (a:=RA) (lit (Dec 182 1000)) f)).
Proof.
  intros Hx Hf Nf. apply D_div; [apply D_div; [exact Hx|exact db2np_D|exact db2np_nz]|apply D_mul; [apply D_lit|exact Hf]|].
  change (182 / 1000 * f <> 0). intros E. apply Rmult_integral in E. lra.
Qed.

(** ** Water vapour *)

Record Dh (x : h2o_line XA) (r : h2o_line RA) : Prop := mkDh {
  dh_fl : D (h_fl x) (h_fl r); dh_s1 : D (h_s1 x) (h_s1 r); dh_b2 : D (h_b2 x) (h_b2 r); dh_w0 : D (h_w0 x) (h_w0 r);
  dh_x : D (h_x x) (h_x r); dh_w0s : D (h_w0s x) (h_w0s r); dh_xs : D (h_xs x) (h_xs r); dh_sr : D (h_sr x) (h_sr r);
  dh_sh : D (h_sh x) (h_sh r); dh_xh : D (h_xh x) (h_xh r); dh_shs : D (h_shs x) (h_shs r); dh_xhs : D (h_xhs x) (h_xhs r);
  dh_aair : D (h_aair x) (h_aair r); dh_aself : D (h_aself x) (h_aself r) }.

Record Dhl (x : h2o_ll XA) (r : h2o_ll RA) : Prop := mkDhl {
  dl_reftcon : D (h_reftcon x) (h_reftcon r); dl_reftline : D (h_reftline x) (h_reftline r); dl_cf : D (h_cf x) (h_cf r); dl_xcf : D (h_xcf x) (h_xcf r);
  dl_cs : D (h_cs x) (h_cs r); dl_xcs : D (h_xcs x) (h_xcs r); dl_lines : Forall2 Dh (h_lines x) (h_lines r) }.

Record De (x : h2o_env XA) (r : h2o_env RA) : Prop := mkDe {
  de_t : D (e_t x) (e_t r); de_rho : D (e_rho x) (e_rho r); de_pvap : D (e_pvap x) (e_pvap r); de_pda : D (e_pda x) (e_pda r); de_den : D (e_den x) (e_den r) }.

(** Lines on which the formulas are defined. *)
Definition sharp (r : h2o_line RA) : Prop := 0 < (h_fl r : R) /\ 0 < (h_w0 r : R) /\ 0 <= (h_w0s r : R).

Lemma h2o_env_D m (xp xv xe : car XA) pd vx ek : D xp pd -> D xv vx -> D xe ek -> 0 < vx ->
  De (h2o_env_of (A:=XA) m xp xv xe) (h2o_env_of (A:=RA) m pd vx ek).
Proof.
  intros Hp Hv He V.
  assert (N1 : (lit (a:=RA) (Dec 1801528 100000) : R) <> 0) by (ra; lra).
  assert (N2 : (lit (a:=RA) (Dec 21668 100) : R) <> 0) by (ra; lra).
  assert (N3 : (lit (a:=RA) (Dec 2170 10) : R) <> 0) by (ra; lra).
  assert (N4 : (mul (a:=RA) (div (a:=RA) (mul (a:=RA) (lit (Dec 1 100)) (lit (Dec 831451 100000))) (lit (Dec 1801528 100000))) (div (a:=RA) (lit (Dec 3000 10)) vx) : R) <> 0).
  { assert (0 < 3000 / 10 / vx) by (apply div_pos; lra). ra. apply Rmult_integral_contrapositive_currified; lra. }
  assert (V' : (vx : R) <> 0) by lra.
  unfold h2o_env_of, k_Rwatvap. constructor; cbn [e_t e_rho e_pvap e_pda e_den]; dfin.
Qed.

Lemma local_D c (xw xq xb xd : car XA) (w q b d : R) : D xw w -> D xq q -> D xb b -> D xd d -> 0 < q ->
  D (local_line (A:=XA) c xw xq xb xd) (local_line (A:=RA) c w q b d).
Proof.
  intros Hw Hq Hb Hd Q. unfold local_line. apply D_if.
  - destruct c; dfin.
  - dfin. rewrite powi2. assert (S := sq_nonneg d). ra. lra.
  - apply D_lit.
Qed.

Lemma h2o_line_D m (xe : h2o_env XA) (e : h2o_env RA) (xf xti xtl xt2 : car XA) (f ti tl t2 : R) (xl : h2o_line XA) (l : h2o_line RA) :
  De xe e -> D xf f -> D xti ti -> D xtl tl -> D xt2 t2 -> Dh xl l -> sharp l -> 0 < (e_pda e : R) -> 0 <= (e_pvap e : R) -> 0 < ti ->
  D (h2o_line_std (A:=XA) m xe xf xti xtl xt2 xl) (h2o_line_std (A:=RA) m e f ti tl t2 l).
Proof.
  intros [Et Er Ev Ep Ed] Hf Hti Htl Ht2 [L1 L2 L3 L4 L5 L6 L7 L8 L9 L10 L11 L12 L13 L14] (S1 & S2 & S3) Pp Pv Pti.
  unfold h2o_line_std. cbv zeta.
  assert (WF : D (mul (a:=XA) (mul (a:=XA) (h_w0 xl) (e_pda xe)) (powf (a:=XA) xti (h_x xl))) (mul (a:=RA) (mul (a:=RA) (h_w0 l) (e_pda e)) (powf (a:=RA) ti (h_x l)))) by dfin.
  assert (WS : D (mul (a:=XA) (mul (a:=XA) (h_w0s xl) (e_pvap xe)) (powf (a:=XA) xti (h_xs xl))) (mul (a:=RA) (mul (a:=RA) (h_w0s l) (e_pvap e)) (powf (a:=RA) ti (h_xs l)))) by dfin.
  assert (WP : 0 < (mul (a:=RA) (mul (a:=RA) (h_w0 l) (e_pda e)) (powf (a:=RA) ti (h_x l)) : R)).
  { ra. rewrite Rpowf_pos by auto. apply Rmult_lt_0_compat; [apply Rmult_lt_0_compat; auto|apply Rpower_pos]. }
  assert (WN : 0 <= (mul (a:=RA) (mul (a:=RA) (h_w0s l) (e_pvap e)) (powf (a:=RA) ti (h_xs l)) : R)).
  { ra. rewrite Rpowf_pos by auto. apply Rmult_le_pos; [apply Rmult_le_pos; auto|apply Rlt_le, Rpower_pos]. }
  revert WF WS WP WN.
  generalize (mul (a:=XA) (mul (a:=XA) (h_w0 xl) (e_pda xe)) (powf (a:=XA) xti (h_x xl))) (mul (a:=RA) (mul (a:=RA) (h_w0 l) (e_pda e)) (powf (a:=RA) ti (h_x l)))
    (mul (a:=XA) (mul (a:=XA) (h_w0s xl) (e_pvap xe)) (powf (a:=XA) xti (h_xs xl))) (mul (a:=RA) (mul (a:=RA) (h_w0s l) (e_pvap e)) (powf (a:=RA) ti (h_xs l))).
  intros xwf wf xws ws WF WS WP WN.
  assert (W : D (add (a:=XA) xwf xws) (add (a:=RA) wf ws)) by dfin.
  assert (P : 0 < (add (a:=RA) wf ws : R)) by (ra; lra).
  revert W P. generalize (add (a:=XA) xwf xws) (add (a:=RA) wf ws). intros xw w W P.
  assert (Q : D (powi (A:=XA) xw 2) (powi (A:=RA) w 2)) by dfin.
  assert (QP : 0 < (powi (A:=RA) w 2 : R)) by (rewrite powi2; apply Rmult_lt_0_compat; auto).
  revert Q QP. generalize (powi (A:=XA) xw 2) (powi (A:=RA) w 2). intros xq q Q QP.
  assert (NB : (add (a:=RA) (lit (Dec 5625000 10)) q : R) <> 0) by (ra; lra).
  assert (NF : (h_fl l : R) <> 0) by lra.
  apply D_mul; [apply D_mul; [dfin|apply D_add; [apply D_add; [apply D_lit|]|]]|dfin]; apply local_D; auto; dfin.
Qed.

Lemma h2o_summ_D m (xl : h2o_ll XA) (l : h2o_ll RA) (xe : h2o_env XA) e (xf : car XA) f : In m std_models -> Dhl xl l -> Forall sharp (h_lines l) ->
  0 < (h_reftline l : R) -> De xe e -> D xf f -> 0 < (e_t e : R) -> 0 < (e_pda e : R) -> 0 <= (e_pvap e : R) ->
  exists xs s, h2o_summ (A:=XA) m xl xe xf = Some xs /\ h2o_summ (A:=RA) m l e f = Some s /\ D xs s.
Proof.
  intros Hm [L1 L2 L3 L4 L5 L6 L7] Hs Hr HE Hf Pt Pp Pv. destruct (std_cases m Hm) as (E1 & E2 & _). unfold h2o_summ. rewrite E1, E2.
  eexists _, _. split; [reflexivity|]. split; [reflexivity|].
  assert (Et := de_t _ _ HE). assert (Nt : (e_t e : R) <> 0) by lra.
  assert (T : D (div (a:=XA) (h_reftline xl) (e_t xe)) (div (a:=RA) (h_reftline l) (e_t e))) by dfin.
  assert (TP : 0 < (div (a:=RA) (h_reftline l) (e_t e) : R)) by (apply div_pos; auto).
  revert T TP. generalize (div (a:=XA) (h_reftline xl) (e_t xe)) (div (a:=RA) (h_reftline l) (e_t e)). intros xti ti T TP.
  apply D_sum; [apply D_lit|]. induction L7 as [|a b la lb Hab _ IH]; [constructor|]. cbn [map]. inversion Hs; subst. constructor; [|auto].
  apply h2o_line_D; auto; dfin.
Qed.

Lemma mwl_self_D (xv xf : car XA) v f : D xv v -> D xf f -> 0 < v -> 0 < f -> D (h2o_continuum_mwl24 (A:=XA) xf xv) (h2o_continuum_mwl24 (A:=RA) f v).
Proof.
  intros Hv Hf Pv Pf. unfold h2o_continuum_mwl24. cbv zeta.
  assert (T : D (div (a:=XA) (lit (Dec 3000 10)) xv) (div (a:=RA) (lit (Dec 3000 10)) v)) by (apply D_div; [apply D_lit|exact Hv|lra]).
  assert (PT : 0 < (div (a:=RA) (lit (Dec 3000 10)) v : R)) by (apply div_pos; auto; ra; lra).
  revert T PT. generalize (div (a:=XA) (lit (Dec 3000 10)) xv) (div (a:=RA) (lit (Dec 3000 10)) v). intros xt t T PT. change (car RA) with R in t. assert (NT : (t : R) <> 0) by lra.
  assert (PD : forall a b, (0 < a)%Z -> 0 < (div (a:=RA) (lit (Dec a b)) t : R)) by (intros a b Ha; apply div_pos; auto; ra; unfold litR; apply div_pos; [apply (IZR_lt 0); exact Ha|apply (IZR_lt 0); reflexivity]).
  assert (T268 := PD 2680%Z 10%positive eq_refl). assert (T266 := PD 2660%Z 10%positive eq_refl). assert (T296 := PD 2960%Z 10%positive eq_refl). clear PD.
  unfold b_svc. cbn [poly_from].
  match goal with |- context [@expf RA ?a] => set (ex := a) end. match goal with |- context [@expf XA ?a] => set (exX := a) end. 
  assert (EX : D exX ex) by (unfold exX, ex; dfin). clearbody exX ex. change (car RA) with R in ex.
  assert (KB : 0 < (mul (a:=RA) (lit (Dec 47856 100000000)) (expf (a:=RA) ex) : R)) by (apply Rmult_lt_0_compat; [ra; lra|apply exp_pos]).
  assert (N1 : (mul (a:=RA) (lit (Dec 8205746 100000)) t : R) <> 0) by (ra; lra).
  assert (N2 : (lit (a:=RA) (Dec 101325 100) : R) <> 0) by (ra; lra).
  assert (N3 : (div (a:=RA) (mul (a:=RA) (lit (Dec 47856 100000000)) (expf (a:=RA) ex)) (lit (Dec 101325 100)) : R) <> 0) by (apply Rgt_not_eq, div_pos; [exact KB|ra; lra]).
  assert (N4 : (add (a:=RA) (mul (a:=RA) (lit (Dec 4348 10)) (lit (Dec 4348 10))) (mul (a:=RA) (sub (a:=RA) f (lit (Dec 2195 10))) (sub (a:=RA) f (lit (Dec 2195 10)))) : R) <> 0) by (ra; nra).
  assert (N5 : (add (a:=RA) (mul (a:=RA) (lit (Dec 2106 100)) (lit (Dec 2106 100))) (mul (a:=RA) f f) : R) <> 0) by (ra; nra).
  dfin.
Qed.

Lemma h2o_con_D m (xl : h2o_ll XA) (l : h2o_ll RA) (xe : h2o_env XA) e (xv xf : car XA) v f : D xv v -> 0 < v -> 0 < f -> Dhl xl l -> 0 < (h_reftcon l : R) -> De xe e -> D xf f -> 0 < (e_t e : R) ->
  D (h2o_con1 (A:=XA) m xl xe xv xf) (h2o_con1 (A:=RA) m l e v f).
Proof.
  intros Hv Pv Pf [L1 L2 L3 L4 L5 L6 L7] Hr [Et Er Ev Ep Ed] Hf Pt. unfold h2o_con1. cbv zeta.
  assert (Nt : (e_t e : R) <> 0) by lra. assert (TP : 0 < (div (a:=RA) (h_reftcon l) (e_t e) : R)) by (apply div_pos; auto).
  destruct (str_in m ["R03"; "R98"]); [dfin|]. destruct (String.eqb m "MWL24"); [|dfin].
  assert (S := mwl_self_D xv xf v f Hv Hf Pv Pf). assert (T3 : 0 < (div (a:=RA) (lit (Dec 3000 10)) (e_t e) : R)) by (apply div_pos; auto; ra; lra). dfin.
Qed.

Theorem h2o_D m (xl : h2o_ll XA) (l : h2o_ll RA) (xp xv xe xf : car XA) pd vx ek f n c : In m std_models -> Dhl xl l -> good_h2o l -> Forall sharp (h_lines l) ->
  D xp pd -> D xv vx -> D xe ek -> D xf f -> 0 < vx -> 0 < pd -> 0 <= ek -> 0 < f ->
  h2o_absorption (A:=RA) m l pd vx ek f = Ok (n, c) -> h2o_absorption (A:=XA) m xl xp xv xe xf = Ok (Fin n, Fin c).
Proof.
  intros Hm HL HG Hs Hp Hv He Hf Pv Pp Pe Pf H. destruct (std_cases m Hm) as (_ & _ & M1 & M2 & M3 & M4).
  assert (HE := h2o_env_D m xp xv xe pd vx ek Hp Hv He Pv).
  destruct (h2o_env_range m pd vx ek Pv ltac:(lra) Pe) as (E1 & E2 & E3 & E4 & E5).
  assert (E6 : 0 < (e_pda (h2o_env_of (A:=RA) m pd vx ek) : R)).
  { assert (X := proj1 (proj2 (proj2 (proj2 (h2o_env_range m 0 vx ek Pv ltac:(lra) Pe))))).
    assert (Y : (e_pda (h2o_env_of (A:=RA) m pd vx ek) : R) = e_pda (h2o_env_of (A:=RA) m 0 vx ek) + pd * 10).
    { unfold h2o_env_of. cbn [e_pda]. ra. lra. }
    lra. }
  unfold h2o_absorption in *. rewrite M2, M3 in *. cbv zeta in *.
  rewrite (D_eqb _ _ _ _ (de_rho _ _ HE) (D_lit (Dec 0 1))).
  destruct (eqb (e_rho (h2o_env_of (A:=RA) m pd vx ek)) (lit (Dec 0 1))).
  { apply ok_inj in H. assert (A := f_equal fst H). assert (B := f_equal snd H). cbn [fst snd] in A, B. subst n c. reflexivity. }
  destruct (h2o_summ_D m xl l _ _ xf f Hm HL Hs (gh_reftline _ HG) HE Hf E1 E6 E3) as (xs & s & S1 & S2 & S3).
  rewrite S2 in H. rewrite S1. unfold h2o_con2 in *. rewrite M1 in *. cbn [bind] in *.
  assert (C := h2o_con_D m xl l _ _ xv xf vx f Hv Pv Pf HL (gh_reftcon _ HG) HE Hf E1).
  apply ok_inj in H. assert (A := f_equal fst H). assert (B := f_equal snd H). cbn [fst snd] in A, B. subst n c. f_equal. f_equal.
  - apply quot_D; [|exact Hf|lra]. assert (X := de_den _ _ HE). dfin.
  - apply quot_D; [exact C|exact Hf|lra].
Qed.

(** The shipped lists. *)
Lemma D_sel (b : bool) x r : D x r -> D (if b then x else lit (a:=XA) (Dec 0 1)) (if b then r else lit (a:=RA) (Dec 0 1)).
Proof. destruct b; auto. intros _. apply D_lit. Qed.

Lemma h2o_row_D m r : Dh (h2o_row (A:=XA) m r) (h2o_row (A:=RA) m r).
Proof.
  assert (N : (lit (a:=RA) (Dec 10000 10) : R) <> 0) by (ra; lra).
  assert (M : forall i, D (div (a:=XA) (col (A:=XA) r i) (lit (Dec 10000 10))) (div (a:=RA) (col (A:=RA) r i) (lit (Dec 10000 10)))).
  { intros i. apply D_div; [apply D_lit|apply D_lit|exact N]. }
  assert (C : forall i, D (col (A:=XA) r i) (col (A:=RA) r i)) by (intros i; apply D_lit).
  unfold h2o_row. cbv zeta. constructor; cbn [h_fl h_s1 h_b2 h_w0 h_x h_w0s h_xs h_sr h_sh h_xh h_shs h_xhs h_aair h_aself];
    repeat match goal with |- context [if ?b then _ else _] => destruct b end; first [apply M | apply C | apply D_lit].
Qed.

Lemma h2o_load_D m mtx ctr rl a b : Dhl (h2o_load (A:=XA) m mtx ctr rl a b) (h2o_load (A:=RA) m mtx ctr rl a b).
Proof.
  constructor; cbn [h2o_load h_reftcon h_reftline h_cf h_xcf h_cs h_xcs h_lines]; try apply D_lit.
  induction mtx as [|r mtx IH]; cbn [map]; constructor; [apply h2o_row_D|exact IH].
Qed.

Definition row_sharp (m : string) (r : list dec) : bool :=
  dec_pos (nth 1 r 0%dec) && dec_pos (nth 4 r 0%dec) && dec_nn (nth (if str_in m ["R03"; "R16"; "R17"] then 7 else 6) r 0%dec).

Lemma sharp_rows m mtx : forallb (row_sharp m) mtx = true -> Forall sharp (map (h2o_row (A:=RA) m) mtx).
Proof.
  intros H. apply Forall_forall. intros x Hx. apply in_map_iff in Hx. destruct Hx as (r & <- & Hr). apply (proj1 (forallb_forall _ _) H) in Hr.
  unfold row_sharp in Hr. rewrite !andb_true_iff in Hr. destruct Hr as ((H2 & H4) & H6). apply dec_pos_R in H2, H4. apply dec_nn_R in H6.
  unfold sharp, h2o_row, col. cbn [h_fl h_w0 h_w0s]. change (@lit RA) with litR. split; [exact H2|]. split; [apply div_pos; [exact H4|cbn; lra]|].
  destruct (str_in m ["R03"; "R16"; "R17"]); (apply div_nonneg; [exact H6|cbn; lra]).
Qed.

Lemma shipped_h2o_D m : In m std_models -> exists xl l, db_h2o (@shipped XA) m = Some xl /\ db_h2o (@shipped RA) m = Some l /\ Dhl xl l /\ good_h2o l /\ Forall sharp (h_lines l).
Proof.
  intros Hm. assert (X : exists xl l, db_h2o (@shipped XA) m = Some xl /\ db_h2o (@shipped RA) m = Some l /\ Dhl xl l /\ Forall sharp (h_lines l)).
  { change (db_h2o (@shipped XA) m) with (shipped_h2o (A:=XA) m). change (db_h2o (@shipped RA) m) with (shipped_h2o (A:=RA) m).
    unfold std_models in Hm. cbn [In] in Hm. unfold shipped_h2o.
    repeat (destruct Hm as [Hm|Hm]; [subst m; cbn [String.eqb Ascii.eqb Bool.eqb]; eexists _, _; split; [reflexivity|]; split; [reflexivity|];
      split; [apply h2o_load_D|]; cbn [h2o_load h_lines]; apply sharp_rows; vm_compute; reflexivity|]). contradiction. }
  destruct X as (xl & l & X1 & X2 & X3 & X4). exists xl, l. repeat (split; [assumption|]). split; [|exact X4]. exact (C57_shipped_lists m l Hm X2).
Qed.

(** ** Oxygen *)

Record Do (x : o2_line XA) (r : o2_line RA) : Prop := mkDo {
  do_f : D (o_f x) (o_f r); do_s300 : D (o_s300 x) (o_s300 r); do_be : D (o_be x) (o_be r); do_w300 : D (o_w300 x) (o_w300 r);
  do_y300 : D (o_y300 x) (o_y300 r); do_v : D (o_v x) (o_v r); do_y0 : D (o_y0 x) (o_y0 r); do_y1 : D (o_y1 x) (o_y1 r);
  do_g0 : D (o_g0 x) (o_g0 r); do_g1 : D (o_g1 x) (o_g1 r); do_dnu0 : D (o_dnu0 x) (o_dnu0 r); do_dnu1 : D (o_dnu1 x) (o_dnu1 r) }.

Record Dol (x : o2_ll XA) (r : o2_ll RA) : Prop := mkDol {
  dol_x : D (o_x x) (o_x r); dol_wb : D (o_wb300 x) (o_wb300 r); dol_lines : Forall2 Do (o_lines x) (o_lines r) }.

Record Dq (x : o2_env XA) (r : o2_env RA) : Prop := mkDq {
  dq_th : D (q_th x) (q_th r); dq_th1 : D (q_th1 x) (q_th1 r); dq_b : D (q_b x) (q_b r); dq_pres : D (q_pres x) (q_pres r);
  dq_presda : D (q_presda x) (q_presda r); dq_den : D (q_den x) (q_den r); dq_pe2 : D (q_pe2 x) (q_pe2 r); dq_dfnr : D (q_dfnr x) (q_dfnr r) }.

Definition sharp_o2 (r : o2_line RA) : Prop := 0 < (o_f r : R) /\ 0 < (o_w300 r : R).

Lemma o2_env_D m (xl : o2_ll XA) (l : o2_ll RA) (xp xv xe : car XA) pd vx ek : Dol xl l -> D xp pd -> D xv vx -> D xe ek -> 0 < vx ->
  Dq (o2_env_of (A:=XA) m xl xp xv xe) (o2_env_of (A:=RA) m l pd vx ek).
Proof.
  intros [L1 L2 _] Hp Hv He V.
  assert (N1 : (lit (a:=RA) (Dec 1801528 100000) : R) <> 0) by (ra; lra).
  assert (N2 : (lit (a:=RA) (Dec 21668 100) : R) <> 0) by (ra; lra).
  assert (N3 : (lit (a:=RA) (Dec 2170 10) : R) <> 0) by (ra; lra).
  assert (T0 : 0 < 3000 / 10 / vx) by (apply div_pos; lra).
  assert (N4 : (mul (a:=RA) (div (a:=RA) (mul (a:=RA) (lit (Dec 1 100)) (lit (Dec 8314510 1000000))) (lit (Dec 1801528 100000))) (div (a:=RA) (lit (Dec 3000 10)) vx) : R) <> 0).
  { ra. apply Rmult_integral_contrapositive_currified; lra. }
  assert (V' : (vx : R) <> 0) by lra.
  assert (N5 : (div (a:=RA) (lit (Dec 3000 10)) vx : R) <> 0) by (ra; lra).
  assert (P6 : 0 < (div (a:=RA) (lit (Dec 3000 10)) (div (a:=RA) (lit (Dec 3000 10)) vx) : R)) by (ra; apply div_pos; lra).
  unfold o2_env_of. constructor; cbn [q_th q_th1 q_b q_pres q_presda q_den q_pe2 q_dfnr]; dfin.
Qed.

Lemma o2_env_pos m (ll : o2_ll RA) pd vx ek : 0 < vx -> 0 < pd -> 0 <= ek -> 0 < (o_wb300 ll : R) ->
  let q := o2_env_of (A:=RA) m ll pd vx ek in 0 < (q_presda q : R) /\ 0 < (q_den q : R) /\ 0 < (q_dfnr q : R).
Proof.
  intros Hv Hp He Hw q. destruct (o2_env_vals m ll 0 vx ek Hv ltac:(lra) He ltac:(lra)) as (_ & A1 & A2 & _). set (q0 := o2_env_of (A:=RA) m ll 0 vx ek) in *.
  assert (T0 : 0 < 3000 / 10 / vx) by (apply div_pos; lra). assert (T1 : 0 < 3000 / 10 / (3000 / 10 / vx)) by (apply div_pos; lra).
  assert (E1 : (q_presda q : R) = q_presda q0 + pd * 10) by (unfold q, q0, o2_env_of; cbn [q_presda]; ra; lra).
  assert (E2 : exists k, 0 < k /\ (q_den q : R) = q_den q0 + k * pd).
  { unfold q, q0, o2_env_of. cbn [q_den]. ra. rewrite !Rpowf_pos by auto.
    match goal with |- context [if String.eqb m "R98" then 1 / 1000 * (_ - ?w + _) * ?t else _] => set (pv := w); set (th := t) in * end. clearbody pv.
    assert (B := Rpower_pos th (o_x ll)). assert (B9 := Rpower_pos th (9 / 10)).
    destruct (String.eqb m "R98"); [exists (1 / 1000 * 10 * th); split; [lra|]; replace (100 / 10) with 10 by lra; ring|].
    destruct (String.eqb m "R03"); [exists (1 / 1000 * 10 * Rpower th (9 / 10)); split; [lra|]; replace (100 / 10) with 10 by lra; ring|].
    exists (1 / 1000 * 10 * Rpower th (o_x ll)). split; [lra|]. destruct (str_in m ["R03"; "R16"; "R98"]); replace (100 / 10) with 10 by lra; ring. }
  destruct E2 as (k & Hk & E2). assert (0 < k * pd) by (apply Rmult_lt_0_compat; auto).
  split; [lra|]. split; [lra|]. unfold q, o2_env_of. cbn [q_dfnr]. change (0 < o_wb300 ll * q_den q). apply Rmult_lt_0_compat; lra.
Qed.

Lemma sq_plus (a b : R) : 0 < b -> a * a + b * b <> 0.
Proof. intros H. assert (A := sq_nonneg a). assert (0 < b * b) by (apply Rmult_lt_0_compat; auto). lra. Qed.

Lemma o2_first_D m (xq : o2_env XA) q (xf : car XA) f (xl : o2_line XA) l : Dq xq q -> D xf f -> Do xl l -> sharp_o2 l -> 0 < (q_den q : R) ->
  D (o2_line_first (A:=XA) m xq xf xl) (o2_line_first (A:=RA) m q f l).
Proof.
  intros [Q1 Q2 Q3 Q4 Q5 Q6 Q7 Q8] Hf [L1 L2 L3 L4 L5 L6 _ _ _ _ _ _] (S1 & S2) P. unfold o2_line_first. cbv zeta.
  assert (W : D (mul (a:=XA) (o_w300 xl) (q_den xq)) (mul (a:=RA) (o_w300 l) (q_den q))) by dfin.
  assert (WP : 0 < (mul (a:=RA) (o_w300 l) (q_den q) : R)) by (apply Rmult_lt_0_compat; auto).
  revert W WP. generalize (mul (a:=XA) (o_w300 xl) (q_den xq)) (mul (a:=RA) (o_w300 l) (q_den q)). intros xw w W WP.
  assert (NF : (o_f l : R) <> 0) by lra.
  assert (N1 : (add (a:=RA) (powi (A:=RA) (sub (a:=RA) f (o_f l)) 2) (mul (a:=RA) w w) : R) <> 0) by (rewrite powi2; apply sq_plus; exact WP).
  assert (N2 : (add (a:=RA) (powi (A:=RA) (add (a:=RA) f (o_f l)) 2) (mul (a:=RA) w w) : R) <> 0) by (rewrite powi2; apply sq_plus; exact WP).
  destruct (str_in m ["R03"; "R98"]); dfin.
Qed.

Lemma o2_second_D (xq : o2_env XA) q (xf : car XA) f (xl : o2_line XA) l : Dq xq q -> D xf f -> Do xl l -> sharp_o2 l -> 0 < (q_den q : R) ->
  D (o2_line_second (A:=XA) xq xf xl) (o2_line_second (A:=RA) q f l).
Proof.
  intros [Q1 Q2 Q3 Q4 Q5 Q6 Q7 Q8] Hf [L1 L2 L3 L4 _ _ L5 L6 L7 L8 L9 L10] (S1 & S2) P. unfold o2_line_second. cbv zeta.
  assert (W : D (mul (a:=XA) (o_w300 xl) (q_den xq)) (mul (a:=RA) (o_w300 l) (q_den q))) by dfin.
  assert (WP : 0 < (mul (a:=RA) (o_w300 l) (q_den q) : R)) by (apply Rmult_lt_0_compat; auto).
  revert W WP. generalize (mul (a:=XA) (o_w300 xl) (q_den xq)) (mul (a:=RA) (o_w300 l) (q_den q)). intros xw w W WP.
  assert (NF : (o_f l : R) <> 0) by lra.
  assert (N : forall d : car RA, (add (a:=RA) (mul (a:=RA) d d) (mul (a:=RA) w w) : R) <> 0) by (intros d; apply sq_plus; exact WP).
  dfin; apply N.
Qed.

(** Oxygen models without the complex error function. *)
Definition plain_o2 (m : string) : bool := negb (str_in m ["R23"; "R24"]).

Lemma o2_lines_D (F : o2_line XA -> car XA) (G : o2_line RA -> car RA) xl l : Forall2 Do xl l -> Forall sharp_o2 l ->
  (forall x r, Do x r -> sharp_o2 r -> D (F x) (G r)) -> Forall2 D (map F xl) (map G l).
Proof. intros H Hs HF. induction H; cbn [map]; [constructor|]. inversion Hs; subst. constructor; auto. Qed.

Theorem o2_D m (xl : o2_ll XA) (l : o2_ll RA) (xp xv xe xf : car XA) pd vx ek f n c : plain_o2 m = true -> Dol xl l -> Forall sharp_o2 (o_lines l) -> 0 < (o_wb300 l : R) ->
  D xp pd -> D xv vx -> D xe ek -> D xf f -> 0 < vx -> 0 < pd -> 0 <= ek -> 0 < f ->
  o2_absorption (A:=RA) m l pd vx ek f = (n, c) -> o2_absorption (A:=XA) m xl xp xv xe xf = (Fin n, Fin c).
Proof.
  intros Hm HL Hs Hw Hp Hv He Hf Pv Pp Pe Pf H.
  assert (HQ := o2_env_D m xl l xp xv xe pd vx ek HL Hp Hv He Pv). destruct (o2_env_pos m l pd vx ek Pv Pp Pe Hw) as (E1 & E2 & E3).
  destruct (o2_env_vals m l pd vx ek Pv ltac:(lra) Pe ltac:(lra)) as (T & _).
  unfold o2_absorption in *. set (xq := o2_env_of (A:=XA) m xl xp xv xe) in *. set (q := o2_env_of (A:=RA) m l pd vx ek) in *. clearbody xq q.
  assert (A := f_equal fst H). assert (B := f_equal snd H). cbn [fst snd] in A, B. subst n c. clear H.
  assert (NR : (mul (a:=RA) (q_th q) (add (a:=RA) (mul (a:=RA) f f) (mul (a:=RA) (q_dfnr q) (q_dfnr q))) : R) <> 0).
  { apply Rmult_integral_contrapositive_currified; [rewrite T; lra|]. apply sq_plus; exact E3. }
  assert (SM : D (o2_summ (A:=XA) m xq xl xf) (o2_summ (A:=RA) m q l f)).
  { unfold plain_o2 in Hm. apply negb_true_iff in Hm. unfold str_in in Hm. cbn [existsb] in Hm. apply orb_false_iff in Hm. destruct Hm as [M1 M2].
    apply orb_false_iff in M2. destruct M2 as [M2 _]. unfold o2_summ. cbv zeta. rewrite M1, M2.
    assert (S0 : D (if str_in m ["R03"; "R16"; "R17"; "R18"; "R98"] then lit (a:=XA) (Dec 0 10) else
        div (a:=XA) (mul (a:=XA) (mul (a:=XA) (mul (a:=XA) (lit (Dec 1584 100000000000000000000)) xf) xf) (q_dfnr xq)) (mul (a:=XA) (q_th xq) (add (a:=XA) (mul (a:=XA) xf xf) (mul (a:=XA) (q_dfnr xq) (q_dfnr xq)))))
       (if str_in m ["R03"; "R16"; "R17"; "R18"; "R98"] then lit (a:=RA) (Dec 0 10) else
        div (a:=RA) (mul (a:=RA) (mul (a:=RA) (mul (a:=RA) (lit (Dec 1584 100000000000000000000)) f) f) (q_dfnr q)) (mul (a:=RA) (q_th q) (add (a:=RA) (mul (a:=RA) f f) (mul (a:=RA) (q_dfnr q) (q_dfnr q)))))).
    { destruct HQ. destruct (str_in m ["R03"; "R16"; "R17"; "R18"; "R98"]); dfin. }
    destruct (str_in m ["R03"; "R98"; "R17"; "R18"; "R19"; "R19SD"]); (apply D_sum; [exact S0|]); (apply o2_lines_D; [exact (dol_lines _ _ HL)|exact Hs|]); intros x r Hx Hr.
    - apply o2_first_D; auto.
    - apply o2_second_D; auto. }
  destruct HQ as [Q1 Q2 Q3 Q4 Q5 Q6 Q7 Q8]. f_equal.
  - apply quot_D; [|exact Hf|lra]. unfold o2_abs. cbv zeta.
    assert (NP : (lit (a:=RA) (Dec 314159 100000) : R) <> 0) by (ra; lra). dfin.
  - match goal with |- (if ?b then _ else _) = _ => destruct b end; [reflexivity|].
    apply quot_D; [|exact Hf|lra]. unfold o2_cont. cbv zeta. assert (NP : (lit (a:=RA) (Dec 314159 100000) : R) <> 0) by (ra; lra). dfin.
Qed.

Lemma o2_first_row_D a b c d e g i : Do (o2_first (A:=XA) a b c d e g i) (o2_first (A:=RA) a b c d e g i).
Proof. constructor; apply D_lit. Qed.
Lemma o2_second_row_D a b c d e g h i j k n : Do (o2_second (A:=XA) a b c d e g h i j k n) (o2_second (A:=RA) a b c d e g h i j k n).
Proof. constructor; apply D_lit. Qed.

Lemma o2_load_D x wb f (F : nat -> o2_line XA) (G : nat -> o2_line RA) : (forall i, Do (F i) (G i)) -> Dol (o2_load (A:=XA) x wb f F) (o2_load (A:=RA) x wb f G).
Proof.
  intros H. constructor; cbn [o2_load o_x o_wb300 o_lines]; try apply D_lit. generalize (seq 0 (List.length f)). induction l; cbn [map]; constructor; auto.
Qed.

Definition col_sharp (f w : list dec) : bool := forallb (fun i => dec_pos (nth i f 0%dec) && dec_pos (nth i w 0%dec)) (seq 0 (List.length f)).
Lemma o2_sharp x wb f w (G : nat -> o2_line RA) : (forall i, o_f (G i) = litR (nth i f 0%dec) /\ o_w300 (G i) = litR (nth i w 0%dec)) ->
  col_sharp f w = true -> dec_pos wb = true -> Forall sharp_o2 (o_lines (o2_load (A:=RA) x wb f G)) /\ 0 < (o_wb300 (o2_load (A:=RA) x wb f G) : R).
Proof.
  intros HG H Hw. split; [|exact (dec_pos_R wb Hw)]. apply Forall_forall. intros y Hy. unfold o2_load in Hy. cbn [o_lines] in Hy. apply in_map_iff in Hy. destruct Hy as (i & <- & Hi).
  apply (proj1 (forallb_forall _ _) H) in Hi. apply andb_true_iff in Hi. destruct Hi as [H1 H2]. destruct (HG i) as [E1 E2].
  unfold sharp_o2. rewrite E1, E2. split; apply dec_pos_R; assumption.
Qed.

Definition plain_o2_names := ["R98"; "R03"; "R16"; "R17"; "R18"; "R19"; "R19SD"; "R20"; "R20SD"; "R22"].
Lemma shipped_o2_D m : In m plain_o2_names -> plain_o2 m = true /\ exists xl l, db_o2 (@shipped XA) m = Some xl /\ db_o2 (@shipped RA) m = Some l /\ Dol xl l /\ Forall sharp_o2 (o_lines l) /\ 0 < (o_wb300 l : R).
Proof.
  intros Hm. change (db_o2 (@shipped XA) m) with (shipped_o2 (A:=XA) m). change (db_o2 (@shipped RA) m) with (shipped_o2 (A:=RA) m).
  unfold plain_o2_names in Hm. cbn [In] in Hm. unfold shipped_o2.
  repeat (destruct Hm as [Hm|Hm]; [subst m; split; [reflexivity|]; cbn [String.eqb Ascii.eqb Bool.eqb]; eexists _, _; split; [reflexivity|]; split; [reflexivity|];
      split; [apply o2_load_D; intros i; first [apply o2_first_row_D | apply o2_second_row_D]|]; (eapply o2_sharp; [intros i; split; reflexivity|vm_compute; reflexivity|vm_compute; reflexivity])|]). contradiction.
Qed.

(** ** Nitrogen *)

Lemma sq_1 (x : R) : 1 + x * x <> 0.
Proof. assert (H := sq_nonneg x). lra. Qed.

Lemma poly4_D c0 c1 c2 c3 d0 d1 d2 d3 xf f : D c0 d0 -> D c1 d1 -> D c2 d2 -> D c3 d3 -> D xf f -> D (poly4 (A:=XA) c0 c1 c2 c3 xf) (poly4 (A:=RA) d0 d1 d2 d3 f).
Proof. intros. unfold poly4. dfin. Qed.

Lemma n2_mwl_D (xt xp xf : car XA) t p f : D xt t -> D xp p -> D xf f -> 0 < t -> D (n2_absorption_mwl24 (A:=XA) xt xp xf) (n2_absorption_mwl24 (A:=RA) t p f).
Proof.
  intros Ht Hp Hf Pt. assert (Nt : (t : R) <> 0) by lra.
  assert (N1 : (mul (a:=RA) (lit (Dec 6950354549 10000000000)) t : R) <> 0) by (ra; nra).
  assert (N2 : (mul (a:=RA) (lit (Dec 6950354549 10000000000)) (lit (Dec 3000 10)) : R) <> 0) by (ra; lra).
  assert (N3 : (sub (a:=RA) (expf (a:=RA) (div (a:=RA) (lit (Dec 1080 10)) (mul (a:=RA) (lit (Dec 6950354549 10000000000)) (lit (Dec 3000 10)))))
     (add (a:=RA) (lit (Dec 1 1)) (div (a:=RA) (lit (Dec 1080 10)) (mul (a:=RA) (lit (Dec 6950354549 10000000000)) (lit (Dec 3000 10))))) : R) <> 0).
  { assert (G := exp_gt_1_add (1080 / 10 / (6950354549 / 10000000000 * (3000 / 10))) ltac:(lra)). ra. lra. }
  assert (N4 : (lit (a:=RA) (Dec 920 10) : R) <> 0) by (ra; lra).
  assert (N5 : (lit (a:=RA) (Dec 5680 10) : R) <> 0) by (ra; lra).
  assert (N6 : (lit (a:=RA) (Dec 1270 10) : R) <> 0) by (ra; lra).
  assert (S : forall x : R, (add (a:=RA) (lit (Dec 10 10)) (powi (A:=RA) x 2) : R) <> 0) by (intros x; rewrite powi2; ra; assert (G := sq_nonneg x); lra).
  assert (TP : 0 < (div (a:=RA) (lit (Dec 3000 10)) t : R)) by (ra; apply div_pos; lra).
  unfold n2_absorption_mwl24. cbv zeta.
  repeat first [assumption | apply S | apply poly4_D | dstep].
Qed.

Theorem n2_D m (xt xp xf : car XA) t p f v : D xt t -> D xp p -> D xf f -> 0 < t -> n2_absorption (A:=RA) m t p f = Ok v -> n2_absorption (A:=XA) m xt xp xf = Ok (Fin v).
Proof.
  intros Ht Hp Hf Pt H. unfold n2_absorption in *. cbv zeta in *.
  assert (Nt : (t : R) <> 0) by lra. assert (N1 : (lit (a:=RA) (Dec 4500 10) : R) <> 0) by (ra; lra).
  assert (S : (add (a:=RA) (lit (Dec 10 10)) (powi (A:=RA) (div (a:=RA) f (lit (Dec 4500 10))) 2) : R) <> 0) by (rewrite powi2; ra; assert (G := sq_nonneg (f / (4500 / 10))); lra).
  assert (TP : 0 < (div (a:=RA) (lit (Dec 3000 10)) t : R)) by (ra; apply div_pos; lra).
  assert (Q : (exists e, n2_params (A:=RA) m = Err e) \/ exists l mm n b xl xm xn, n2_params (A:=RA) m = Ok (l, mm, n, b) /\ n2_params (A:=XA) m = Ok (xl, xm, xn, b) /\ D xl l /\ D xm mm /\ D xn n).
  { unfold n2_params. repeat match goal with |- context [if ?b then _ else _] => destruct b end;
      first [left; eexists; reflexivity | right; do 7 eexists; split; [reflexivity|]; split; [reflexivity|]; repeat split; apply D_lit]. }
  destruct Q as [(e & E)|(l & mm & n & b & xl & xm & xn & E & EX & D1 & D2 & D3)]; [rewrite E in H; discriminate|].
  rewrite E in H. rewrite EX. cbn [bind] in *. apply ok_inj in H. subst v. f_equal.
  assert (M := n2_mwl_D xt xp xf t p f Ht Hp Hf Pt).
  match goal with |- ?x = Fin ?y => change (D x y) end. destruct b; dfin.
Qed.

(** ** Ozone (collision-broadened shapes) *)

Record Dz (x : o3_line XA) (r : o3_line RA) : Prop := mkDz {
  dz_fl : D (z_fl x) (z_fl r); dz_s1 : D (z_s1 x) (z_s1 r); dz_b : D (z_b x) (z_b r); dz_w : D (z_w x) (z_w r); dz_x : D (z_x x) (z_x r) }.
Record Dzl (x : o3_ll XA) (r : o3_ll RA) : Prop := mkDzl { dzl_ref : D (z_reftline x) (z_reftline r); dzl_lines : Forall2 Dz (z_lines x) (z_lines r) }.
Definition sharp_o3 (r : o3_line RA) : Prop := 0 < (z_fl r : R) /\ 0 <= (z_w r : R).

Lemma lorentz_D (xt xp xf xi : car XA) t p f ti (xk : o3_line XA) k : D xt t -> D xp p -> D xf f -> D xi ti -> Dz xk k -> sharp_o3 k -> 0 < t -> 0 <= p -> 0 < ti ->
  D (o3_term_lorentz (A:=XA) xt xp xf xi xk) (o3_term_lorentz (A:=RA) t p f ti k).
Proof.
  intros Ht Hp Hf Hi [K1 K2 K3 K4 K5] (S1 & S2) Pt Pp Pi. unfold o3_term_lorentz, o3_strength. cbv zeta.
  assert (W : D (mul (a:=XA) (mul (a:=XA) (z_w xk) xp) (powf (a:=XA) xi (z_x xk))) (mul (a:=RA) (mul (a:=RA) (z_w k) p) (powf (a:=RA) ti (z_x k)))) by dfin.
  assert (WN : 0 <= (mul (a:=RA) (mul (a:=RA) (z_w k) p) (powf (a:=RA) ti (z_x k)) : R)).
  { ra. rewrite Rpowf_pos by auto. apply Rmult_le_pos; [apply Rmult_le_pos; auto|apply Rlt_le, Rpower_pos]. }
  revert W WN. generalize (mul (a:=XA) (mul (a:=XA) (z_w xk) xp) (powf (a:=XA) xi (z_x xk))) (mul (a:=RA) (mul (a:=RA) (z_w k) p) (powf (a:=RA) ti (z_x k))). intros xw w W WN.
  assert (R0 : 0 < (add (a:=RA) (mul (a:=RA) (mul (a:=RA) (lit (Dec 2166 10000)) w) w) (mul (a:=RA) (lit (Dec 6931 10000)) (mul (a:=RA) (mul (a:=RA) (lit (Dec 385 100000000000000000)) t) (powi (A:=RA) (z_fl k) 2))) : R)).
  { rewrite powi2. ra. assert (G := sq_nonneg w). assert (0 < z_fl k * z_fl k) by (apply Rmult_lt_0_compat; auto).
    assert (0 < 385 / 100000000000000000 * t * (z_fl k * z_fl k)) by (apply Rmult_lt_0_compat; [apply Rmult_lt_0_compat; lra|auto]). nra. }
  assert (NF : (z_fl k : R) <> 0) by lra.
  assert (Q : D (sqrtf (a:=XA) (add (a:=XA) (mul (a:=XA) (mul (a:=XA) (lit (Dec 2166 10000)) xw) xw) (mul (a:=XA) (lit (Dec 6931 10000)) (mul (a:=XA) (mul (a:=XA) (lit (Dec 385 100000000000000000)) xt) (powi (A:=XA) (z_fl xk) 2)))))
               (sqrtf (a:=RA) (add (a:=RA) (mul (a:=RA) (mul (a:=RA) (lit (Dec 2166 10000)) w) w) (mul (a:=RA) (lit (Dec 6931 10000)) (mul (a:=RA) (mul (a:=RA) (lit (Dec 385 100000000000000000)) t) (powi (A:=RA) (z_fl k) 2)))))).
  { apply D_sqrt; [dfin|]. apply Rlt_le, R0. }
  assert (QP := R_sqrt.sqrt_lt_R0 _ R0).
  match type of Q with D ?x ?y => change (0 < (y : R)) in QP; revert Q QP; generalize x y end. intros xs s Q QP.
  assert (WP : 0 < (add (a:=RA) (mul (a:=RA) (lit (Dec 5346 10000)) w) s : R)) by (ra; nra).
  assert (WW : D (add (a:=XA) (mul (a:=XA) (lit (Dec 5346 10000)) xw) xs) (add (a:=RA) (mul (a:=RA) (lit (Dec 5346 10000)) w) s)) by dfin.
  match type of WW with D ?x ?y => revert WW WP; generalize x y end. intros xv v WW WP.
  assert (N : (add (a:=RA) (powi (A:=RA) (sub (a:=RA) f (z_fl k)) 2) (mul (a:=RA) v v) : R) <> 0) by (rewrite powi2; apply sq_plus; exact WP).
  dfin.
Qed.

Lemma o3_loop_D F G xf f xl l a b : Forall2 Dz xl l -> Forall sharp_o3 l -> (forall x r, Dz x r -> sharp_o3 r -> D (F x) (G r)) -> D xf f -> D a b ->
  D (o3_loop (A:=XA) F xf xl a) (o3_loop (A:=RA) G f l b).
Proof.
  intros H Hs HF Hf. revert a b. induction H as [|x r xl l Hx H IH]; intros a b Hab; [exact Hab|]. inversion Hs; subst. cbn [o3_loop].
  assert (K := dz_fl _ _ Hx).
  apply D_if; [apply D_ltb; [dfin|exact K]|exact Hab|]. apply D_if; [apply D_leb; [dfin|exact K]|apply IH; auto; apply D_add; auto|apply IH; auto].
Qed.

Theorem o3_D m (xl : o3_ll XA) (l : o3_ll RA) (xt xp xf xn : car XA) t p f n : str_in m ["R22"; "R22SD"] = false -> Dzl xl l -> Forall sharp_o3 (z_lines l) -> 0 < (z_reftline l : R) ->
  D xt t -> D xp p -> D xf f -> D xn n -> 0 < t -> 0 <= p -> D (o3_absorption (A:=XA) m xl xt xp xf xn) (o3_absorption (A:=RA) m l t p f n).
Proof.
  intros Hm [L1 L2] Hs Hr Ht Hp Hf Hn Pt Pp. unfold o3_absorption. cbv zeta. rewrite Hm.
  apply D_if; [apply D_eqb; [exact Hn|apply D_lit]|apply D_lit|].
  assert (Nt : (t : R) <> 0) by lra. assert (TP : 0 < (div (a:=RA) (z_reftline l) t : R)) by (apply div_pos; auto).
  assert (T : D (div (a:=XA) (z_reftline xl) xt) (div (a:=RA) (z_reftline l) t)) by dfin.
  assert (X : D (o3_loop (A:=XA) (o3_term_lorentz xt xp xf (div (a:=XA) (z_reftline xl) xt)) xf (z_lines xl) (lit (Dec 0 10)))
                (o3_loop (A:=RA) (o3_term_lorentz t p f (div (a:=RA) (z_reftline l) t)) f (z_lines l) (lit (Dec 0 10)))).
  { apply o3_loop_D; auto; [|apply D_lit]. intros x r Hx Hr'. apply lorentz_D; auto. }
  dfin.
Qed.

(** ** Vapour pressure, density and refractivity *)

Lemma vapor_es_D (xt : car XA) t : D xt t -> 0 < t -> D (vapor_es (A:=XA) xt) (vapor_es (A:=RA) t).
Proof.
  intros Ht Pt. unfold vapor_es. cbv zeta. assert (Nt : (t : R) <> 0) by lra.
  assert (Y : D (div (a:=XA) (lit (Dec 37316 100)) xt) (div (a:=RA) (lit (Dec 37316 100)) t)) by dfin.
  assert (YP : 0 < (div (a:=RA) (lit (Dec 37316 100)) t : R)) by (ra; apply div_pos; lra).
  match type of Y with D ?x ?y => revert Y YP; generalize x y end. intros xy y Y YP.
  assert (NY : (y : R) <> 0) by lra.
  assert (P1 : 0 < (lit (a:=RA) (Dec 10 1) : R)) by (ra; lra). assert (P2 : 0 < (lit (a:=RA) (Dec 100 10) : R)) by (ra; lra).
  assert (P3 : 0 < (lit (a:=RA) (Dec 1013246 1000) : R)) by (ra; lra).
  dfin.
Qed.

Lemma vapor1_D (xt xr : car XA) t rh : D xt t -> D xr rh -> 0 < t ->
  D (fst (vapor1 (A:=XA) xt xr)) (fst (vapor1 (A:=RA) t rh)) /\ D (snd (vapor1 (A:=XA) xt xr)) (snd (vapor1 (A:=RA) t rh)).
Proof.
  intros Ht Hr Pt. assert (S := vapor_es_D xt t Ht Pt). unfold vapor1, k_Rwatvap. cbn [fst snd].
  assert (N : (mul (a:=RA) (mul (a:=RA) (lit (Dec 46152 100)) (lit (Dec 1 100000))) t : R) <> 0) by (ra; nra).
  split; dfin.
Qed.

Lemma refractivity1_D (xp xt xe : car XA) p t e : D xp p -> D xt t -> D xe e -> 0 < t ->
  let x := refractivity1 (A:=XA) xp xt xe in let r := refractivity1 (A:=RA) p t e in
  D (fst (fst x)) (fst (fst r)) /\ D (snd (fst x)) (snd (fst r)) /\ D (snd x) (snd r).
Proof.
  intros Hp Ht He Pt. unfold refractivity1. cbn [fst snd].
  assert (N1 : (t : R) <> 0) by lra. assert (P2 : 0 < t * t) by (apply Rmult_lt_0_compat; auto).
  assert (N2 : (mul (a:=RA) t t : R) <> 0) by (ra; lra). assert (N3 : (mul (a:=RA) t (mul (a:=RA) t t) : R) <> 0) by (ra; apply Rmult_integral_contrapositive_currified; lra).
  repeat split; dfin.
Qed.
