(** Claims C12, C22, C23 and C27: single rows of the result table, over the reals with infinities and NaN. *)

From Coq Require Import ZArith Reals Lra Lia String List Bool FinFun.
Import ListNotations.
From Verif Require Import Arith PyBase Utils RTE Absorption Clear Spectrum Spec ListAux RealAux PlanckReal PlanckMaster PropsPlanck Integral
  SolverGen SolverRun Registry PropsRun PropsObject PropsModels.
Open Scope R_scope.

(** ** From the table back to single cells (every arithmetic) *)

Lemma execute_cell (A : Arith) db (g : globals A) h o fr full o' g' : wf h o ->
  execute db g h o = Ok (fr, full, o', g') ->
  exists g1 e rho dryn wetn refindx, init_linelist db g = Ok g1 /\
    vapor (hget h (o_tk o)) (hget h (o_rh o)) (o_ice o) = Ok (e, rho) /\
    refractivity (hget h (o_p o)) (hget h (o_tk o)) e = (dryn, wetn, refindx) /\
    length e = o_nl o /\ length refindx = o_nl o /\
    length full = length (o_angles o) /\
    forall k j d0 c0 dr da, (k < length (o_angles o))%nat -> (j < length (o_frq o))%nat ->
      exists ds es x c, path_ds (inputs_of h o) refindx (nth k (o_angles o) d0) = Ok ds /\ length ds = o_nl o /\
        py_get (hget h (o_es o)) (Z.of_nat j) = Ok es /\
        In (nth k (o_cells o) []) (o_cells o) /\ In (nth j (nth k (o_cells o) []) c0) (nth k (o_cells o) []) /\
        run_cell (with_sat g1 (o_sat o)) (inputs_of h o) e ds (nth k (o_angles o) d0) (nth j (o_frq o) d0) es
          (nth j (nth k (o_cells o) []) c0) = Ok (x, c) /\
        f_row x = nth (k * length (o_frq o) + j) fr dr /\ x = nth j (an_rows (nth k full da)) x /\
        f_row x = f_row (nth j (an_rows (nth k full da)) x).
Proof.
  intros W H. apply execute_inv in H. destruct H as (g1 & r & Hg1 & Hr & -> & -> & _ & _).
  destruct (run_shape _ _ h o r W Hr) as [Lr Hrows].
  apply run_all_inv in Hr. destruct Hr as (e & rho & dryn & wetn & refindx & Ev & Er & Hm).
  cbn [inputs_of i_ice i_tk i_rh i_p] in Ev, Er.
  exists g1, e, rho, dryn, wetn, refindx. split; [exact Hg1|]. split; [exact Ev|]. split; [exact Er|].
  assert (Hice : o_ice o = false). { destruct (o_ice o); [discriminate|reflexivity]. }
  rewrite Hice in Ev. destruct (vapor_length _ _ _ _ Ev) as [Le _]; [rewrite (wf_tk _ _ W), (wf_rh _ _ W); auto|].
  rewrite (wf_tk _ _ W) in Le.
  assert (HR := refr_length (hget h (o_p o)) (hget h (o_tk o)) e). rewrite Er in HR.
  destruct HR as (_ & _ & Ln); [rewrite (wf_p _ _ W), (wf_tk _ _ W); auto|rewrite (wf_tk _ _ W); auto|].
  rewrite (wf_tk _ _ W) in Ln. split; [exact Le|]. split; [exact Ln|]. split; [rewrite map_length; exact Lr|].
  intros k j d0 c0 dr da Hk Hj.
  assert (Lo := olds_length h o W).
  pose (dx := (mkAngle d0 d0 d0 d0 d0 [], ([], (d0, d0))) : angle_full A * (list (cell A) * (car A * car A))).
  assert (Hkr := mapM_nth _ _ r k (d0, ([], (d0, d0))) dx Hm).
  rewrite combine_nth in Hkr by auto. rewrite (olds_nth h o k d0 W Hk) in Hkr.
  assert (Lc : (k < length (combine (o_angles o) (olds_of o)))%nat) by (rewrite combine_length; lia).
  specialize (Hkr Lc). cbn [fst snd] in Hkr.
  assert (Hcells : In (nth k (o_cells o) []) (o_cells o)) by (apply nth_In; rewrite (wf_cells _ _ W); auto).
  assert (Lcells : length (nth k (o_cells o) []) = length (o_frq o)) by (apply (wf_rows _ _ W); auto).
  pose (drf := mkFull dr [] [] [] [] [] [] : row_full A).
  assert (Efr : nth (k * length (o_frq o) + j) (frame r) dr = f_row (nth j (an_rows (fst (nth k r dx))) drf)).
  { apply frame_nth; auto. lia. }
  destruct (nth k r dx) as [af0 [cs0 cl0]] eqn:Ek.
  assert (Hrun := Hkr). apply run_angle_inv in Hkr. destruct Hkr as (ds & xs & Eds & Hxs & Erows & _). cbn [fst] in Efr, Hxs, Erows.
  apply run_freqs_inv in Hxs; auto. destruct Hxs as [Lx Hx].
  destruct (Hx j d0 c0 (drf, c0) Hj) as (es & Hes & Hcell). rewrite Z.add_0_l in Hes.
  destruct (nth j xs (drf, c0)) as [x c] eqn:Exj.
  assert (Ex : nth j (an_rows af0) drf = x).
  { rewrite Erows. rewrite (nth_map_d _ _ _ (drf, c0)) by (rewrite Lx; auto). rewrite Exj. reflexivity. }
  assert (Ex2 : x = nth j (an_rows (nth k (map fst r) da)) x).
  { rewrite (nth_map_d fst _ _ dx) by lia. rewrite Ek. cbn [fst]. rewrite (nth_indep _ x drf); [symmetry; exact Ex|].
    rewrite Erows, map_length, Lx. auto. }
  exists ds, es, x, c. split; [exact Eds|]. split; [apply (path_length _ _ _ _ Eds); cbn; auto; apply W|].
  split; [exact Hes|]. split; [exact Hcells|]. split; [apply nth_In; lia|].
  split; [exact Hcell|]. split; [rewrite Efr, Ex; reflexivity|]. split; [exact Ex2|]. rewrite <- Ex2. reflexivity.
Qed.

(** What one cell computes. *)
Lemma run_cell_inv (A : Arith) (g : globals A) i e ds angle frq es old x c :
  run_cell g i e ds angle frq es old = Ok (x, c) ->
  exists awet adry w d c1 pl al, 
    clearsky_absorption g (i_amu i) (i_p i) (i_tk i) e frq (i_o3n i) = Ok (awet, adry) /\
    exponential_integration true awet ds 1 (Z.of_nat (i_nl i)) (lit 1) = Ok w /\
    exponential_integration true adry ds 1 (Z.of_nat (i_nl i)) (lit 1) = Ok d /\
    (i_cloudy i = false -> c1 = old) /\
    (i_cloudy i = true -> exists dens la l ic, i_dens i = Some dens /\
       cloudy_absorption (g_liq g) (i_tk i) (snd dens) (fst dens) frq = Ok la /\
       exponential_integration false (fst la) ds 1 (Z.of_nat (i_nl i)) (lit 1) = Ok l /\
       exponential_integration false (snd la) ds 1 (Z.of_nat (i_nl i)) (lit 1) = Ok ic /\
       c_sptauliq c1 = fst l /\ c_ptauliq c1 = snd l /\ c_sptauice c1 = fst ic /\ c_ptauice c1 = snd ic) /\
    planck (g_from_sat g) es frq (i_tk i) (add4 (snd w) (snd d) (c_ptauice c1) (c_ptauliq c1)) = Ok pl /\
    py_get (p_boftatm pl) (Z.of_nat (i_nl i) - 1) = Ok al /\
    r_tbtotal (f_row x) = bright (p_hvk pl) (p_boftotl pl) /\ r_tbatm (f_row x) = bright (p_hvk pl) al /\
    r_tmr (f_row x) = bright (p_hvk pl) (p_boftmr pl) /\
    r_tauwet (f_row x) = fst w /\ r_taudry (f_row x) = fst d /\ r_tauliq (f_row x) = c_sptauliq c1 /\ r_tauice (f_row x) = c_sptauice c1 /\
    r_angle (f_row x) = angle /\
    f_ptauwet x = snd w /\ f_ptaudry x = snd d /\ f_ptauliq x = c_ptauliq c1 /\ f_ptauice x = c_ptauice c1 /\ f_awet x = awet /\ f_adry x = adry.
Proof.
  intros H. unfold run_cell in H. inv_bind H a Ea. destruct a as [awet adry]. inv_bind H w Ew. inv_bind H d Ed. inv_bind H cc Ec1.
  inv_bind H pl Epl. inv_bind H c2 Ec2. inv_bind H al Eal. inversion H; subst. clear H.
  exists awet, adry, w, d, cc, pl, al. split; [exact Ea|]. split; [exact Ew|]. split; [exact Ed|].
  assert (E2 : c_sptauliq c = c_sptauliq cc /\ c_ptauliq c = c_ptauliq cc /\ c_sptauice c = c_sptauice cc /\ c_ptauice c = c_ptauice cc).
  { destruct (i_cloudy i); [|inversion Ec2; auto]. inv_bind Ec2 lv Elv. inv_bind Ec2 b0 Eb. inv_bind Ec2 t0 Et.
    inv_bind Ec2 tm Etm. inversion Ec2. cbn. auto. }
  destruct E2 as (E2a & E2b & E2c & E2d).
  split. { intros Hc. rewrite Hc in Ec1. inversion Ec1. reflexivity. }
  split. { intros Hc. rewrite Hc in Ec1. inv_bind Ec1 dens Edens. inv_bind Ec1 la Ela. inv_bind Ec1 l El. inv_bind Ec1 ic Eic.
    inversion Ec1. exists dens, la, l, ic. cbn. repeat split; auto. unfold need in Edens. destruct (i_dens i); inversion Edens; auto. }
  split; [exact Epl|]. split; [exact Eal|]. cbn. rewrite E2a, E2b, E2c, E2d. repeat split; reflexivity.
Qed.

(** Defaults for [nth]; never read. *)
Definition x0 : car XA := NaN.
Definition cell0 : cell XA := mkCell x0 [] x0 [] x0.
Definition angle0 : angle_full XA := mkAngle x0 x0 x0 x0 x0 [].

(** ** C12: the column of the atmospheric brightness temperature *)

Lemma planck_up_last (A : Arith) hvk (lv : list (car A * car A)) d : lv <> [] -> lev_atm (last (planck_up hvk lv) d) = lit 0.
Proof.
  induction lv as [|[t x] lv IH]; [congruence|]. intros _. cbn [planck_up]. destruct lv as [|[t1 x1] lv]; [reflexivity|].
  assert (L := planck_up_length hvk ((t1, x1) :: lv)).
  destruct (planck_up hvk ((t1, x1) :: lv)) as [|[[b a] tau] up] eqn:E; [discriminate|].
  change (last ((tk2b_mod hvk t, add a (lay_batm b (tk2b_mod hvk t) x1 tau), add tau x1) :: (b, a, tau) :: up) d)
    with (last ((b, a, tau) :: up) d). apply IH. discriminate.
Qed.

Lemma planck_close_atm (A : Arith) (hvk bg : car A) far levs : p_boftatm (planck_close hvk bg far levs) = map lev_atm levs.
Proof. unfold planck_close. destruct (ltb _ _); reflexivity. Qed.

Lemma planck_sat_last (A : Arith) es frq (t tl : list (car A)) pl : planck true es frq t tl = Ok pl ->
  exists m, p_boftatm pl = m ++ [lit 0].
Proof.
  unfold planck. destruct (combine t tl) as [|[t0 d0] rest] eqn:E; [discriminate|].
  remember ((t0, d0) :: rest) as L0 eqn:EL0. intros H. injection H as <-.
  rewrite planck_close_atm. set (levs := planck_up _ _) in *. assert (Ne : levs <> []).
  { intros E0. assert (L := planck_up_length (hvk_of frq) L0). fold levs in L. rewrite E0, EL0 in L. discriminate. }
  destruct (exists_last Ne) as (l & a & Ea). exists (map lev_atm l). rewrite Ea, map_app. cbn [map]. f_equal. f_equal.
  assert (HL := planck_up_last A (hvk_of frq) L0 a ltac:(rewrite EL0; discriminate)). fold levs in HL. rewrite Ea, last_last in HL. exact HL.
Qed.

Lemma py_get_last {T} (m : list T) (a : T) x n : py_get (m ++ [a]) (Z.of_nat n - 1) = Ok x -> length (m ++ [a]) = n -> x = a.
Proof.
  intros H L. rewrite <- L, app_length in H. cbn [length] in H.
  replace (Z.of_nat (length m + 1) - 1)%Z with (Z.of_nat (length m)) in H by lia.
  rewrite (py_get_ok _ _ a) in H by (rewrite app_length; simpl; lia).
  rewrite app_nth2, Nat.sub_diag in H by lia. inversion H. reflexivity.
Qed.

Lemma planck_atm_length (A : Arith) sat es frq (t tl : list (car A)) pl : planck sat es frq t tl = Ok pl -> length t = length tl ->
  length (p_boftatm pl) = length t.
Proof.
  intros H Hl. destruct t as [|t0 t]; [unfold planck in H; cbn in H; discriminate|].
  destruct (planck_ok sat es frq (t0 :: t) tl Hl ltac:(discriminate)) as (o & Ho & L & _). rewrite Ho in H. inversion H; subst. exact L.
Qed.

(** Lengths of the four opacity profiles of one cell. *)
Lemma cell_profiles (A : Arith) (g : globals A) h o e ds angle f es old x c : wf h o -> length e = o_nl o -> length ds = o_nl o ->
  length (c_ptauliq old) = o_nl o /\ length (c_ptauice old) = o_nl o ->
  run_cell g (inputs_of h o) e ds angle f es old = Ok (x, c) ->
  length (add4 (f_ptauwet x) (f_ptaudry x) (f_ptauice x) (f_ptauliq x)) = o_nl o.
Proof.
  intros W Le Lds [Lo1 Lo2] H. apply run_cell_inv in H.
  destruct H as (aw & ad & w & d & c1 & pl & al & _ & Ew & Ed & C0 & C1 & _ & _ & _ & _ & _ & _ & _ & _ & _ & _ & -> & -> & -> & -> & _).
  destruct w as [w1 w2], d as [d1 d2]. apply exp_int_length in Ew. apply exp_int_length in Ed.
  cbn [snd]. apply add4_length; try lia; destruct (i_cloudy (inputs_of h o)) eqn:Ec.
  - destruct (C1 eq_refl) as (dens & la & l & ic & _ & _ & _ & Ei & _ & _ & _ & ->). destruct ic. apply exp_int_length in Ei. cbn. lia.
  - rewrite (C0 eq_refl). auto.
  - destruct (C1 eq_refl) as (dens & la & l & ic & _ & _ & El & _ & _ & -> & _). destruct l. apply exp_int_length in El. cbn. lia.
  - rewrite (C0 eq_refl). auto.
Qed.

(** Satellite view: the column is 0 in every row of every run, whatever the atmosphere. *)
Theorem C12_satellite_refuted db (g : globals XA) h o fr full o' g' : wf h o -> o_sat o = true ->
  execute db g h o = Ok (fr, full, o', g') -> forall x, In x fr -> r_tbatm x = Fin 0.
Proof.
  intros W Hs H x Hx. pose proof (execute_cell XA db g h o fr full o' g' W H) as HC.
  destruct HC as (g1 & e & rho & dryn & wetn & refindx & Hll & _ & _ & Le & _ & _ & HC).
  destruct (C52_rows_independent db g h o fr full o' g' x0 cell0 x W H) as [Lfr _].
  destruct (In_nth fr x x Hx) as (n & Hn & En).
  assert (Hnf : length (o_frq o) <> 0%nat) by (intros E; rewrite E, Nat.mul_0_r in Lfr; lia).
  set (nf := length (o_frq o)) in *.
  destruct (HC (n / nf)%nat (n mod nf)%nat x0 cell0 x angle0) as (ds & es & xx & c & _ & Lds & _ & Hin1 & Hin2 & Hcell & Hrow & _).
  { apply Nat.div_lt_upper_bound; auto. lia. }
  { apply Nat.mod_upper_bound; auto. }
  replace ((n / nf) * nf + n mod nf)%nat with n in Hrow by (rewrite Nat.mul_comm; apply Nat.div_mod; auto).
  rewrite En in Hrow. rewrite <- Hrow.
  assert (Hprof := cell_profiles XA _ h o e ds _ _ _ _ xx c W Le Lds (wf_cell _ _ W _ _ Hin1 Hin2) Hcell).
  apply run_cell_inv in Hcell.
  destruct Hcell as (aw & ad & w & d & c1 & pl & al & _ & _ & _ & _ & _ & Hpl & Hal & _ & -> & _ & _ & _ & _ & _ & _ & E1 & E2 & E3 & E4 & _).
  rewrite E1, E2, E3, E4 in Hprof.
  change (g_from_sat (with_sat g1 (o_sat o))) with (o_sat o) in Hpl. rewrite Hs in Hpl.
  assert (Lt : length (i_tk (inputs_of h o)) = o_nl o) by apply W.
  assert (Lb := planck_atm_length _ _ _ _ _ _ _ Hpl). rewrite Lt, Hprof in Lb. specialize (Lb eq_refl).
  destruct (planck_sat_last _ _ _ _ _ _ Hpl) as (m & Em). rewrite Em in Hal, Lb.
  apply py_get_last in Hal; [|exact Lb]. subst al.
  unfold bright. change (eqb (a:=XA) (lit 0) (lit 0)) with (Reqb (0 / 1) (0 / 1)). rewrite Reqb_true by reflexivity. cbn [negb].
  xa. f_equal. lra.
Qed.

(** Ground view: the column is the brightness temperature of the emission of the whole atmosphere. *)
Theorem C12_ground db (g : globals XA) h o fr full o' g' : wf h o -> o_sat o = false ->
  execute db g h o = Ok (fr, full, o', g') ->
  forall k j d0 da dr f t tau, (k < length (o_angles o))%nat -> (j < length (o_frq o))%nat ->
    nth j (o_frq o) d0 = Fin f -> 0 < f -> hget h (o_tk o) = map Fin t -> (forall x, In x t -> 0 < x) ->
    (forall es, py_get (hget h (o_es o)) (Z.of_nat j) = Ok es -> exists r, es = Fin r) ->
    (* the layer opacities of this row, as reported by the full output, are finite *)
    let x := nth j (an_rows (nth k full da)) dr in
    add4 (f_ptauwet x) (f_ptaudry x) (f_ptauice x) (f_ptauliq x) = map Fin tau ->
    let E := total_atm false (spec_hvk f) t tau in
    (0 < E -> r_tbatm (f_row x) = Fin (planckT (spec_hvk f) E)) /\ (E = 0 -> r_tbatm (f_row x) = Fin 0).
Proof.
  intros W Hs H k j d0 da dr f t tau Hk Hj Ef Hf Et Ht Hes x Etau E.
  pose proof (execute_cell XA db g h o fr full o' g' W H) as HC.
  destruct HC as (g1 & e & rho & dryn & wetn & refindx & Hll & _ & _ & Le & _ & Lfull & HC).
  destruct (HC k j d0 cell0 (f_row dr) da Hk Hj) as (ds & es & xx & c & _ & Lds & Hpe & Hin1 & Hin2 & Hcell & Hrow & Hxx & _).
  destruct (Hes es Hpe) as [er ->].
  assert (Ex : x = xx).
  { unfold x. destruct (le_lt_dec (length (an_rows (nth k full da))) j) as [Hl|Hl].
    - exfalso. (* every block has one entry per frequency *)
      apply execute_inv in H. destruct H as (g2 & r & _ & Hr & _ & -> & _ & _).
      destruct (run_shape _ _ h o r W Hr) as [Lr Hrows].
      rewrite map_length in Lfull.
      assert (Hb : In (nth k (map fst r) da) (map fst r)) by (apply nth_In; rewrite map_length; lia).
      apply in_map_iff in Hb. destruct Hb as (y & Ey & Hy). destruct (Hrows y Hy) as [L1 _]. rewrite <- Ey, L1 in Hl. lia.
    - rewrite (nth_indep _ dr xx) by exact Hl. symmetry. exact Hxx. }
  rewrite Ex in *. clear Ex.
  assert (Hprof := cell_profiles XA _ h o e ds _ _ _ _ xx c W Le Lds (wf_cell _ _ W _ _ Hin1 Hin2) Hcell).
  apply run_cell_inv in Hcell.
  destruct Hcell as (aw & ad & w & d & c1 & pl & al & _ & _ & _ & _ & _ & Hpl & Hal & _ & -> & _ & _ & _ & _ & _ & _ & E1 & E2 & E3 & E4 & _).
  rewrite E1, E2, E3, E4 in *. change (g_from_sat (with_sat g1 (o_sat o))) with (o_sat o) in Hpl. rewrite Hs, Etau, Ef in Hpl.
  cbn [inputs_of i_tk] in Hpl. rewrite Et in Hpl.
  assert (Lt : length t = o_nl o) by (rewrite <- (map_length Fin), <- Et; apply W).
  rewrite Etau, map_length in Hprof.
  destruct (C84_discretised_transfer false er f t tau Hf Ht) as (o2 & Ho2 & Hh & _ & _ & Hb & _); [lia|intros E0; rewrite E0 in Lt; apply (wf_nl _ _ W); auto|].
  rewrite Ho2 in Hpl. inversion Hpl; subst o2. clear Hpl. rewrite Hb in Hal. cbn [inputs_of i_nl] in Hal.
  assert (Hnl := wf_nl _ _ W).
  replace (Z.of_nat (o_nl o) - 1)%Z with (Z.of_nat (o_nl o - 1)) in Hal by lia.
  rewrite (py_get_ok _ _ NaN) in Hal by (rewrite !map_length, seq_length; lia). inversion Hal. clear Hal.
  assert (Eal : al = Fin E).
  { rewrite <- H1. rewrite (nth_indep _ NaN (Fin 0)) by (rewrite !map_length, seq_length; lia).
    rewrite map_nth. f_equal. rewrite (nth_map_d _ _ _ 0%nat) by (rewrite seq_length; lia). rewrite seq_nth by lia.
    unfold E, spec_atm, total_atm. rewrite Lt. reflexivity. }
  rewrite H1, Eal, Hh. split.
  - intros Hp. apply bright_X; auto. apply spec_hvk_pos; auto.
  - intros ->. apply bright_X0.
Qed.

(** ** C22: cloud levels *)

Lemma lookup_none (l : list R) c : ~ In c l -> forall i acc, level_lookup (A:=XA) (map Fin l) (Fin c) i acc = acc.
Proof.
  induction l as [|x l IH]; intros Hn i acc; [reflexivity|]. cbn [map level_lookup].
  change (eqb (a:=XA) (Fin x) (Fin c)) with (Reqb x c). rewrite Reqb_false by (intros ->; apply Hn; left; auto).
  apply IH. intros H. apply Hn. right; auto.
Qed.

Lemma lookup_found (l : list R) : NoDup l -> forall k i acc, (k < length l)%nat ->
  level_lookup (A:=XA) (map Fin l) (Fin (nth k l 0)) i acc = (i + Z.of_nat k)%Z.
Proof.
  induction l as [|x l IH]; intros ND k i acc Hk; [simpl in Hk; lia|]. inversion ND as [|? ? Hx ND']; subst.
  cbn [map level_lookup]. destruct k as [|k]; cbn [nth].
  - change (eqb (a:=XA) (Fin x) (Fin x)) with (Reqb x x). rewrite Reqb_true by reflexivity.
    rewrite lookup_none by auto. lia.
  - rewrite IH by (auto; simpl in Hk; lia). lia.
Qed.

Lemma NoDup_shift (zs : list R) c : NoDup zs -> NoDup (map (fun x => x - c) zs).
Proof. intros H. apply Injective_map_NoDup; auto. intros x y E. lra. Qed.

Lemma NoDup_no_repeat zs : NoDup zs -> no_repeat zs.
Proof.
  intros H i Hi E. assert (Hn := proj1 (NoDup_nth zs 0) H i (S i)). specialize (Hn ltac:(lia) Hi E). lia.
Qed.

Lemma init_z (h h' : heap XA) z p t rh frq angles o3n amu ray sat cl o zs : hget h z = map Fin zs -> zs <> [] -> NoDup zs ->
  tb_init (A:=XA) h z p t rh frq angles o3n amu "" ray sat cl = (h', Ok o) ->
  o_z o = z /\ o_z0 o = Fin (nth 0 zs 0) /\ o_cloudy o = cl /\ hget h' z = map Fin (map (fun x => x - nth 0 zs 0) zs).
Proof.
  intros Hz Hne ND H.
  destruct (C44_exact h z p t rh frq angles o3n amu ray sat cl zs Hz Hne) as [HE _].
  destruct (HE (NoDup_no_repeat zs ND)) as (o2 & H1 & H2 & _ & _ & _ & H3). rewrite H in H1, H3. cbn [fst snd] in H1, H3.
  inversion H1; subst o2. split; [exact H2|].
  unfold tb_init, bool_gt0, bool_lt0 in H. rewrite Hz in H. destruct (all_truthy _); [|discriminate]. rewrite Hz in H.
  destruct zs as [|z0 zs]; [congruence|]. cbn [map halloc String.eqb] in H. inversion H. cbn. split; [reflexivity|]. split; [reflexivity|].
  subst h'. exact H3.
Qed.

(** Heights given exactly as profile levels are found. *)
Theorem C22_levels_found (h h' : heap XA) z p t rh frq angles o3n amu ray sat o zs (idx : list (nat * nat)) di dl :
  hget h z = map Fin zs -> zs <> [] -> NoDup zs ->
  tb_init (A:=XA) h z p t rh frq angles o3n amu "" ray sat true = (h', Ok o) ->
  (forall b t, In (b, t) idx -> (b < length zs)%nat /\ (t < length zs)%nat) ->
  o_levels (init_cloudy h' o (map (fun '(b, t) => (Fin (nth b zs 0), Fin (nth t zs 0))) idx) di dl)
  = Some (map (fun x => Z.of_nat (fst x)) idx, map (fun x => Z.of_nat (snd x)) idx).
Proof.
  intros Hz Hne ND H Hidx. destruct (init_z h h' z p t rh frq angles o3n amu ray sat true o zs Hz Hne ND H) as (Ez & E0 & Ec & Eh).
  unfold init_cloudy. rewrite Ec, Ez, E0, Eh. cbn [o_levels]. f_equal.
  assert (Hs : forall k, (k < length zs)%nat -> nth k zs 0 - nth 0 zs 0 = nth k (map (fun x => x - nth 0 zs 0) zs) 0).
  { intros k Hk. symmetry. generalize (nth 0 zs 0). intros c. rewrite (nth_indep _ 0 (0 - c)) by (rewrite map_length; auto). apply (map_nth (fun x => x - c)). }
  set (l := map (fun x => x - nth 0 zs 0) zs) in *.
  assert (NDl : NoDup l) by (apply NoDup_shift; auto). assert (Ll : length l = length zs) by apply map_length.
  rewrite !map_map. f_equal; apply map_ext_in; intros [b t0] Hin; destruct (Hidx b t0 Hin) as [Hb Ht]; cbn [fst snd].
  - change (sub (a:=XA) (Fin (nth b zs 0)) (Fin (nth 0 zs 0))) with (Fin (nth b zs 0 + - nth 0 zs 0)).
    replace (nth b zs 0 + - nth 0 zs 0) with (nth b l 0) by (rewrite <- Hs by auto; lra). rewrite lookup_found by lia || auto; lia.
  - change (sub (a:=XA) (Fin (nth t0 zs 0)) (Fin (nth 0 zs 0))) with (Fin (nth t0 zs 0 + - nth 0 zs 0)).
    replace (nth t0 zs 0 + - nth 0 zs 0) with (nth t0 l 0) by (rewrite <- Hs by auto; lra). rewrite lookup_found by lia || auto; lia.
Qed.

(** A height that is not a profile level is not reported: the cloud is silently put at level 0. *)
Theorem C22_unmatched_refuted (h h' : heap XA) z p t rh frq angles o3n amu ray sat o zs b tp di dl :
  hget h z = map Fin zs -> zs <> [] -> NoDup zs ->
  tb_init (A:=XA) h z p t rh frq angles o3n amu "" ray sat true = (h', Ok o) ->
  ~ In b zs -> ~ In tp zs ->
  o_levels (init_cloudy h' o [(Fin b, Fin tp)] di dl) = Some ([0%Z], [0%Z]).
Proof.
  intros Hz Hne ND H Hb Ht. destruct (init_z h h' z p t rh frq angles o3n amu ray sat true o zs Hz Hne ND H) as (Ez & E0 & Ec & Eh).
  unfold init_cloudy. rewrite Ec, Ez, E0, Eh. cbn [o_levels map]. f_equal.
  assert (Hs : forall c, ~ In c zs -> ~ In (c - nth 0 zs 0) (map (fun x => x - nth 0 zs 0) zs)).
  { intros c Hc Hin. apply in_map_iff in Hin. destruct Hin as (y & Ey & Hy). apply Hc. replace c with y by lra. auto. }
  f_equal; f_equal; apply lookup_none; apply Hs; auto.
Qed.

Example C22_example : exists h' o, tb_init (A:=XA) ex_heap 0%nat 1%nat 2%nat 3%nat [] [] None None "" false true true = (h', Ok o) /\
  o_levels (init_cloudy h' o [(Fin 3, Fin 5)] 0%nat 0%nat) = Some ([1%Z], [2%Z]) /\
  o_levels (init_cloudy h' o [(Fin 3.1, Fin 4)] 0%nat 0%nat) = Some ([0%Z], [0%Z]).
Proof.
  assert (ND : NoDup [2; 3; 5]) by (repeat constructor; simpl; intuition lra).
  destruct (C44_exact ex_heap 0%nat 1%nat 2%nat 3%nat [] [] None None false true true [2; 3; 5] eq_refl ltac:(discriminate)) as [H _].
  destruct (H (NoDup_no_repeat _ ND)) as (o & H1 & _).
  set (h' := fst (tb_init (A:=XA) ex_heap 0%nat 1%nat 2%nat 3%nat [] [] None None "" false true true)).
  assert (E : tb_init (A:=XA) ex_heap 0%nat 1%nat 2%nat 3%nat [] [] None None "" false true true = (h', Ok o)).
  { rewrite <- H1. apply surjective_pairing. }
  exists h', o. split; [exact E|]. clearbody h'. split.
  - apply (C22_levels_found ex_heap h' 0%nat 1%nat 2%nat 3%nat [] [] None None false true o [2; 3; 5] [(1%nat, 2%nat)] 0%nat 0%nat); auto; try discriminate.
    intros b t [Hb|[]]. inversion Hb. simpl. lia.
  - apply (C22_unmatched_refuted ex_heap h' 0%nat 1%nat 2%nat 3%nat [] [] None None false true o [2; 3; 5]); auto; try discriminate; simpl; intuition lra.
Qed.

(** ** C27: plane-parallel opacities *)

Definition xscale (c : R) (v : ext) : ext := xmul v (Fin c).

Lemma xsgn_scale r c : 0 < c -> xsgn_inf (r * c) = xsgn_inf r.
Proof.
  intros Hc. unfold xsgn_inf. destruct (Rlt_dec 0 r), (Rlt_dec 0 (r * c)); auto; try nra.
  destruct (Rlt_dec r 0), (Rlt_dec (r * c) 0); auto; nra.
Qed.
Lemma xsgn_pos c : 0 < c -> xsgn_inf c = PInf.
Proof. intros. unfold xsgn_inf. destruct (Rlt_dec 0 c); auto; lra. Qed.
Lemma xsgn_neg c : 0 < c -> xsgn_inf (- c) = NInf.
Proof. intros. unfold xsgn_inf. destruct (Rlt_dec 0 (- c)); [lra|]. destruct (Rlt_dec (- c) 0); auto; lra. Qed.

Lemma xscale_mul v d c : 0 < c -> xmul v (Fin (d * c)) = xscale c (xmul v (Fin d)).
Proof.
  intros Hc. unfold xscale. destruct v as [r| | |]; cbn [xmul]; auto.
  - f_equal. ring.
  - rewrite xsgn_scale by auto. unfold xsgn_inf. destruct (Rlt_dec 0 d); cbn [xmul]; [rewrite xsgn_pos; auto|].
    destruct (Rlt_dec d 0); cbn [xmul]; [rewrite xsgn_neg; auto|auto].
  - replace (- (d * c)) with ((- d) * c) by ring. rewrite xsgn_scale by auto. unfold xsgn_inf. destruct (Rlt_dec 0 (- d)); cbn [xmul]; [rewrite xsgn_pos; auto|].
    destruct (Rlt_dec (- d) 0); cbn [xmul]; [rewrite xsgn_neg; auto|auto].
Qed.

Lemma xscale_add a b c : 0 < c -> xscale c (xadd a b) = xadd (xscale c a) (xscale c b).
Proof.
  intros Hc. unfold xscale. assert (Hp := xsgn_pos c Hc). assert (Hn := xsgn_neg c Hc).
  destruct a as [r| | |], b as [s| | |]; cbn [xmul xadd]; rewrite ?Hp, ?Hn; auto. f_equal. ring.
Qed.

Lemma xscale_factor a f c : 0 < c -> xmul (xscale c a) (Fin f) = xscale c (xmul a (Fin f)).
Proof.
  intros Hc. unfold xscale. destruct a as [r| | |]; cbn [xmul]; auto.
  - f_equal. ring.
  - rewrite xsgn_pos by auto. cbn [xmul]. unfold xsgn_inf. destruct (Rlt_dec 0 f); cbn [xmul]; [rewrite xsgn_pos; auto|].
    destruct (Rlt_dec f 0); cbn [xmul]; [rewrite xsgn_neg; auto|auto].
  - rewrite xsgn_neg by auto. cbn [xmul]. unfold xsgn_inf. destruct (Rlt_dec 0 (- f)); cbn [xmul]; [rewrite xsgn_pos; auto|].
    destruct (Rlt_dec (- f) 0); cbn [xmul]; [rewrite xsgn_neg; auto|auto].
Qed.

Lemma py_get_map {T U} (f : T -> U) l i : py_get (map f l) i = rmap f (py_get l i).
Proof.
  unfold py_get. rewrite map_length. destruct (py_pos _ _); [|reflexivity]. rewrite nth_error_map. destruct (nth_error l n); reflexivity.
Qed.
Lemma upd_map {T U} (f : T -> U) l : forall k v, map f (upd l k v) = upd (map f l) k (f v).
Proof. induction l; intros [|k] v; simpl; auto. f_equal; auto. Qed.
Lemma py_set_map {T U} (f : T -> U) l i v : py_set (map f l) i (f v) = rmap (map f) (py_set l i v).
Proof. unfold py_set. rewrite map_length. destruct (py_pos _ _); [|reflexivity]. cbn [rmap]. rewrite upd_map. reflexivity. Qed.

Lemma exp_loop_scale zf (x : list (car XA)) (ds : list R) c : 0 < c -> forall is (s : car XA) (xds : list (car XA)),
  exp_loop (A:=XA) zf x (map Fin (map (fun d => d * c) ds)) is (xscale c s) (map (xscale c : car XA -> car XA) xds) =
  rmap (fun r : bool * car XA * list (car XA) => let '(b, s', out) := r in (b, xscale c s', map (xscale c : car XA -> car XA) out))
       (exp_loop (A:=XA) zf x (map (Fin : R -> car XA) ds) is s xds).
Proof.
  intros Hc. induction is as [|i is IH]; intros s xds; [reflexivity|]. cbn [exp_loop].
  destruct (py_get x (i - 1)) as [xp|]; [|reflexivity]. cbn [bind].
  destruct (py_get x i) as [xi|]; [|reflexivity]. cbn [bind].
  destruct (orb _ _); [reflexivity|]. rewrite !py_get_map. destruct (py_get ds i) as [d|]; [|reflexivity]. cbn [rmap bind].
  change (mul (a:=XA) ?u ?v) with (xmul u v). rewrite xscale_mul by auto.
  rewrite py_set_map. destruct (py_set xds i _) as [xds'|]; [|reflexivity]. cbn [rmap bind].
  change (add (a:=XA) ?u ?v) with (xadd u v). rewrite <- xscale_add by auto. apply IH.
Qed.

Lemma exp_int_scale zf (x : list ext) (ds : list R) c b e f : 0 < c ->
  exponential_integration (A:=XA) zf x (map Fin (map (fun d => d * c) ds)) b e (Fin f) =
  rmap (fun r : ext * list ext => (xscale c (fst r), map (xscale c) (snd r)))
       (exponential_integration (A:=XA) zf x (map Fin ds) b e (Fin f)).
Proof.
  intros Hc. unfold exponential_integration.
  assert (E0 : lit (a:=XA) 0.0 = xscale c (lit (a:=XA) 0.0)).
  { unfold xscale. xa. cbn [xmul litR]. f_equal. field. }
  assert (E1 : map (fun _ : car XA => lit (a:=XA) 0) (map Fin (map (fun d => d * c) ds)) = map (xscale c) (map (fun _ : car XA => lit (a:=XA) 0) (map Fin ds))).
  { rewrite !map_map. apply map_ext. intros _. unfold xscale. xa. cbn [xmul litR]. f_equal. field. }
  rewrite E1. rewrite E0 at 1. 
  assert (EL := exp_loop_scale zf x ds c Hc (zrange b e) (lit (a:=XA) 0.0) (map (fun _ : car XA => lit (a:=XA) 0) (map Fin ds))).
  match goal with |- bind ?M _ = rmap _ (bind ?N _) => replace M with (rmap (fun r : bool * ext * list ext => let '(b, s', out) := r in (b, xscale c s', map (xscale c) out)) N) end.
  clear EL E0 E1. match goal with |- _ = rmap _ (bind ?N _) => destruct N as [[[b0 s] out]|] end; [|reflexivity]. cbn [rmap bind].
  destruct b0; [|reflexivity]. rewrite map_length. destruct (Z.eqb _ _); [|reflexivity]. cbn [rmap fst snd].
  change (mul (a:=XA) ?u ?v) with (xmul u v). rewrite xscale_factor by auto. reflexivity.
Qed.

Lemma path_ds_flat (h : heap XA) (o : tbobj XA) refindx a zs : o_ray o = false -> hget h (o_z o) = map Fin zs -> sin (a * PI / 180) <> 0 ->
  path_ds (A:=XA) (inputs_of h o) refindx (Fin a)
  = Ok (map Fin (map (fun d => d * (1 / sin (a * PI / 180))) (0 :: diffs (A:=RA) zs))).
Proof.
  intros Hr Hz Hs. unfold path_ds. cbn [inputs_of i_ray i_z]. rewrite Hr, Hz, diffs_X.
  assert (Em : div (a:=XA) (lit (a:=XA) 1) (sinf (a:=XA) (div (a:=XA) (mul (a:=XA) (Fin a) (pif (a:=XA))) (lit (a:=XA) 180)))
               = Fin (1 / sin (a * PI / 180))).
  { xa. cbn [litR]. cbn [xmul xfin1 xdiv]. destruct (Req_EM_T (180 / 1) 0) as [E|_]; [lra|]. cbn [xfin1].
    replace (a * PI / (180 / 1)) with (a * PI / 180) by field. destruct (Req_EM_T (sin (a * PI / 180)) 0); [contradiction|]. f_equal. field. auto. }
  cbv zeta. rewrite Em. f_equal. cbn [map]. f_equal.
  - xa. cbn [litR]. f_equal. field. auto.
  - rewrite !map_map. apply map_ext. intros d. reflexivity.
Qed.

Lemma sin_deg_pos a : 0 < a < 180 -> 0 < sin (a * PI / 180).
Proof. intros H. assert (P := PI_RGT_0). apply sin_gt_0; nra. Qed.

Lemma sin_deg_90 : sin (90 * PI / 180) = 1.
Proof. replace (90 * PI / 180) with (PI / 2) by field. apply sin_PI2. Qed.

Lemma lit1_X : lit (a:=XA) 1 = Fin (1 / 1).
Proof. reflexivity. Qed.

Lemma exp_int_scale_ok zf (x : list (car XA)) (D : list R) c b e f r r0 : 0 < c ->
  exponential_integration (A:=XA) zf x (map Fin (map (fun d => d * c) D)) b e (Fin f) = Ok r ->
  exponential_integration (A:=XA) zf x (map Fin D) b e (Fin f) = Ok r0 ->
  fst r = xscale c (fst r0) /\ snd r = map (xscale c) (snd r0).
Proof.
  intros Hc H H0. assert (E := exp_int_scale zf x D c b e f Hc).
  assert (E2 : Ok r = Ok (xscale c (fst r0), map (xscale c) (snd r0))).
  { transitivity (exponential_integration (A:=XA) zf x (map Fin (map (fun d => d * c) D)) b e (Fin f)); [symmetry; exact H|].
    rewrite E. rewrite H0. reflexivity. }
  injection E2 as ->. split; reflexivity.
Qed.

Definition cosec (a : R) : R := 1 / sin (a * PI / 180).

Lemma cosec_pos a : 0 < a < 180 -> 0 < cosec a.
Proof. intros H. unfold cosec. assert (S := sin_deg_pos a H). apply Rmult_lt_0_compat; [lra|]. apply Rinv_0_lt_compat; auto. Qed.

Lemma flat_90 (D : list R) : map (fun d => d * (1 / sin (90 * PI / 180))) D = D.
Proof. rewrite sin_deg_90. rewrite <- (map_id D) at 2. apply map_ext. intros. field. Qed.

(** C27: over straight (plane-parallel) paths the opacities at elevation [a] are those at 90 degrees
    divided by sin a, infinite and NaN values included. *)
Theorem C27_cosecant db (g : globals XA) (h : heap XA) o fr full o' g' zs : wf h o ->
  execute db g h o = Ok (fr, full, o', g') -> o_ray o = false -> hget h (o_z o) = map Fin zs ->
  forall k k0 j a dr, (k < length (o_angles o))%nat -> (k0 < length (o_angles o))%nat -> (j < length (o_frq o))%nat ->
  nth k (o_angles o) x0 = Fin a -> 0 < a < 180 -> nth k0 (o_angles o) x0 = Fin 90 ->
  let r := nth (k * length (o_frq o) + j) fr dr in let r90 := nth (k0 * length (o_frq o) + j) fr dr in
  r_tauwet r = xmul (r_tauwet r90) (Fin (1 / sin (a * PI / 180))) /\
  r_taudry r = xmul (r_taudry r90) (Fin (1 / sin (a * PI / 180))) /\
  (o_cloudy o = true -> r_tauliq r = xmul (r_tauliq r90) (Fin (1 / sin (a * PI / 180))) /\
                        r_tauice r = xmul (r_tauice r90) (Fin (1 / sin (a * PI / 180)))).
Proof.
  intros W H Hray Hz k k0 j a dr Hk Hk0 Hj Ha Hr H90.
  destruct (execute_cell XA db g h o fr full o' g' W H) as (g1 & e & rho & dryn & wetn & refindx & _ & _ & _ & _ & _ & _ & Hc).
  destruct (Hc k j x0 cell0 dr angle0 Hk Hj) as (ds & es & x & c & Eds & _ & _ & _ & _ & Hcell & Hrow & _).
  destruct (Hc k0 j x0 cell0 dr angle0 Hk0 Hj) as (ds0 & es0 & y & c' & Eds0 & _ & _ & _ & _ & Hcell0 & Hrow0 & _).
  clear Hc. rewrite Ha in Eds. rewrite H90 in Eds0.
  assert (Hs := sin_deg_pos a Hr). assert (Hs90 : 0 < sin (90 * PI / 180)) by (apply sin_deg_pos; lra).
  rewrite (path_ds_flat h o refindx a zs Hray Hz) in Eds by lra. rewrite (path_ds_flat h o refindx 90 zs Hray Hz) in Eds0 by lra.
  rewrite flat_90 in Eds0. injection Eds as <-. injection Eds0 as <-.
  apply run_cell_inv in Hcell. destruct Hcell as (aw & ad & w & d & cc & pl & al & Ea & Ew & Ed & _ & Hcl & _ & _ & _ & _ & _ & R1 & R2 & R3 & R4 & _).
  apply run_cell_inv in Hcell0. destruct Hcell0 as (aw' & ad' & w' & d' & cc' & pl' & al' & Ea' & Ew' & Ed' & _ & Hcl' & _ & _ & _ & _ & _ & R1' & R2' & R3' & R4' & _).
  rewrite Ea in Ea'. injection Ea' as <- <-. rewrite lit1_X in *.
  assert (Hcs := cosec_pos a Hr). cbv zeta. rewrite <- Hrow, <- Hrow0, R1, R2, R3, R4, R1', R2', R3', R4'.
  split; [|split].
  - exact (proj1 (exp_int_scale_ok _ _ (0 :: diffs (A:=RA) zs) _ _ _ _ _ _ Hcs Ew Ew')).
  - exact (proj1 (exp_int_scale_ok _ _ (0 :: diffs (A:=RA) zs) _ _ _ _ _ _ Hcs Ed Ed')).
  - intros Ecl. destruct (Hcl Ecl) as (dens & la & l & ic & D1 & D2 & D3 & D4 & D5 & _ & D6 & _).
    destruct (Hcl' Ecl) as (dens' & la' & l' & ic' & D1' & D2' & D3' & D4' & D5' & _ & D6' & _).
    rewrite D1 in D1'. injection D1' as <-. rewrite D2 in D2'. injection D2' as <-. rewrite D5, D6, D5', D6'. split.
    + exact (proj1 (exp_int_scale_ok _ _ (0 :: diffs (A:=RA) zs) _ _ _ _ _ _ Hcs D3 D3')).
    + exact (proj1 (exp_int_scale_ok _ _ (0 :: diffs (A:=RA) zs) _ _ _ _ _ _ Hcs D4 D4')).
Qed.

(** The same for the columns of water vapour and refractivity that are kept per angle. *)
Theorem C27_cosecant_columns db (g : globals XA) (h : heap XA) o fr full o' g' zs : wf h o ->
  execute db g h o = Ok (fr, full, o', g') -> o_ray o = false -> hget h (o_z o) = map Fin zs ->
  forall k k0 a, (k < length (o_angles o))%nat -> (k0 < length (o_angles o))%nat ->
  nth k (o_angles o) x0 = Fin a -> 0 < a < 180 -> nth k0 (o_angles o) x0 = Fin 90 ->
  let s := nth k full angle0 in let s90 := nth k0 full angle0 in
  an_srho s = xmul (an_srho s90) (Fin (1 / sin (a * PI / 180))) /\
  an_swet s = xmul (an_swet s90) (Fin (1 / sin (a * PI / 180))) /\
  an_sdry s = xmul (an_sdry s90) (Fin (1 / sin (a * PI / 180))).
Proof.
  intros W H Hray Hz k k0 a Hk Hk0 Ha Hr H90. apply execute_inv in H. destruct H as (g1 & r & Hg1 & Hrun & -> & -> & _ & _).
  destruct (run_shape _ _ h o r W Hrun) as [Lr _].
  apply run_all_inv in Hrun. destruct Hrun as (e & rho & dryn & wetn & refindx & Ev & Er & Hm).
  assert (Lo := olds_length h o W).
  pose (dx := (angle0, ([], (x0, x0))) : angle_full XA * (list (cell XA) * (car XA * car XA))).
  assert (HK : forall n, (n < length (o_angles o))%nat -> exists cells sl si rest, 
     run_angle (with_sat g1 (o_sat o)) (inputs_of h o) (o_frq o) e rho dryn wetn refindx (nth n (o_angles o) x0) (cells, (sl, si)) = Ok (nth n (map fst r) angle0, rest)).
  { intros n Hn. assert (Hkr := mapM_nth _ _ r n (x0, ([], (x0, x0))) dx Hm).
    rewrite combine_nth in Hkr by auto. rewrite (olds_nth h o n x0 W Hn) in Hkr.
    assert (Lc : (n < length (combine (o_angles o) (olds_of o)))%nat) by (rewrite combine_length; lia).
    specialize (Hkr Lc). do 4 eexists. rewrite Hkr. rewrite (nth_map_d fst _ _ dx) by lia. f_equal. apply surjective_pairing. }
  destruct (HK k Hk) as (cl & sl & si & rest & E1). destruct (HK k0 Hk0) as (cl' & sl' & si' & rest' & E2). clear HK.
  rewrite Ha in E1. rewrite H90 in E2. cbv zeta.
  generalize dependent (nth k (map fst r) angle0). generalize dependent (nth k0 (map fst r) angle0). intros s90 E2 s E1.
  assert (Hs := sin_deg_pos a Hr). assert (Hs90 : 0 < sin (90 * PI / 180)) by (apply sin_deg_pos; lra).
  unfold run_angle in E1, E2. rewrite (path_ds_flat h o refindx a zs Hray Hz) in E1 by lra.
  rewrite (path_ds_flat h o refindx 90 zs Hray Hz) in E2 by lra. rewrite flat_90 in E2.
  inv_bind E1 u0 U0. injection U0 as <-. inv_bind E1 u1 U1. inv_bind E1 u2 U2. inv_bind E1 u3 U3. inv_bind E1 u4 U4. inv_bind E1 u5 U5.
  inv_bind E2 v0 V0. injection V0 as <-. inv_bind E2 v1 V1. inv_bind E2 v2 V2. inv_bind E2 v3 V3. inv_bind E2 v4 V4. inv_bind E2 v5 V5.
  injection E1 as <- _. injection E2 as <- _. cbn [an_srho an_swet an_sdry].
  assert (Hcs := cosec_pos a Hr). split; [|split].
  - exact (proj1 (exp_int_scale_ok _ _ (0 :: diffs (A:=RA) zs) _ _ _ _ _ _ Hcs U1 V1)).
  - exact (proj1 (exp_int_scale_ok _ _ (0 :: diffs (A:=RA) zs) _ _ _ _ _ _ Hcs U2 V2)).
  - exact (proj1 (exp_int_scale_ok _ _ (0 :: diffs (A:=RA) zs) _ _ _ _ _ _ Hcs U3 V3)).
Qed.

Definition turn {A} (a : car A) (r : row A) : row A :=
  mkRow (r_tbtotal r) (r_tbatm r) (r_tmr r) (r_tmrcld r) (r_tauwet r) (r_taudry r) (r_tauliq r) (r_tauice r) a.

Lemma run_cell_turn (A : Arith) (g : globals A) i e ds a b frq es old x c :
  run_cell g i e ds a frq es old = Ok (x, c) ->
  exists y, run_cell g i e ds b frq es old = Ok (y, c) /\ f_row y = turn b (f_row x).
Proof.
  intros H. unfold run_cell in *. inv_bind H s Es. destruct s as [awet adry]. inv_bind H w Ew. inv_bind H d Ed. inv_bind H cc Ec1.
  inv_bind H pl Epl. inv_bind H cd Ec2. inv_bind H al Eal. injection H as <- <-.
  rewrite Es. cbn [bind]. rewrite Ew. cbn [bind]. rewrite Ed. cbn [bind]. rewrite Ec1. cbn [bind]. rewrite Epl. cbn [bind]. rewrite Ec2. cbn [bind]. rewrite Eal. cbn [bind].
  eexists. split; reflexivity.
Qed.

(** Looking at elevation [a] or at [180 - a] gives the same row, the angle column apart. *)
Theorem C27_supplement db (g : globals XA) (h : heap XA) o fr full o' g' zs : wf h o ->
  execute db g h o = Ok (fr, full, o', g') -> o_ray o = false -> hget h (o_z o) = map Fin zs ->
  forall k k0 j a dr, (k < length (o_angles o))%nat -> (k0 < length (o_angles o))%nat -> (j < length (o_frq o))%nat ->
  nth k (o_angles o) x0 = Fin a -> 0 < a < 180 -> nth k0 (o_angles o) x0 = Fin (180 - a) ->
  o_cloudy o = true \/ nth j (nth k (o_cells o) []) cell0 = nth j (nth k0 (o_cells o) []) cell0 ->
  let r := nth (k * length (o_frq o) + j) fr dr in let r' := nth (k0 * length (o_frq o) + j) fr dr in
  r' = mkRow (r_tbtotal r) (r_tbatm r) (r_tmr r) (r_tmrcld r) (r_tauwet r) (r_taudry r) (r_tauliq r) (r_tauice r) (r_angle r').
Proof.
  intros W H Hray Hz k k0 j a dr Hk Hk0 Hj Ha Hr H90 Hold.
  destruct (execute_cell XA db g h o fr full o' g' W H) as (g1 & e & rho & dryn & wetn & refindx & _ & _ & _ & _ & _ & _ & Hc).
  destruct (Hc k j x0 cell0 dr angle0 Hk Hj) as (ds & es & x & c & Eds & _ & Ees & _ & _ & Hcell & Hrow & _).
  destruct (Hc k0 j x0 cell0 dr angle0 Hk0 Hj) as (ds0 & es0 & y & c' & Eds0 & _ & Ees0 & _ & _ & Hcell0 & Hrow0 & _).
  clear Hc. rewrite Ha in Eds. rewrite H90 in Eds0. rewrite Ees in Ees0. injection Ees0 as <-.
  assert (Hs := sin_deg_pos a Hr). assert (Hsin : sin ((180 - a) * PI / 180) = sin (a * PI / 180)).
  { replace ((180 - a) * PI / 180) with (PI - a * PI / 180) by field. rewrite sin_minus, sin_PI, cos_PI. ring. }
  rewrite (path_ds_flat h o refindx a zs Hray Hz) in Eds by lra.
  rewrite (path_ds_flat h o refindx (180 - a) zs Hray Hz) in Eds0 by (rewrite Hsin; lra).
  rewrite Hsin in Eds0. rewrite Eds in Eds0. injection Eds0 as <-.
  assert (Hcell1 : run_cell (with_sat g1 (o_sat o)) (inputs_of h o) e ds (nth k (o_angles o) x0) (nth j (o_frq o) x0) es
            (nth j (nth k0 (o_cells o) []) cell0) = Ok (x, c)).
  { destruct Hold as [Hold|Hold]; [|rewrite <- Hold; exact Hcell]. etransitivity; [|exact Hcell]. apply run_cell_cloudy_indep. exact Hold. }
  destruct (run_cell_turn XA _ _ _ _ _ (nth k0 (o_angles o) x0) _ _ _ _ _ Hcell1) as (y' & Hy & Erow).
  rewrite Hcell0 in Hy. injection Hy as <- _. cbv zeta. rewrite <- Hrow, <- Hrow0. rewrite Erow. reflexivity.
Qed.

(** ** C23: a cloud without water *)

Lemma lit0_X : lit (a:=XA) 0 = Fin 0.
Proof. xa. cbn [litR]. f_equal. lra. Qed.

Lemma cloudy_zero mliq (t dl di : list (car XA)) f la :
  (forall v, In v dl -> exists d, v = Fin d /\ d <= 0) -> (forall v, In v di -> exists d, v = Fin d /\ d <= 0) ->
  length dl = length t -> length di = length t ->
  cloudy_absorption (A:=XA) mliq t dl di f = Ok la -> la = (map Fin (repeat 0 (length t)), map Fin (repeat 0 (length t))).
Proof.
  intros Hl Hi Ll Li H. unfold cloudy_absorption in H. inv_bind H r Er. injection H as <-.
  assert (E : r = map (fun _ => (Fin 0, Fin 0)) (combine t (combine dl di))).
  { apply mapM_Forall2 in Er. 
    assert (Hin : forall t0 l0 i0, In (t0, (l0, i0)) (combine t (combine dl di)) -> In l0 dl /\ In i0 di).
    { intros t0 l0 i0 Hin. apply in_combine_r in Hin. split; [eapply in_combine_l|eapply in_combine_r]; eauto. }
    revert Hin. induction Er as [|[t0 [l0 i0]] y l l' Hy Er IH]; intros Hin; [reflexivity|]. cbn [map].
    destruct (Hin t0 l0 i0 (or_introl eq_refl)) as [Hl0 Hi0]. rewrite <- IH by (intros; apply (Hin t1); right; auto). f_equal.
    destruct (Hl _ Hl0) as (d1 & -> & D1). destruct (Hi _ Hi0) as (d2 & -> & D2).
    unfold cloudy_level in Hy. change (ltb (a:=XA) (lit (a:=XA) 0) (Fin d1)) with (Rltb (0 / 1) d1) in Hy.
    change (ltb (a:=XA) (lit (a:=XA) 0) (Fin d2)) with (Rltb (0 / 1) d2) in Hy.
    rewrite !Rltb_false in Hy by lra. cbn [bind] in Hy. rewrite !lit0_X in Hy. injection Hy as <-. reflexivity. }
  subst r. rewrite !map_map. cbn [fst snd].
  assert (EE : map (fun _ : car XA * (car XA * car XA) => Fin 0) (combine t (combine dl di)) = map Fin (repeat 0 (length t))).
  { assert (Lc : length (combine t (combine dl di)) = length t) by (rewrite !combine_length; lia). rewrite <- Lc.
    generalize (combine t (combine dl di)). intros l. induction l as [|y l IH]; [reflexivity|]. cbn. f_equal. exact IH. }
  rewrite EE. reflexivity.
Qed.

Lemma exp_int_zero (D : list R) n : n <> 0%nat -> length D = n ->
  exponential_integration (A:=XA) false (map Fin (repeat 0 n)) (map Fin D) 1 (Z.of_nat n) (lit (a:=XA) 1)
  = Ok (Fin 0, map Fin (repeat 0 n)).
Proof.
  intros Hn L.
  assert (Z0 : forall i, nth i (repeat 0 n) 0 = 0).
  { intros i. destruct (Nat.lt_ge_cases i n); [apply nth_repeat|]. apply nth_overflow. rewrite repeat_length. auto. }
  assert (P0 : forall i, prevx (repeat 0 n) i = 0).
  { intros i. unfold prevx. destruct (Nat.eqb _ _); rewrite Z0; reflexivity. }
  assert (V0 : forall i, layV false (repeat 0 n) D i = 0).
  { intros i. unfold layV. rewrite P0, Z0. unfold layR. replace (0 - 0) with 0 by lra. rewrite Rabs_R0. destruct (Rlt_dec 0 1e-9); lra. }
  destruct (exp_complete false (repeat 0 n) D 1 (1 / 1)) as (out & Lo & Ho & E).
  - rewrite repeat_length. lia.
  - lia.
  - intros i _. unfold layer_ok. rewrite P0, Z0. lra.
  - rewrite L in E. rewrite lit1_X. change 1%Z with (Z.of_nat 1). etransitivity; [exact E|]. f_equal. f_equal.
    + f_equal. rewrite rsum_zero by (intros; apply V0). lra.
    + f_equal. apply (List.nth_ext _ _ 0 0); [rewrite repeat_length; lia|].
      intros i _. rewrite Ho, Z0. destruct (_ && _)%bool; [apply V0|reflexivity].
Qed.

Definition finite_paths (h : heap XA) (o : tbobj XA) : Prop :=
  forall refindx a ds, In a (o_angles o) -> path_ds (A:=XA) (inputs_of h o) refindx a = Ok ds -> exists D, ds = map Fin D.

(** Plane-parallel paths at elevations strictly between 0 and 180 degrees are finite. *)
Lemma flat_finite (h : heap XA) (o : tbobj XA) zs : o_ray o = false -> hget h (o_z o) = map Fin zs ->
  (forall a, In a (o_angles o) -> exists x, a = Fin x /\ 0 < x < 180) -> finite_paths h o.
Proof.
  intros Hr Hz Ha refindx a ds Hin H. destruct (Ha a Hin) as (x & -> & Hx). assert (Hs := sin_deg_pos x Hx).
  rewrite (path_ds_flat h o refindx x zs Hr Hz) in H by lra. injection H as <-. 
  exists (map (fun d => d * (1 / sin (x * PI / 180))) (0 :: diffs (A:=RA) zs)). reflexivity.
Qed.

(** [o] was constructed and never run. *)
Definition never_run (o : tbobj XA) : Prop := forall cs c, In cs (o_cells o) -> In c cs -> c = zero_cell (A:=XA) (o_nl o).

(** Two runs of one solver, with the cloudy switch on and densities nowhere above zero, and with the switch off,
    give the same table, the column of the cloud temperature apart. *)
Theorem C23_no_water db (g : globals XA) (h : heap XA) (o : tbobj XA) di dl fr full o' g' fr0 full0 o0' g0' : wf h o -> never_run o ->
  o_cloudy o = true -> o_dens o = Some (di, dl) ->
  (forall v, In v (hget h dl) -> exists d, v = Fin d /\ d <= 0) -> (forall v, In v (hget h di) -> exists d, v = Fin d /\ d <= 0) ->
  finite_paths h o ->
  execute db g h o = Ok (fr, full, o', g') -> execute db g h (with_cloudy o false) = Ok (fr0, full0, o0', g0') ->
  forall k j dr, (k < length (o_angles o))%nat -> (j < length (o_frq o))%nat ->
  let r := nth (k * length (o_frq o) + j) fr dr in let r0 := nth (k * length (o_frq o) + j) fr0 dr in
  r_tbtotal r = r_tbtotal r0 /\ r_tbatm r = r_tbatm r0 /\ r_tmr r = r_tmr r0 /\ r_tauwet r = r_tauwet r0 /\ r_taudry r = r_taudry r0 /\
  r_tauliq r = Fin 0 /\ r_tauliq r0 = Fin 0 /\ r_tauice r = Fin 0 /\ r_tauice r0 = Fin 0 /\ r_angle r = r_angle r0.
Proof.
  intros W Hnew Hc Hd Hl Hi Hfin H H0 k j dr Hk Hj.
  assert (W0 : wf h (with_cloudy o false)) by (destruct W; constructor; auto).
  destruct (execute_cell XA db g h o fr full o' g' W H) as (g1 & e & rho & dryn & wetn & refindx & Eg & Ev & Er & _ & _ & _ & HC).
  destruct (execute_cell XA db g h _ fr0 full0 o0' g0' W0 H0) as (g2 & e2 & rho2 & dryn2 & wetn2 & refindx2 & Eg2 & Ev2 & Er2 & _ & _ & _ & HC0).
  rewrite Eg in Eg2. injection Eg2 as <-.
  change (hget h (o_tk (with_cloudy o false))) with (hget h (o_tk o)) in *. change (hget h (o_rh (with_cloudy o false))) with (hget h (o_rh o)) in *.
  change (hget h (o_p (with_cloudy o false))) with (hget h (o_p o)) in *. change (o_ice (with_cloudy o false)) with (o_ice o) in *.
  rewrite Ev in Ev2. injection Ev2 as <- <-. rewrite Er in Er2. injection Er2 as <- <- <-.
  destruct (HC k j x0 cell0 dr angle0 Hk Hj) as (ds & es & x & c & Eds & Lds & Ees & Hin1 & Hin2 & Hcell & Hrow & _).
  destruct (HC0 k j x0 cell0 dr angle0 Hk Hj) as (ds0 & es0 & y & c' & Eds0 & _ & Ees0 & _ & _ & Hcell0 & Hrow0 & _). clear HC HC0.
  change (o_angles (with_cloudy o false)) with (o_angles o) in *. change (o_frq (with_cloudy o false)) with (o_frq o) in *.
  change (o_es (with_cloudy o false)) with (o_es o) in *. change (o_cells (with_cloudy o false)) with (o_cells o) in *.
  change (o_sat (with_cloudy o false)) with (o_sat o) in *.
  assert (P : path_ds (A:=XA) (inputs_of h (with_cloudy o false)) refindx (nth k (o_angles o) x0) = path_ds (A:=XA) (inputs_of h o) refindx (nth k (o_angles o) x0)) by reflexivity.
  rewrite P, Eds in Eds0. injection Eds0 as <-. rewrite Ees in Ees0. injection Ees0 as <-.
  assert (Eold := Hnew _ _ Hin1 Hin2). rewrite Eold in Hcell, Hcell0.
  destruct (Hfin refindx (nth k (o_angles o) x0) ds) as [D ->]; [apply nth_In; auto|exact Eds|]. rewrite map_length in Lds.
  apply run_cell_inv in Hcell. destruct Hcell as (aw & ad & w & d & cc & pl & al & Ea & Ew & Ed & _ & Hcl & Epl & Eal & Q1 & Q2 & Q3 & R1 & R2 & R3 & R4 & R5 & _).
  apply run_cell_inv in Hcell0. destruct Hcell0 as (aw' & ad' & w' & d' & cc' & pl' & al' & Ea' & Ew' & Ed' & Hcl' & _ & Epl' & Eal' & Q1' & Q2' & Q3' & R1' & R2' & R3' & R4' & R5' & _).
  specialize (Hcl' eq_refl). subst cc'.
  assert (Ea2 : Ok (aw, ad) = Ok (aw', ad')) by (rewrite <- Ea, <- Ea'; reflexivity). injection Ea2 as <- <-.
  assert (Ew2 : Ok w = Ok w') by (rewrite <- Ew, <- Ew'; reflexivity). injection Ew2 as <-.
  assert (Ed2 : Ok d = Ok d') by (rewrite <- Ed, <- Ed'; reflexivity). injection Ed2 as <-.
  destruct (Hcl Hc) as (dens & la & l & ic & D1 & D2 & D3 & D4 & D5 & D6 & D7 & D8).
  cbn [inputs_of i_dens] in D1. rewrite Hd in D1. injection D1 as <-. cbn [fst snd] in D2.
  destruct (wf_dens _ _ W di dl Hd) as [Ldi Ldl].
  change (i_tk (inputs_of h o)) with (hget h (o_tk o)) in D2.
  apply cloudy_zero in D2; auto; [|rewrite (wf_tk _ _ W); auto|rewrite (wf_tk _ _ W); auto].
  subst la. cbn [fst snd] in D3, D4. rewrite (wf_tk _ _ W) in D3, D4. change (i_nl (inputs_of h o)) with (o_nl o) in D3, D4.
  assert (EZ := exp_int_zero D (o_nl o) (wf_nl _ _ W) Lds). rewrite EZ in D3, D4. injection D3 as <-. injection D4 as <-.
  cbn [fst snd] in D5, D6, D7, D8.
  assert (RZ : repeat (lit (a:=XA) 0) (o_nl o) = map Fin (repeat 0 (o_nl o))).
  { rewrite lit0_X. generalize (o_nl o). induction n as [|n IH]; [reflexivity|]. cbn. f_equal. exact IH. }
  assert (Epl2 : Ok pl = Ok pl').
  { rewrite <- Epl, <- Epl'. rewrite D6, D8. cbn [zero_cell c_ptauice c_ptauliq]. rewrite RZ. reflexivity. }
  injection Epl2 as <-. assert (Eal2 : Ok al = Ok al') by (rewrite <- Eal, <- Eal'; reflexivity). injection Eal2 as <-.
  cbv zeta. rewrite <- Hrow, <- Hrow0. rewrite Q1, Q2, Q3, R1, R2, R3, R4, R5, Q1', Q2', Q3', R1', R2', R3', R4', R5', D5, D7.
  cbn [zero_cell c_sptauliq c_sptauice]. rewrite lit0_X. repeat split; reflexivity.
Qed.
