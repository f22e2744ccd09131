(** Claims C63 and C90: weighting functions are defined for every physical profile, and the transmittance they contain. *)

From Coq Require Import ZArith Reals Lra Lia String List Bool.
Import ListNotations.
From Verif Require Import Arith PyBase Utils RTE Absorption Clear Spectrum Spec ListAux RealAux SolverGen SolverRun Registry PropsRun PropsHistory PropsObject
  PropsModels PropsSolverX Integral PropsRay PropsAbsN2 PropsLiq PropsClear PropsO2H2O Lineshape PropsO2Data PropsH2O Weighting WeightingGen PropsWeighting SolverExamples.
Local Open Scope string_scope.
Local Open Scope R_scope.

(** ** The layers of a profile of positive absorption coefficients *)

Lemma exp_layer_pos zf a b : 0 < a -> 0 < b -> 0 < exp_layer (A:=RA) zf a b.
Proof.
  intros Ha Hb. unfold exp_layer. ra. unfold Rltb, Reqb.
  destruct (Rlt_dec (Rabs (b - a)) _); [exact Hb|].
  destruct (Req_EM_T a _); [exfalso; lra|]. destruct (Req_EM_T b _); [exfalso; lra|]. cbn [orb].
  assert (Hne : a <> b). { intros ->. apply n. rewrite Rminus_diag_eq, Rabs_R0 by auto. lra. }
  destruct (Rlt_le_dec a b) as [L|L].
  - apply div_pos; [lra|]. rewrite <- ln_1. apply ln_increasing; [lra|].
    apply Rmult_lt_reg_r with a; [auto|]. unfold Rdiv. rewrite Rmult_assoc, Rinv_l by lra. lra.
  - assert (Q : 0 < (a - b) / - ln (b / a)).
    { apply div_pos; [lra|]. assert (E : ln (b / a) < ln 1).
      { apply ln_increasing; [apply div_pos; auto|]. apply Rmult_lt_reg_r with a; [auto|]. unfold Rdiv. rewrite Rmult_assoc, Rinv_l by lra. lra. }
      rewrite ln_1 in E. lra. }
    assert (N : ln (b / a) <> 0).
    { intros E. rewrite E in Q. rewrite Ropp_0 in Q. unfold Rdiv in Q. rewrite Rinv_0 in Q. lra. }
    replace ((b - a) / ln (b / a)) with ((a - b) / - ln (b / a)) by (field; auto). exact Q.
Qed.

Lemma py_set_nth {T} (l : list T) i v l' : (0 <= i)%Z -> py_set l i v = Ok l' -> l' = upd l (Z.to_nat i) v /\ (Z.to_nat i < length l)%nat.
Proof.
  intros Hi. unfold py_set, py_pos.
  destruct (Z.leb_spec 0 i); [|lia]. destruct (Z.ltb_spec i (Z.of_nat (length l))); cbn [andb].
  - intros H1. inversion H1. split; [reflexivity|lia].
  - destruct (Z.leb_spec (- Z.of_nat (length l)) i); destruct (Z.ltb_spec i 0); cbn [andb]; try lia; discriminate.
Qed.

Lemma exp_loop_pos zf (x ds : list R) : (forall v, In v x -> 0 < v) -> forall is s xds c s' out,
  (forall i d, In i is -> (1 <= i)%Z /\ (py_get ds i = Ok d -> 0 < d)) ->
  exp_loop (A:=RA) zf x ds is s xds = Ok (c, s', out) ->
  c = true /\ nth 0 out 0 = nth 0 xds 0 /\ forall k, (In (Z.of_nat k) is \/ 0 < nth k xds 0) -> 0 < nth k out 0.
Proof.
  intros Hx. induction is as [|i is IH]; intros s xds c s' out His H.
  { inversion H; subst. split; [auto|]. split; [auto|]. intros k [[]|Hk]; exact Hk. }
  cbn [exp_loop] in H. inv_bind H xp Exp. inv_bind H xi Exi.
  assert (P1 := Hx _ (py_get_In _ _ _ Exp)). assert (P2 := Hx _ (py_get_In _ _ _ Exi)).
  assert (E : (ltb (a:=RA) xp (lit 0.0) || ltb (a:=RA) xi (lit 0.0))%bool = false).
  { ra. unfold Rltb. change (car RA) with R in *. replace (0 / 10) with 0 by lra. destruct (Rlt_dec xp 0); [lra|]. destruct (Rlt_dec xi 0); [lra|]. reflexivity. }
  rewrite E in H. inv_bind H d Ed. inv_bind H xds' Es.
  destruct (His i d (or_introl eq_refl)) as [Hi Hd]. specialize (Hd Ed).
  destruct (py_set_nth _ i _ _ ltac:(lia) Es) as [-> Hlt].
  destruct (IH _ _ _ _ _ ltac:(intros; apply His; right; auto) H) as (-> & H0 & Hk). split; [reflexivity|].
  split; [rewrite H0; apply nth_upd_ne; change (car RA) with R in *; lia|]. intros k Hk'. apply Hk.
  destruct (Z.eq_dec (Z.of_nat k) i) as [<-|N].
  - right. rewrite Nat2Z.id in *. rewrite nth_upd_eq by auto. apply Rmult_lt_0_compat; auto. apply exp_layer_pos; auto.
  - destruct Hk' as [[Hk'|Hk']|Hk']; [congruence|left; exact Hk'|]. right. rewrite nth_upd_ne; [exact Hk'|]. intros Q. apply N. subst k. lia.
Qed.

Lemma exp_int_pos zf (x ds : list R) f s out : (forall v, In v x -> 0 < v) -> (forall k, (1 <= k < length ds)%nat -> 0 < nth k ds 0) ->
  exponential_integration (A:=RA) zf x ds 1 (Z.of_nat (length ds)) f = Ok (s, out) ->
  nth 0 out 0 = 0 /\ forall k, (1 <= k < length ds)%nat -> 0 < nth k out 0.
Proof.
  intros Hx Hd H. unfold exponential_integration in H. inv_bind H r Er. destruct r as [[c s'] o].
  assert (P := fun Q => exp_loop_pos zf x ds Hx _ _ _ _ _ _ Q Er). destruct P as (-> & H0 & Hk).
  { intros i d Hi. unfold zrange in Hi. apply in_map_iff in Hi. destruct Hi as (k & <- & Hk). apply in_seq in Hk.
    split; [lia|]. intros Q. replace (1 + Z.of_nat k)%Z with (Z.of_nat (S k)) in Q by lia.
    rewrite (py_get_ok _ _ 0) in Q by lia. inversion Q. apply Hd. lia. }
  destruct (Z.eqb _ _); [|discriminate]. injection H as _ ->. split.
  - rewrite H0. destruct ds; [reflexivity|]. cbn. ra. lra.
  - intros k Hk'. apply Hk. left. apply in_map_iff. exists (k - 1)%nat. split; [lia|]. apply in_seq. lia.
Qed.

(** ** Success for every physical profile *)

(** The profiles are separate arrays; the water vapour pressure is that of the relative humidity. *)
Record physical (h : heap RA) (w : wfobj RA) : Prop := mkPhysical {
  ph_ok : wfo h w;
  ph_up : growing (hget h (w_z w));
  ph_sep : w_p w <> w_z w /\ w_t w <> w_z w /\ w_rh w <> w_z w;
  ph_phys : forall k, (k < length (hget h (w_z w)))%nat ->
     phys (nth k (hget h (w_p w)) 0) (nth k (hget h (w_t w)) 0) (nth k (hget h (w_rh w)) 0 * vapor_es (A:=RA) (nth k (hget h (w_t w)) 0)) }.

Lemma refractivity1_R p t e : t <> 0 ->
  snd (refractivity1 (A:=RA) p t e) = 1 + (thayer_dry p t e + thayer_wet t e) * 1e-6.
Proof. intros Ht. unfold refractivity1, thayer_dry, thayer_wet. ra. cbn [snd]. lra. Qed.

(** The class state in which the run of [generate_wf] is made. *)
Lemma wf_linelist db (g : globals RA) m : registered db -> In m runnable ->
  exists ll ll2, db_o2 db last_oxygen = Some ll2 /\
  exists g2, set_ll_o2 db (with_o2 (init_absmdl g m) last_oxygen) = Ok g2 /\
  init_linelist db g2 = Ok (mkGlobals (Some m) (Some last_oxygen) (Some m) (Some m) (g_o3 g) (Some ll) (Some ll2) (g_o3ll g) (g_from_sat g) (g_es g)).
Proof.
  intros R Hm. apply runnable_spec in Hm. destruct Hm as [Hh _]. destruct (R m) as (R1 & _ & _). destruct (R last_oxygen) as (_ & R2 & _).
  assert (Ho : In last_oxygen o2_names) by (unfold last_oxygen, o2_names; simpl; auto 20).
  destruct (db_h2o db m) as [ll|] eqn:E1; [|exfalso; apply R1; auto].
  destruct (db_o2 db last_oxygen) as [ll2|] eqn:E2; [|exfalso; apply R2; auto].
  exists ll, ll2. split; [reflexivity|]. eexists. split.
  - unfold set_ll_o2. cbn [with_o2 g_o2]. rewrite E2. cbn [bind]. reflexivity.
  - unfold init_linelist, set_ll_h2o. cbn [with_o2ll with_o2 init_absmdl g_h2o]. rewrite E1. cbn [bind].
    unfold set_ll_o2. cbn [with_h2oll with_o2ll with_o2 init_absmdl g_o2]. rewrite E2. reflexivity.
Qed.

Lemma truthy_growing (z : list R) : growing z -> all_truthy (A:=RA) (diffs (A:=RA) z) = true.
Proof.
  induction z as [|a z IH]; intros G; [reflexivity|]. destruct z as [|b z]; [reflexivity|].
  cbn [diffs all_truthy forallb]. apply andb_true_intro. split.
  - ra. unfold Reqb. assert (Q := G 0%nat ltac:(simpl; lia)). simpl in Q. destruct (Req_EM_T (b - a) _); [lra|reflexivity].
  - apply IH. intros i Hi. apply (G (S i)). simpl in *. lia.
Qed.

Theorem C63_defined db (g : globals RA) h (w : wfobj RA) frq ev : registered db -> physical h w -> near_zenith (w_angle w) ->
  w_frq w = Some frq -> w_es w = VFloat ev -> In (w_model w) runnable -> (forall f, In f frq -> freq_ok (A:=RA) f) ->
  exists h' wgt g', generate_wf db g h w = (h', Ok (wgt, g')).
Proof.
  intros Rg [K G (Sp & St & Sr) Ph] Hz Hf He Hm Hfr.
  destruct (hget h (w_z w)) as [|z0 zs] eqn:Ez; [destruct (wk_z _ _ K); auto|].
  assert (V : (w_z w < length h)%nat) by (apply hget_valid; rewrite Ez; discriminate). 
  assert (Hget : forall a, a <> w_z w -> length (hget h a) = length (hget h (w_z w)) -> hget (wheap h w z0 (length frq) ev) a = hget h a).
  { intros a Ha La. rewrite wheap_get; [apply hget_set_ne; auto|]. apply hget_valid. intros Q. rewrite Q, Ez in La. discriminate. }
  destruct (wf_linelist db g (w_model w) Rg Hm) as (ll & ll2 & Eo2 & g2 & Eg2 & Ell).
  assert (W := wobj_wf h w z0 frq ev K).
  destruct (execute_ok db g2 _ _ _ W ltac:(intros Q; discriminate) eq_refl Ell) as [[[[fr full] o'] g3] Ex].
  - intros a e rho dn wn rx [<-|[]] Ev Er Lr. cbn [wobj o_tk o_rh o_p o_nl] in Ev, Er, Lr.
    rewrite !Hget in Ev, Er by (auto; apply K).
    unfold path_ds. cbn [inputs_of i_ray wobj o_ray i_z o_z i_z0 o_z0].
    assert (Hidx : existsb (fun n => ltb (a:=RA) n (lit 1)) rx = false).
    { destruct (existsb _ rx) eqn:E; [|reflexivity]. exfalso. apply existsb_exists in E. destruct E as (n & Hn & Hlt).
      unfold vapor in Ev. injection Ev as <- <-. unfold refractivity in Er. injection Er as _ _ <-.
      apply in_map_iff in Hn. destruct Hn as (y & <- & Hn). apply in_map_iff in Hn. destruct Hn as ([p0 [t0 e0]] & <- & Hn).
      apply (In_nth _ _ (0, (0, 0))) in Hn. destruct Hn as (k & Hk & E).
      assert (L1 := wk_p _ _ K). assert (L2 := wk_t _ _ K). assert (L3 := wk_rh _ _ K). rewrite Ez in L1, L2, L3.
      rewrite !combine_length, !map_length, !combine_length in Hk.
      change (car RA) with R in *.
      rewrite combine_nth in E by (rewrite combine_length, !map_length, combine_length; lia).
      rewrite combine_nth in E by (rewrite !map_length, combine_length; lia).
      injection E as Ep Et Ee. rewrite map_map in Ee.
      rewrite (nth_map_d _ _ _ (0, 0)) in Ee by (rewrite combine_length; lia). rewrite combine_nth in Ee by lia.
      cbn [vapor1 fst] in Ee.
      assert (P := Ph k ltac:(lia)). change (mul (a:=RA)) with Rmult in Ee. rewrite Ee, Et, Ep in P.
      destruct (thayer_pos _ _ _ P) as (T1 & T2 & T3). destruct P as (P1 & _).
      rewrite refractivity1_R in Hlt by lra. ra. unfold Rltb in Hlt. destruct (Rlt_dec _ _) in Hlt; [lra|discriminate]. }
    unfold ray_tracing. rewrite Hidx. 
    assert (Lz : length (hget (wheap h w z0 (length frq) ev) (w_z w)) = length (hget h (w_z w))) by (rewrite wheap_get by auto; rewrite hget_set_eq by auto; apply map_length).
    destruct (combine _ _) as [|[zf nf] rest] eqn:Ec.
    { exfalso. assert (Lc := f_equal (@length _) Ec). rewrite combine_length, Lz, Lr, Ez in Lc. cbn in Lc. discriminate. }
    assert (B : (leb (a:=RA) (lit 89) (w_angle w) && leb (a:=RA) (w_angle w) (lit 91)
      || leb (a:=RA) (opp (lit 91)) (w_angle w) && leb (a:=RA) (w_angle w) (opp (lit 89)))%bool = true).
    { ra. apply orb_true_iff. destruct Hz as [Hz|Hz]; [left|right]; apply andb_true_iff; split; apply Rleb_true; lra. }
    rewrite B. cbn [bind]. eauto.
  - intros f e Hin He'. eapply (clearsky_ok _ _ (w_model w) ll ll2); eauto; try reflexivity.
  - intros f di dl Q. discriminate.
  - assert (Hp : perform db g h w = (wheap h w z0 (length frq) ev, Ok (full, g3))).
    { rewrite (perform_eq db g h w frq ev z0 zs Hf He Ez). rewrite Ez, (truthy_growing _ G), Eg2. cbn [bind]. rewrite Ex. reflexivity. }
    destruct (perform_rows db g h w frq ev _ full g3 K Hf He Hp) as (af & -> & _).
    exists (wheap h w z0 (length frq) ev). unfold generate_wf. rewrite Hp.
    rewrite wheap_get by auto. rewrite hget_set_eq by auto. rewrite Ez.
    set (zz := map _ (z0 :: zs)). 
    assert (Hget0 : exists x, py_get zz (if w_sat w then -1 else 0)%Z = Ok x).
    { unfold zz, py_get, py_pos. rewrite map_length. cbn [length]. destruct (w_sat w).
      - replace (andb (0 <=? -1)%Z (-1 <? Z.of_nat (S (length zs)))%Z) with false by reflexivity.
        replace (andb (- Z.of_nat (S (length zs)) <=? -1)%Z (-1 <? 0)%Z) with true by (symmetry; apply andb_true_intro; split; [apply Z.leb_le; lia|reflexivity]).
        destruct (nth_error _ _) eqn:Q; [eauto|]. apply nth_error_None in Q. rewrite map_length in Q. cbn [length] in Q. lia.
      - replace (andb (0 <=? 0)%Z (0 <? Z.of_nat (S (length zs)))%Z) with true by (symmetry; apply andb_true_intro; split; [reflexivity|apply Z.ltb_lt; lia]).
        cbn. eauto. }
    destruct Hget0 as [x ->]. cbn [bind]. unfold np_argmin, np_arg, zz. cbn [map bind]. 
    change (py_get [af] 0) with (@Ok (angle_full RA) af). cbn [bind]. eauto.
Qed.

(** ** C90: the weight of a level is its absorption times the transmittance between that level and the sensor *)

(** Opacity between levels [a] and [b >= a], layer [i] being the one between levels [i-1] and [i]. *)
Definition between (t : nat -> R) (a b : nat) : R := rsum (b - a) (fun i => t (S (a + i))).

Lemma exp_loop_head zf (x ds : list R) : forall is s xds c s' out, (forall i, In i is -> (1 <= i)%Z) ->
  exp_loop (A:=RA) zf x ds is s xds = Ok (c, s', out) -> nth 0 out 0 = nth 0 xds 0.
Proof.
  induction is as [|i is IH]; intros s xds c s' out His H; [inversion H; subst; auto|].
  cbn [exp_loop] in H. inv_bind H xp Exp. inv_bind H xi Exi.
  destruct (orb _ _); [inversion H; subst; auto|]. inv_bind H d Ed. inv_bind H xds' Es.
  assert (Hi := His i (or_introl eq_refl)).
  destruct (py_set_nth _ i _ _ ltac:(lia) Es) as [-> Hlt].
  rewrite (IH _ _ _ _ _ ltac:(intros; apply His; right; auto) H). apply nth_upd_ne. lia.
Qed.

Lemma exp_int_head zf (x ds : list R) n f s out :
  exponential_integration (A:=RA) zf x ds 1 n f = Ok (s, out) -> nth 0 out 0 = 0.
Proof.
  intros H. unfold exponential_integration in H. inv_bind H r Er. destruct r as [[c s'] o].
  assert (P := fun Q => exp_loop_head zf x ds _ _ _ _ _ _ Q Er).
  assert (E : nth 0 o 0 = 0).
  { rewrite P.
    - destruct ds; [reflexivity|]. cbn. ra. lra.
    - intros i Hi. unfold zrange in Hi. apply in_map_iff in Hi. destruct Hi as (k & <- & _). lia. }
  destruct c; [destruct (Z.eqb _ _); [|discriminate]|]; inversion H; subst; exact E.
Qed.

(** What the rows of the run contain. *)
Lemma wf_cell db (g : globals RA) h (w : wfobj RA) frq ev h' af g' : wfo h w ->
  w_frq w = Some frq -> w_es w = VFloat ev -> perform db g h w = (h', Ok ([af], g')) ->
  exists z0 zs g2 g1 e rho dn wn rx, hget h (w_z w) = z0 :: zs /\ h' = wheap h w z0 (length frq) ev /\
    set_ll_o2 db (with_o2 (init_absmdl g (w_model w)) last_oxygen) = Ok g2 /\ init_linelist db g2 = Ok g1 /\
    vapor (hget h' (w_t w)) (hget h' (w_rh w)) false = Ok (e, rho) /\ length e = length (hget h (w_z w)) /\
    refractivity (hget h' (w_p w)) (hget h' (w_t w)) e = (dn, wn, rx) /\
    forall j r, nth_error (an_rows af) j = Some r -> (j < length frq)%nat /\
      exists ds sw sd, path_ds (inputs_of h' (wobj h w z0 frq)) rx (w_angle w) = Ok ds /\ length ds = length (hget h (w_z w)) /\
        clearsky_absorption (with_sat g1 (w_sat w)) None (hget h' (w_p w)) (hget h' (w_t w)) e (nth j frq 0) None = Ok (f_awet r, f_adry r) /\
        exponential_integration true (f_awet r) ds 1 (Z.of_nat (length (hget h (w_z w)))) (lit 1) = Ok (sw, f_ptauwet r) /\
        exponential_integration true (f_adry r) ds 1 (Z.of_nat (length (hget h (w_z w)))) (lit 1) = Ok (sd, f_ptaudry r).
Proof.
  intros K Hf He H.
  destruct (perform_rows db g h w frq ev h' _ g' K Hf He H) as (af' & Eaf & L & Hfr & z0 & zs & Ez & Eh). injection Eaf as <-.
  rewrite (perform_eq db g h w frq ev z0 zs Hf He Ez) in H. destruct (all_truthy _); [|discriminate]. injection H as _ H.
  inv_bind H g2 Eg. inv_bind H x Ex. destruct x as [[[fr fu] o'] g3]. inversion H; subst fu g3. clear H.
  assert (W := wobj_wf h w z0 frq ev K).
  destruct (execute_cell RA db g2 _ _ _ _ _ _ W Ex) as (g1 & e & rho & dn & wn & rx & Hg1 & Hv & Href & Le & _ & Lfull & Hcell).
  exists z0, zs, g2, g1, e, rho, dn, wn, rx. rewrite Eh.
  split; [auto|]. split; [auto|]. split; [auto|]. split; [auto|]. split; [exact Hv|]. split; [exact Le|]. split; [exact Href|].
  intros j r Hj. assert (Hlt : (j < length frq)%nat) by (rewrite <- L; apply nth_error_Some; congruence). split; [auto|].
  destruct (Hcell 0%nat j 0 (zero_cell 0) (f_row r) af) as (ds & es & x & c & Eds & Lds & _ & Hc1 & Hc2 & Hrun & _ & Exr & _); [simpl; lia|exact Hlt|].
  cbn [nth wobj o_cells] in Exr, Hc2, Hrun. assert (x = r) as ->.
  { rewrite Exr. apply nth_error_nth; auto. }
  apply run_cell_inv in Hrun. destruct Hrun as (aw & ad & ww & dd & c1 & pl & al & Ha & Ew & Ed & _ & _ & _ & _ & _ & _ & _ & _ & _ & _ & _ & _ & Fw & Fd & _ & _ & Faw & Fad).
  destruct ww as [ws wl]. destruct dd as [dd1 dl]. cbn [snd] in Fw, Fd. rewrite Fw, Fd, Faw, Fad.
  exists ds, ws, dd1. repeat (split; [assumption|]). exact Ed.
Qed.

Lemma first_layer_zero db (g : globals RA) h (w : wfobj RA) frq ev h' af g' : wfo h w ->
  w_frq w = Some frq -> w_es w = VFloat ev -> perform db g h w = (h', Ok ([af], g')) ->
  forall r, In r (an_rows af) -> layer r 0 = 0.
Proof.
  intros K Hf He H r Hr. apply In_nth_error in Hr. destruct Hr as [j Hj].
  destruct (perform_rows db g h w frq ev h' _ g' K Hf He H) as (af' & Eaf & L & Hfr & _). injection Eaf as <-.
  destruct (wf_cell db g h w frq ev h' af g' K Hf He H) as (z0 & zs & g2 & g1 & e & rho & dn & wn & rx & Ez & _ & _ & _ & _ & _ & _ & Hc).
  destruct (Hc j r Hj) as (_ & ds & sw & sd & _ & _ & _ & Ew & Ed).
  rewrite (layer_sum _ _ _ (Hfr r (nth_error_In _ _ Hj))) by (rewrite Ez; simpl; lia).
  rewrite (exp_int_head _ _ _ _ _ _ _ Ew), (exp_int_head _ _ _ _ _ _ _ Ed). lra.
Qed.

(** From the ground the weights are exact. *)
Theorem C90_ground db (g : globals RA) h (w : wfobj RA) frq ev h' wgt g' : wfo h w -> growing (hget h (w_z w)) -> w_sat w = false ->
  w_frq w = Some frq -> w_es w = VFloat ev -> frq <> [] -> generate_wf db g h w = (h', Ok (wgt, g')) ->
  exists af, perform db g h w = (h', Ok ([af], g')) /\
    forall j r k, nth_error (an_rows af) j = Some r -> (k < length (hget h (w_z w)))%nat ->
      nth k (nth j wgt []) 0 = exp (- between (layer r) 0 k) * absorp r k.
Proof.
  intros K G Hs Hf He Hne H.
  destruct (C63_weights db g h w frq ev h' wgt g' K G Hf He Hne H) as (rows & (af & Hp & <-) & _ & _ & Hw).
  exists af. split; [exact Hp|]. intros j r k Hj Hk. destruct (Hw j r Hj) as [_ Ew]. rewrite (Ew k Hk).
  f_equal. f_equal. f_equal. unfold seen_from, between. rewrite Hs.
  change (S k) with (1 + k)%nat. rewrite (rsum_split 1 k). cbn [rsum].
  rewrite (first_layer_zero db g h w frq ev h' af g' K Hf He Hp r (nth_error_In _ _ Hj)).
  replace (k - 0)%nat with k by lia. rewrite (rsum_ext k (fun i => layer r (1 + i)%nat) (fun i => layer r (S (0 + i)%nat))); [lra|]. intros; f_equal; lia.
Qed.

(** From a satellite every weight carries the opacity of the layer beneath its level as well. *)
Theorem C90_satellite_extra_layer db (g : globals RA) h (w : wfobj RA) frq ev h' wgt g' : wfo h w -> growing (hget h (w_z w)) -> w_sat w = true ->
  w_frq w = Some frq -> w_es w = VFloat ev -> frq <> [] -> generate_wf db g h w = (h', Ok (wgt, g')) ->
  let n := length (hget h (w_z w)) in
  exists af, perform db g h w = (h', Ok ([af], g')) /\
    forall j r k, nth_error (an_rows af) j = Some r -> (k < n)%nat ->
      nth k (nth j wgt []) 0 = exp (- between (layer r) k (n - 1)) * absorp r k * exp (- layer r k).
Proof.
  intros K G Hs Hf He Hne H n.
  destruct (C63_weights db g h w frq ev h' wgt g' K G Hf He Hne H) as (rows & (af & Hp & <-) & _ & _ & Hw).
  exists af. split; [exact Hp|]. intros j r k Hj Hk. destruct (Hw j r Hj) as [_ Ew]. rewrite (Ew k Hk).
  fold n. rewrite Rmult_assoc, (Rmult_comm (absorp r k)), <- Rmult_assoc, <- exp_plus.
  f_equal. f_equal. unfold seen_from, between. rewrite Hs.
  replace (n - k)%nat with (1 + (n - 1 - k))%nat by lia. rewrite (rsum_split 1). cbn [rsum].
  rewrite (rsum_ext (n - 1 - k) (fun i => layer r (k + (1 + i))%nat) (fun i => layer r (S (k + i)%nat))) by (intros; f_equal; lia).
  replace (k + 0)%nat with k by lia. lra.
Qed.

Lemma n2_pos m t p f v : 0 < t -> p <> 0 -> f <> 0 -> m <> "MWL24" -> n2_absorption (A:=RA) m t p f = Ok v -> 0 < v.
Proof.
  intros Ht Hp Hf Hm H. destruct (in_dec String.string_dec m n2_models) as [Hin|Hin].
  2:{ rewrite (proj2 (C54_names RA m t p f) Hin) in H. discriminate. }
  destruct (proj1 (C54_names RA m (t + 1) p f) Hin) as [v2 E2].
  assert (P := C54_nonnegative m (t + 1) p f v2 ltac:(lra) E2).
  assert (Q := C54_falls_with_temperature m t (t + 1) p f v v2 Ht ltac:(lra) Hp Hf ltac:(intros; contradiction) H E2). lra.
Qed.

Lemma npkm_nonneg f x : 0 < f -> 0 <= x -> 0 <= npkm f x.
Proof. intros Hf Hx. unfold npkm. assert (D := db2np_pos). rewrite db2np_val in D. apply Rmult_le_pos; [apply Rmult_le_pos; lra|auto]. Qed.

(** Both absorption coefficients at a physical level, shipped line lists. *)
Lemma level_positive m ll ll2 o3 o3l fs es f p t e aw ad : In m std_models -> In m runnable ->
  db_h2o (@shipped RA) m = Some ll -> db_o2 (@shipped RA) last_oxygen = Some ll2 -> 0 < t -> 0 <= e < p -> 0 < f ->
  clearsky_level (A:=RA) (mkGlobals (Some m) (Some last_oxygen) (Some m) (Some m) o3 (Some ll) (Some ll2) o3l fs es) None f p t e None = Ok (aw, ad) ->
  0 <= aw /\ 0 < ad.
Proof.
  intros Hs Hm El El2 Ht He Hf H. destruct (C53_level _ _ _ _ _ _ _ _ _ H) as (nw & cw & no & co & an & ao & Hw & Ho & Hn & Hz & -> & ->).
  assert (V : 0 < 300 / t) by (apply div_pos; lra).
  unfold h2o_call in Hw. cbn [g_h2o g_h2oll over] in Hw.
  destruct (C57_h2o_nonnegative m ll ((p - e) / 10) (300 / t) (e / 10) f nw cw Hs (C57_shipped_lists m ll Hs El) V ltac:(lra) ltac:(lra) Hf Hw) as [W1 W2].
  unfold o2_call in Ho. cbn [g_o2 g_o2ll mname over] in Ho. apply ok_inj in Ho.
  destruct (C55_shipped_nonnegative last_oxygen ll2 ((p - e) / 10) (300 / t) (e / 10) f no co El2 ltac:(discriminate) V ltac:(lra) ltac:(lra) Hf Ho) as [O1 O2].
  unfold n2_call in Hn. cbn [g_n2] in Hn.
  assert (N : n2_absorption (A:=RA) m t (p - e) f = Ok an) by (destruct m; [exfalso; simpl in Hm; intuition discriminate|exact Hn]).
  assert (P := n2_pos m t (p - e) f an Ht ltac:(lra) ltac:(lra) ltac:(intros ->; simpl in Hm; intuition discriminate) N).
  unfold o3_call in Hz. injection Hz as <-.
  assert (P1 := npkm_nonneg f nw Hf W1). assert (P2 := npkm_nonneg f cw Hf W2). assert (P3 := npkm_nonneg f no Hf O1). assert (P4 := npkm_nonneg f co Hf O2).
  ra. lra.
Qed.

Lemma diffs_strict (z : list R) : growing z -> forall d, In d (diffs (A:=RA) z) -> 0 < d.
Proof.
  induction z as [|a z IH]; intros G d Hd; [destruct Hd|]. destruct z as [|b z]; [destruct Hd|].
  destruct Hd as [<-|Hd].
  - ra. assert (Q := G 0%nat ltac:(simpl; lia)). simpl in Q. lra.
  - apply IH; auto. intros i Hi. apply (G (S i)). simpl in *. lia.
Qed.

(** Satellite: with the shipped line lists every weight above the first level is smaller than transmittance times absorption, for every physical
    profile and frequency. *)
Theorem C90_satellite_refuted (g : globals RA) h (w : wfobj RA) frq ev h' wgt g' : physical h w -> near_zenith (w_angle w) -> w_sat w = true ->
  (forall k, (k < length (hget h (w_z w)))%nat -> nth k (hget h (w_rh w)) 0 * vapor_es (A:=RA) (nth k (hget h (w_t w)) 0) < nth k (hget h (w_p w)) 0) ->
  w_frq w = Some frq -> w_es w = VFloat ev -> frq <> [] -> (forall f, In f frq -> 0 < f) ->
  In (w_model w) std_models -> In (w_model w) runnable -> generate_wf (@shipped RA) g h w = (h', Ok (wgt, g')) ->
  let n := length (hget h (w_z w)) in
  exists af, perform (@shipped RA) g h w = (h', Ok ([af], g')) /\
    forall j r k, nth_error (an_rows af) j = Some r -> (1 <= k < n)%nat ->
      nth k (nth j wgt []) 0 < exp (- between (layer r) k (n - 1)) * absorp r k.
Proof.
  intros Phys Hz Hs Hdry Hf He Hne Hfr Hm1 Hm2 H n. assert (K := ph_ok _ _ Phys). assert (G := ph_up _ _ Phys).
  destruct (C90_satellite_extra_layer shipped g h w frq ev h' wgt g' K G Hs Hf He Hne H) as (af & Hp & Hw).
  exists af. split; [exact Hp|]. intros j r k Hj Hk. rewrite (Hw j r k Hj) by lia.
  destruct (perform_rows shipped g h w frq ev h' _ g' K Hf He Hp) as (af' & Eaf & L & Hfull & _). injection Eaf as <-.
  assert (Fr := Hfull r (nth_error_In _ _ Hj)). fold n in Fr.
  destruct (wf_cell shipped g h w frq ev h' af g' K Hf He Hp) as (z0 & zs & g2 & g1 & e & rho & dn & wn & rx & Ez & Eh & Eg2 & Eg1 & Ev & Le & Er & Hc).
  destruct (Hc j r Hj) as (Hjl & ds & sw & sd & Eds & Lds & Ea & Ew & Ed).
  destruct (wf_linelist shipped g (w_model w) (C48_shipped_registered RA) Hm2) as (ll & ll2 & Eo2 & g2' & Eg2' & Eg1').
  assert (g2' = g2) as -> by (rewrite Eg2 in Eg2'; injection Eg2'; auto). rewrite Eg1 in Eg1'. injection Eg1' as ->.
  assert (El : db_h2o (@shipped RA) (w_model w) = Some ll).
  { unfold set_ll_o2 in Eg2. cbn [with_o2 g_o2] in Eg2. rewrite Eo2 in Eg2. cbn [bind] in Eg2. injection Eg2 as <-.
    unfold init_linelist, set_ll_h2o in Eg1. cbn [with_o2ll with_o2 init_absmdl g_h2o] in Eg1.
    destruct (db_h2o shipped (w_model w)) as [l|]; [|discriminate]. cbn [bind] in Eg1.
    unfold set_ll_o2 in Eg1. cbn [with_h2oll with_o2ll with_o2 init_absmdl g_o2] in Eg1. rewrite Eo2 in Eg1. cbn [bind with_o2ll with_h2oll g_h2o g_o2 g_n2 g_liq g_o3 g_h2oll g_o2ll g_o3ll g_from_sat g_es with_o2 init_absmdl] in Eg1.
    injection Eg1 as ->. reflexivity. }
  destruct Phys as [_ _ (Sp & St & Sr) Ph].
  assert (V : (w_z w < length h)%nat) by (apply hget_valid; rewrite Ez; discriminate).
  assert (Hget : forall a, a <> w_z w -> length (hget h a) = length (hget h (w_z w)) -> hget h' a = hget h a).
  { intros a Ha La. rewrite Eh. rewrite wheap_get; [apply hget_set_ne; auto|]. apply hget_valid. intros Q. rewrite Q, Ez in La. discriminate. }
  assert (L1 := wk_p _ _ K). assert (L2 := wk_t _ _ K). assert (L3 := wk_rh _ _ K).
  rewrite !Hget in Ea, Ev, Er by (auto; apply K).
  assert (CP := fun a b c => C53_profile RA _ _ _ _ _ _ _ _ _ a b c Ea). destruct CP as (La & Lb & Hlev); [congruence|congruence|discriminate|].
  assert (Pos : forall i, (i < n)%nat -> 0 <= nth i (f_awet r) 0 /\ 0 < nth i (f_adry r) 0).
  { intros i Hi. specialize (Hlev i 0 ltac:(unfold n in *; change (car RA) with R in *; lia)). cbn [option_map] in Hlev.
    unfold vapor in Ev. injection Ev as Ev _.
    assert (Ee : nth i e 0 = nth i (hget h (w_rh w)) 0 * vapor_es (A:=RA) (nth i (hget h (w_t w)) 0)).
    { rewrite <- Ev, map_map. change (car RA) with R in *. rewrite (nth_map_d _ _ _ (0, 0)) by (rewrite combine_length; unfold n in *; lia).
      rewrite combine_nth by lia. reflexivity. }
    destruct (Ph i Hi) as (P1 & P2 & P3). assert (P4 := Hdry i Hi). rewrite <- Ee in P2, P4.
    unfold with_sat in Hlev. cbn [g_h2o g_o2 g_n2 g_liq g_o3 g_h2oll g_o2ll g_o3ll g_from_sat g_es] in Hlev.
    assert (PL := fun a b c => level_positive (w_model w) ll ll2 _ _ _ _ (nth j frq 0) (nth i (hget h (w_p w)) 0) (nth i (hget h (w_t w)) 0) (nth i e 0) _ _ Hm1 Hm2 El Eo2 a b c Hlev).
    apply PL; try lra. apply Hfr, nth_In; auto. }
  assert (Habs : 0 < absorp r k).
  { unfold absorp, abs_row. rewrite (map2_nth (A:=RA) add _ 0 0).
    - ra. destruct (Pos k ltac:(lia)). lra.
    - rewrite (fr_awet _ _ Fr), (fr_adry _ _ Fr). reflexivity.
    - rewrite (fr_awet _ _ Fr). lia. }
  assert (Hlay : 0 < layer r k).
  { rewrite (layer_sum n r k Fr) by lia.
    assert (Hds : exists rest, ds = 0 :: rest /\ forall d, In d rest -> 0 < d).
    { unfold path_ds in Eds. cbn [inputs_of i_ray wobj o_ray i_z o_z i_z0 o_z0] in Eds. inv_bind Eds rr Ert.
      destruct rr as [ds'|]; [|discriminate]. inversion Eds; subst ds'. clear Eds.
      unfold ray_tracing in Ert. destruct (existsb _ _); [discriminate|].
      destruct (combine _ _) as [|[zf nf] rest]; [discriminate|].
      assert (B : (leb (a:=RA) (lit 89) (w_angle w) && leb (a:=RA) (w_angle w) (lit 91)
        || leb (a:=RA) (opp (lit 91)) (w_angle w) && leb (a:=RA) (w_angle w) (opp (lit 89)))%bool = true).
      { ra. apply orb_true_iff. destruct Hz as [Hz|Hz]; [left|right]; apply andb_true_iff; split; apply Rleb_true; lra. }
      rewrite B in Ert. injection Ert as <-. eexists. split; [f_equal; ra; lra|]. apply diffs_strict.
      rewrite Eh, wheap_get by auto. rewrite hget_set_eq by auto. apply growing_shift; auto. }
    destruct Hds as (rest & Eds' & Hrest).
    assert (Dpos : forall i, (1 <= i < length ds)%nat -> 0 < nth i ds 0).
    { intros i Hi. rewrite Eds' in *. destruct i as [|i]; [lia|]. cbn [nth]. apply Hrest, nth_In. cbn [length] in Hi. change (car RA) with R in *. lia. }
    fold n in Ew, Ed, Lds. rewrite <- Lds in Ew, Ed. destruct (exp_int_pos true (f_adry r) ds (lit 1) sd (f_ptaudry r)) as [_ Q1]; auto.
    { intros v Hv. apply (In_nth _ _ 0) in Hv. destruct Hv as (i & Hi & <-). apply Pos. assert (Q := fr_adry _ _ Fr). change (car RA) with R in *. lia. }
    assert (Nds : forall d, In d ds -> 0 <= d) by (rewrite Eds'; intros d [<-|Hd]; [lra|left; auto]).
    assert (Q2 := exp_int_nonneg _ _ _ _ _ _ _ _ Nds Ew (nth k (f_ptauwet r) 0)).
    assert (Q3 : 0 <= nth k (f_ptauwet r) 0) by (apply Q2, nth_In; assert (Q := fr_wet _ _ Fr); change (car RA) with R in *; lia).
    assert (Q4 := Q1 k ltac:(change (car RA) with R in *; lia)). lra. }
  assert (E : exp (- layer r k) < 1) by (rewrite <- exp_0; apply exp_increasing; lra).
  assert (P := exp_pos (- between (layer r) k (n - 1))).
  assert (0 < exp (- between (layer r) k (n - 1)) * absorp r k) by (apply Rmult_lt_0_compat; auto).
  fold n. rewrite <- Rmult_1_r. apply Rmult_lt_compat_l; auto.
Qed.

(** ** A concrete case *)

Lemma vapor_es_pos t : 0 < vapor_es (A:=RA) t.
Proof. unfold vapor_es. ra. rewrite Rpowf_pos by lra. apply Rpower_pos. Qed.

(** Humidities giving water vapour pressures of 5, 3 and 0 mb. *)
Definition wx_h : heap RA := [[0; 1; 2]; [1000; 900; 800]; [290; 280; 270]; [5 / vapor_es (A:=RA) 290; 3 / vapor_es (A:=RA) 280; 0]].
Definition wx (sat : bool) : wfobj RA := mkWfo (A:=RA) 0%nat 1%nat 2%nat 3%nat (Some [50; 60]) sat (VFloat (A:=RA) 1) "R19" 90 None.

Lemma wx_phys sat : physical wx_h (wx sat) /\ forall k, (k < length (hget wx_h (w_z (wx sat))))%nat ->
  nth k (hget wx_h (w_rh (wx sat))) 0 * vapor_es (A:=RA) (nth k (hget wx_h (w_t (wx sat))) 0) < nth k (hget wx_h (w_p (wx sat))) 0.
Proof.
  assert (P1 := vapor_es_pos 290). assert (P2 := vapor_es_pos 280).
  assert (E1 : 5 / vapor_es (A:=RA) 290 * vapor_es (A:=RA) 290 = 5).
  { revert P1. generalize (vapor_es (A:=RA) 290). intros x Px. ra. change (car RA) with R in *. field. lra. }
  assert (E2 : 3 / vapor_es (A:=RA) 280 * vapor_es (A:=RA) 280 = 3).
  { revert P2. generalize (vapor_es (A:=RA) 280). intros x Px. ra. change (car RA) with R in *. field. lra. }
  assert (X : forall k, (k < 3)%nat -> phys (nth k [1000; 900; 800] 0) (nth k [290; 280; 270] 0) (nth k [5 / vapor_es (A:=RA) 290; 3 / vapor_es (A:=RA) 280; 0] 0 * vapor_es (A:=RA) (nth k [290; 280; 270] 0)) /\
    nth k [5 / vapor_es (A:=RA) 290; 3 / vapor_es (A:=RA) 280; 0] 0 * vapor_es (A:=RA) (nth k [290; 280; 270] 0) < nth k [1000; 900; 800] 0).
  { intros [|[|[|k]]] Hk; cbn [nth]; [rewrite E1|rewrite E2|rewrite Rmult_0_l|lia]; unfold phys; lra. }
  split; [|apply X]. constructor.
  - constructor; cbn; try reflexivity. discriminate.
  - intros [|[|i]] Hi; cbn in *; try lra; lia.
  - cbn. lia.
  - apply X.
Qed.

Lemma freq_ok_R f : 0 <= f <= 60 -> freq_ok (A:=RA) f.
Proof.
  intros Hr. exists 0%Z. split; [|lia]. unfold deltaf. ra. f_equal. apply Rtrunc_zero. split.
  - apply Rmult_le_pos; [lra|]. apply Rlt_le, Rinv_0_lt_compat. lra.
  - apply (Rmult_lt_reg_r (299792458 / 1000000)); [lra|]. unfold Rdiv at 1. rewrite Rmult_assoc, Rinv_l by lra. lra.
Qed.

Lemma wx_runs sat g : exists h' wgt g', generate_wf (@shipped RA) g wx_h (wx sat) = (h', Ok (wgt, g')).
Proof.
  apply (C63_defined shipped g wx_h (wx sat) [50; 60] 1); try reflexivity.
  - apply C48_shipped_registered.
  - apply wx_phys.
  - cbn. unfold near_zenith. lra.
  - simpl. auto 12.
  - intros f [<-|[<-|[]]]; apply freq_ok_R; lra.
Qed.

(** Cases for C63 (both view directions), C90_ground and C91. *)
Example C63_example sat g : exists h' wgt g', generate_wf (@shipped RA) g wx_h (wx sat) = (h', Ok (wgt, g')) /\ length wgt = 2%nat /\ length (nth 1 wgt []) = 3%nat.
Proof.
  destruct (wx_runs sat g) as (h' & wgt & g' & H). exists h', wgt, g'. split; [exact H|].
  destruct (wx_phys sat) as [[K G _ _] _].
  destruct (C63_weights shipped g wx_h (wx sat) [50; 60] 1 h' wgt g' K G eq_refl eq_refl ltac:(discriminate) H) as (rows & _ & L1 & L2 & Hw).
  split; [exact L2|]. destruct (nth_error rows 1) as [r|] eqn:E.
  - apply (Hw 1%nat r E).
  - apply nth_error_None in E. change (length [50; 60]) with 2%nat in L1. change (car RA) with R in *. cbn in L1. lia.
Qed.

(** A satellite case: the weight of the uppermost level, which nothing separates from the satellite, is below the absorption there. *)
Example C90_example g : exists h' wgt g' af r, generate_wf (@shipped RA) g wx_h (wx true) = (h', Ok (wgt, g')) /\
  perform (@shipped RA) g wx_h (wx true) = (h', Ok ([af], g')) /\ nth_error (an_rows af) 0 = Some r /\ nth 2 (nth 0 wgt []) 0 < absorp r 2.
Proof.
  destruct (wx_runs true g) as (h' & wgt & g' & H). destruct (wx_phys true) as [P D].
  assert (C := C90_satellite_refuted g wx_h (wx true) [50; 60] 1 h' wgt g' P ltac:(cbn; unfold near_zenith; lra) eq_refl D eq_refl eq_refl ltac:(discriminate)).
  destruct C as (af & Hp & Hw); [intros f [<-|[<-|[]]]; lra|simpl; auto 12|simpl; auto 12|exact H|].
  destruct (perform_rows shipped g wx_h (wx true) [50; 60] 1 h' _ g' (ph_ok _ _ P) eq_refl eq_refl Hp) as (af' & Eaf & L & _). injection Eaf as <-.
  destruct (an_rows af) as [|r rs] eqn:E; [discriminate|]. exists h', wgt, g', af, r. split; [exact H|]. split; [exact Hp|]. rewrite E. split; [reflexivity|].
  assert (Q := Hw 0%nat r 2%nat eq_refl ltac:(cbn; lia)). unfold between in Q. cbn [length wx_h hget nth w_z wx Nat.sub rsum] in Q.
  rewrite Ropp_0, exp_0, Rmult_1_l in Q. exact Q.
Qed.
