(** Claims C48 and C49: which selected model names make a run succeed, for every arithmetic. *)

From Coq Require Import ZArith Lia String List Bool.
Import ListNotations.
From Verif Require Import Arith PyBase Utils RTE Absorption Clear Spectrum ListAux SolverGen SolverRun Registry.
Local Open Scope nat_scope.
Local Open Scope string_scope.

(** The names present in both the water-vapour and the oxygen file. *)
Definition runnable := ["R98"; "R03"; "R16"; "R17"; "R18"; "R19"; "R19SD"; "R20"; "R20SD"; "R24"].

Lemma runnable_spec m : In m runnable <-> In m h2o_names /\ In m o2_names.
Proof.
  split.
  - intros H. repeat (destruct H as [<-|H]; [split; simpl; auto 20|]). destruct H.
  - intros [H1 H2]. unfold h2o_names in H1.
    repeat (destruct H1 as [<-|H1]; [simpl in *; intuition discriminate|]). destruct H1.
Qed.

Section Models.
Context {A : Arith}.
Notation num := (car A).

(** ** New solvers are well-formed *)
Lemma tb_init_wf (h h' : heap A) z p t rh frq angles o3n amu m ray sat cl o :
  tb_init h z p t rh frq angles o3n amu m ray sat cl = (h', Ok o) ->
  let n := length (hget h z) in
  length (hget h p) = n -> length (hget h t) = n -> length (hget h rh) = n ->
  (forall a, o3n = Some a -> length (hget h a) = n) ->
  wf h' o /\ o_es o < length h' /\ o_cloudy o = cl /\ o_frq o = frq /\ o_angles o = angles /\ o_ray o = ray /\ o_sat o = sat /\
  o_ice o = false /\ o_o3n o = o3n /\ o_nl o = n /\ o_dens o = None /\ o_levels o = None /\ o_tk o = t /\ o_p o = p /\ o_rh o = rh /\ o_z o = z /\
  o_unc o = match amu with Some _ => true | None => false end /\
  (forall cs c, In cs (o_cells o) -> In c cs -> c = zero_cell n) /\
  (forall a, a <> z -> a < length h -> hget h' a = hget h a) /\
  length h <= length h' /\ hget h' (o_es o) = repeat (lit 1.0) (length frq).
Proof.
  intros H n Hp Ht Hrh Ho3. unfold tb_init, bool_gt0, bool_lt0 in H. destruct (all_truthy _); [|discriminate].
  destruct (hget h z) as [|z0 zs] eqn:Ez; [discriminate|]. cbn [halloc] in H.
  destruct (String.eqb m ""); inversion H. clear H. subst h' o. set (v := repeat _ (length frq)).
  assert (Vz : z < length h) by (apply hget_valid; rewrite Ez; discriminate).
  set (h1 := (h ++ [v])%list). set (h2 := hset h1 z _).
  assert (E1 : hget h1 z = z0 :: zs) by (unfold h1; rewrite hget_app_old; auto).
  assert (Ne : length h <> z) by lia.
  assert (Es : hget h2 (length h) = v).
  { unfold h2. rewrite hget_set_ne by auto. apply (hget_alloc_new h v). }
  assert (L1 : length h1 = S (length h)) by (unfold h1; rewrite app_length; simpl; lia).
  assert (L2 : length h2 = S (length h)) by (unfold h2, hset; rewrite length_upd; auto).
  assert (Eo : forall a, a <> z -> a < length h -> hget h2 a = hget h a).
  { intros a Ha Hv. unfold h2. rewrite hget_set_ne by auto. unfold h1. apply hget_app_old; auto. }
  assert (EZ : hget h2 z = map (fun x => sub x z0) (z0 :: zs)).
  { unfold h2. rewrite hget_set_eq by lia. rewrite E1. reflexivity. }
  assert (Ln : length (z0 :: zs) = n) by (unfold n; auto).
  assert (Hn : n <> 0) by (rewrite <- Ln; discriminate).
  assert (Ea : forall a, length (hget h a) = n -> length (hget h2 a) = n).
  { intros a Ha. destruct (Nat.eq_dec a z) as [->|Hne]; [rewrite EZ, map_length; auto|]. rewrite Eo; auto. apply hget_valid.
    intros E. rewrite E in Ha. apply Hn. auto. }
  assert (Hz0 : length (hget h z) = n) by (rewrite Ez; auto).
  assert (Hcell : forall cs (c : cell A), In cs (repeat (repeat (zero_cell n) (length frq)) (length angles)) -> In c cs -> c = zero_cell n).
  { intros cs c Hcs Hc. apply repeat_spec in Hcs. subst cs. apply repeat_spec in Hc. auto. }
  split.
  { constructor; cbn; auto; try (intros; discriminate).
    - rewrite Es. unfold v. rewrite repeat_length. auto.
    - apply repeat_length.
    - intros cs Hcs. apply repeat_spec in Hcs. subst cs. apply repeat_length.
    - intros cs c Hcs Hc. rewrite (Hcell cs c Hcs Hc). unfold zero_cell. cbn. rewrite repeat_length. auto.
    - apply repeat_length.
    - apply repeat_length. }
  cbn. repeat split; auto; try lia.
Qed.

Lemma level_lookup_range (zs : list num) c : forall i acc n, (0 <= acc < n)%Z -> (0 <= i)%Z -> (i + Z.of_nat (length zs) <= n)%Z ->
  (0 <= level_lookup zs c i acc < n)%Z.
Proof.
  induction zs as [|x zs IH]; intros i acc n Ha Hi Hn; [exact Ha|]. cbn [level_lookup]. cbn [length] in Hn.
  apply IH; try lia. destruct (eqb x c); lia.
Qed.

Lemma init_cloudy_wf (h : heap A) o cldh di dl : wf h o -> cldh <> [] -> length (hget h di) = o_nl o -> length (hget h dl) = o_nl o ->
  wf h (init_cloudy h o cldh di dl) /\ cloud_ready (init_cloudy h o cldh di dl).
Proof.
  intros W Hc Hi Hl. unfold init_cloudy.
  destruct (o_cloudy o) eqn:Ec.
  - split; [|intros _; cbn; eauto 6]. destruct W; constructor; cbn; auto.
    + intros a b E. inversion E; subst; auto.
    + intros b t E. inversion E; subst. split; [destruct cldh; [congruence|discriminate]|]. split; [rewrite !map_length; auto|].
      split; intros x Hx; apply in_map_iff in Hx; destruct Hx as ([b0 t0] & <- & _); apply level_lookup_range; lia.
  - split; [|intros E; cbn in E; congruence]. destruct W; constructor; cbn; auto.
    intros b t E. inversion E; subst. split; [destruct cldh; [congruence|discriminate]|]. split; [rewrite !map_length; auto|].
    split; intros x Hx; apply in_map_iff in Hx; destruct Hx as ([b0 t0] & <- & _); lia.
Qed.

(** ** Absorption succeeds for the runnable names *)

(** Frequencies for which the tabulated self-continuum of R24 is defined (0 <= f < 1199 GHz). *)
Definition freq_ok (f : num) : Prop := exists j, trunc (div f deltaf) = Some j /\ (0 <= j <= 3)%Z.

Lemma continuum_ok f vx : freq_ok f -> exists c, h2o_continuum f vx = Ok c.
Proof.
  intros (j & Hj & Hr). unfold h2o_continuum. rewrite Hj. rewrite Z.min_l by lia.
  set (a := continuum_table vx). assert (L : length a = 7) by reflexivity.
  destruct (py_get_inrange a j) as [a0 ->]; [lia|]. cbn [bind].
  destruct (py_get_inrange a (j + 1)) as [a1 ->]; [lia|]. cbn [bind].
  destruct (py_get_inrange a (j + 2)) as [a2 ->]; [lia|]. cbn [bind].
  destruct (py_get_inrange a (j + 3)) as [a3 ->]; [lia|]. cbn [bind]. eauto.
Qed.

Lemma h2o_ok m ll p v e f : In m runnable -> freq_ok f -> exists x, h2o_absorption m ll p v e f = Ok x.
Proof.
  intros Hm Hf. unfold h2o_absorption. destruct (eqb _ _); [eauto|].
  assert (Hs : exists s, h2o_summ m ll (h2o_env_of m p v e) f = Some s).
  { unfold h2o_summ. repeat (destruct Hm as [<-|Hm]; [eexists; reflexivity|]). destruct Hm. }
  destruct Hs as [s ->].
  assert (Hc : exists c, h2o_con2 m ll (h2o_env_of m p v e) v f = Ok c).
  { unfold h2o_con2. destruct (str_in m _); [|eauto]. destruct (ltb _ _).
    - cbn [bind]. eauto.
    - destruct (continuum_ok f v Hf) as [c ->]. cbn [bind]. eauto. }
  destruct Hc as [c ->]. cbn [bind]. eauto.
Qed.

Lemma n2_ok m t p f : In m runnable -> exists x, n2_absorption (A:=A) m t p f = Ok x.
Proof.
  intros Hm. unfold n2_absorption.
  assert (H : exists q, n2_params (A:=A) m = Ok q).
  { repeat (destruct Hm as [<-|Hm]; [eexists; reflexivity|]). destruct Hm. }
  destruct H as [[[[l mm] n] fl] ->]. cbn [bind]. eauto.
Qed.

(** The class state after selecting a runnable name and loading the line lists. *)
Lemma linelist_ok db (g : globals A) m : registered db -> In m runnable ->
  exists ll ll2, init_linelist db (init_absmdl g m) = Ok (mkGlobals (Some m) (Some m) (Some m) (Some m) (g_o3 g) (Some ll) (Some ll2) (g_o3ll g) (g_from_sat g) (g_es g)).
Proof.
  intros R Hm. apply runnable_spec in Hm. destruct Hm as [Hh Ho]. destruct (R m) as (R1 & R2 & _).
  unfold init_linelist, set_ll_h2o. cbn [init_absmdl g_h2o]. destruct (db_h2o db m) as [ll|] eqn:E1; [|exfalso; apply R1; auto].
  cbn [bind]. unfold set_ll_o2. cbn [with_h2oll init_absmdl g_o2]. destruct (db_o2 db m) as [ll2|] eqn:E2; [|exfalso; apply R2; auto].
  exists ll, ll2. reflexivity.
Qed.

Lemma linelist_err db (g : globals A) m : registered db -> ~ In m runnable -> init_linelist db (init_absmdl g m) = Err AbsModelError.
Proof.
  intros R Hm. destruct (R m) as (R1 & R2 & _).
  unfold init_linelist, set_ll_h2o. cbn [init_absmdl g_h2o]. destruct (db_h2o db m) as [ll|] eqn:E1; [|reflexivity].
  cbn [bind]. unfold set_ll_o2. cbn [with_h2oll init_absmdl g_o2]. destruct (db_o2 db m) as [ll2|] eqn:E2; [|reflexivity].
  exfalso. apply Hm. apply runnable_spec. split; [apply R1|apply R2]; congruence.
Qed.

Lemma clearsky_ok (g : globals A) amu m ll ll2 p t e f o3n : In m runnable -> freq_ok f ->
  g_h2o g = Some m -> g_n2 g = Some m -> g_h2oll g = Some ll -> g_o2ll g = Some ll2 ->
  (o3n = None \/ g_o3ll g <> None) ->
  exists w d, clearsky_absorption g amu p t e f o3n = Ok (w, d).
Proof.
  intros Hm Hf H1 H3 H4 H5 H6. unfold clearsky_absorption.
  match goal with |- context [mapM ?F ?L] => destruct (proj2 (mapM_ok_iff F L)) as [r ->] end.
  2:{ cbn [bind]. eauto. }
  intros (p0 & t0 & e0 & o) Hin.
  assert (Ho : o = None \/ g_o3ll g <> None).
  { destruct H6 as [->|H6]; [|auto]. left. apply in_combine_r in Hin. apply in_combine_r in Hin. apply in_combine_r in Hin.
    eapply repeat_spec; eauto. }
  unfold clearsky_level, h2o_call. rewrite H1, H4.
  match goal with |- context [h2o_absorption m ?a ?b ?c ?d ?e] => destruct (h2o_ok m a b c d e Hm Hf) as [w ->] end. cbn [bind].
  unfold o2_call. rewrite H5. cbn [bind]. unfold n2_call. rewrite H3.
  destruct (n2_ok m t0 (mul (sub (div p0 (lit 10.0)) (div e0 (lit 10.0))) (lit 10)) f Hm) as [an2 En2].
  assert (EN : match m with "" => Ok (lit 0) | String _ _ => n2_absorption m t0 (mul (sub (div p0 (lit 10.0)) (div e0 (lit 10.0))) (lit 10)) f end = Ok an2).
  { destruct m; [exfalso; simpl in Hm; intuition discriminate|exact En2]. }
  rewrite EN. cbn [bind].
  unfold o3_call. destruct o as [n|]; [|cbn [bind]; eauto].
  destruct Ho as [Ho|Ho]; [discriminate|]. destruct (g_o3ll g); [|congruence].
  destruct (str_in _ _); cbn [bind]; eauto.
Qed.

(** ** C48 *)

(** A clear-sky run after [init_absmdl m] succeeds for exactly the ten runnable names and raises the model error for every other string. *)
Theorem C48_clear_sky db (g : globals A) h o m : registered db -> wf h o ->
  o_cloudy o = false -> o_ray o = false -> o_ice o = false -> o_unc o = false ->
  (o_o3n o = None \/ g_o3ll g <> None) -> (forall f, In f (o_frq o) -> freq_ok f) ->
  (In m runnable -> exists x, execute db (init_absmdl g m) h o = Ok x) /\
  (~ In m runnable -> execute db (init_absmdl g m) h o = Err AbsModelError).
Proof.
  intros R W Hc Hr Hi Hu H3 Hf. split; intros Hm.
  - destruct (linelist_ok db g m R Hm) as (ll & ll2 & E).
    eapply execute_ok; eauto.
    + intros Hc'. congruence.
    + intros a e rho dn wn refindx _ _ _ _. eexists. apply path_plane. exact Hr.
    + intros f e Hin He. eapply (clearsky_ok _ _ m ll ll2); eauto; try reflexivity.
      destruct H3 as [H3|H3]; [left|right; exact H3]. cbn. rewrite H3. reflexivity.
    + intros f di dl Hc'. congruence.
  - unfold execute. rewrite (linelist_err db g m R Hm). reflexivity.
Qed.

(** Names without liquid-water formula among the runnable ones. *)
Definition no_liquid := ["R18"; "R20SD"].

Lemma liquid_ok m w f t : In m runnable -> ~ In m no_liquid -> exists x, liquid_water_absorption (A:=A) m w f t = Ok x.
Proof.
  intros Hm Hn. unfold liquid_water_absorption. destruct (leb w _); [eauto|].
  repeat (destruct Hm as [<-|Hm]; [first [eexists; reflexivity | exfalso; apply Hn; simpl; auto]|]). destruct Hm.
Qed.

Lemma cloudy_ok m (t l i : list num) f : In m runnable -> ~ In m no_liquid -> exists la, cloudy_absorption (Some m) t l i f = Ok la.
Proof.
  intros Hm Hn. unfold cloudy_absorption.
  match goal with |- context [mapM ?F ?L] => destruct (proj2 (mapM_ok_iff F L)) as [r ->] end.
  2:{ cbn [bind]. eauto. }
  intros (t0 & l0 & i0) _. unfold cloudy_level. cbn [mname]. destruct (ltb _ l0).
  - destruct (liquid_ok m l0 f t0 Hm Hn) as [x ->]. cbn [bind]. eauto.
  - cbn [bind]. eauto.
Qed.

(** A cloudy run succeeds for every runnable name with a liquid-water formula. *)
Theorem C48_cloudy db (g : globals A) h o m : registered db -> wf h o -> cloud_ready o ->
  o_ray o = false -> o_ice o = false -> o_unc o = false ->
  (o_o3n o = None \/ g_o3ll g <> None) -> (forall f, In f (o_frq o) -> freq_ok f) ->
  In m runnable -> ~ In m no_liquid -> exists x, execute db (init_absmdl g m) h o = Ok x.
Proof.
  intros R W Hc Hr Hi Hu H3 Hf Hm Hn.
  destruct (linelist_ok db g m R Hm) as (ll & ll2 & E).
  eapply execute_ok; eauto.
  - intros a e rho dn wn refindx _ _ _ _. eexists. apply path_plane. exact Hr.
  - intros f e Hin He. eapply (clearsky_ok _ _ m ll ll2); eauto; try reflexivity.
    destruct H3 as [H3|H3]; [left|right; exact H3]. cbn. rewrite H3. reflexivity.
  - intros f di dl _ _ _. apply cloudy_ok; auto.
Qed.

(** The two names without formula: a level with liquid water makes the run raise ValueError. *)
Lemma cloudy_err m (t l i : list num) f k d : In m no_liquid -> length l = length t -> length i = length t ->
  k < length l -> ltb (lit 0) (nth k l d) = true -> leb (nth k l d) (lit 0) = false ->
  cloudy_absorption (Some m) t l i f = Err ValueError.
Proof.
  intros Hm Hl Hi Hk H1 H2. unfold cloudy_absorption.
  assert (L : length (combine t (combine l i)) = length t) by (rewrite !combine_length; lia).
  assert (EN : forall x, In x (combine t (combine l i)) -> forall y, x = y -> 
    let '(t0, (l0, i0)) := y in (exists z, cloudy_level (A:=A) (Some m) f t0 l0 i0 = Ok z) \/ cloudy_level (A:=A) (Some m) f t0 l0 i0 = Err ValueError).
  { intros x _ (t0 & l0 & i0) _. unfold cloudy_level, liquid_water_absorption. cbn [mname]. destruct (ltb _ l0); [|left; cbn [bind]; eauto].
    destruct (leb l0 _); [left; cbn [bind]; eauto|]. right.
    destruct Hm as [<-|[<-|[]]]; reflexivity. }
  match goal with |- context [mapM ?F ?L] => rewrite (mapM_err F L ValueError (nth k t d, (nth k l d, nth k i d))) end.
  - reflexivity.
  - rewrite <- (combine_nth l i k d d), <- (combine_nth t (combine l i) k d (d, d)); [|rewrite combine_length; lia|lia].
    apply nth_In. lia.
  - unfold cloudy_level, liquid_water_absorption. rewrite H1, H2. cbn [mname]. destruct Hm as [<-|[<-|[]]]; reflexivity.
  - intros (t0 & l0 & i0) Hin. apply (EN _ Hin (t0, (l0, i0)) eq_refl).
Qed.

Theorem C48_cloudy_without_formula db (g : globals A) h o m di dl k d : registered db -> wf h o -> o_cloudy o = true -> cloud_ready o ->
  o_ray o = false -> o_ice o = false -> o_unc o = false ->
  (o_o3n o = None \/ g_o3ll g <> None) -> (forall f, In f (o_frq o) -> freq_ok f) ->
  In m no_liquid -> o_dens o = Some (di, dl) -> k < o_nl o ->
  ltb (lit 0) (nth k (hget h dl) d) = true -> leb (nth k (hget h dl) d) (lit 0) = false ->
  o_frq o <> [] -> o_angles o <> [] ->
  execute db (init_absmdl g m) h o = Err ValueError.
Proof.
  intros R W Hc Hcr Hr Hi Hu H3 Hf Hm Hd Hk H1 H2 Hf0 Ha0.
  assert (Hmr : In m runnable) by (destruct Hm as [<-|[<-|[]]]; simpl; auto 12).
  destruct (linelist_ok db g m R Hmr) as (ll & ll2 & E). unfold execute. rewrite E. cbn [bind].
  set (g2 := with_sat _ _). set (i := inputs_of h o).
  destruct (wf_dens _ _ W _ _ Hd) as [Ldi Ldl]. destruct (Hcr Hc) as [_ (b & t & Hlv)].
  destruct (wf_levels _ _ W _ _ Hlv) as (Hb & Lbt & Rb & Rt).
  destruct (vapor (i_tk i) (i_rh i) (i_ice i)) as [[e rho]|x] eqn:Ev.
  2:{ unfold i in Ev. cbn [inputs_of i_ice] in Ev. rewrite Hi in Ev. discriminate. }
  destruct (vapor_length (i_tk i) (i_rh i) e rho) as [Le Lrho].
  { rewrite <- Ev. unfold i. cbn [inputs_of i_ice]. rewrite Hi. reflexivity. }
  { unfold i. cbn. rewrite (wf_tk _ _ W), (wf_rh _ _ W). reflexivity. }
  assert (LT : length (i_tk i) = o_nl o) by apply W.
  assert (LP : length (i_p i) = o_nl o) by apply W.
  assert (LZ : length (i_z i) = o_nl o) by apply W.
  rewrite LT in Le, Lrho.
  destruct (refractivity (i_p i) (i_tk i) e) as [[dryn wetn] refindx] eqn:Er.
  assert (HR := refr_length (i_p i) (i_tk i) e). rewrite Er in HR.
  destruct HR as (Ld & Lw & Ln); [lia|lia|]. rewrite LT in Ld, Lw, Ln.
  rewrite (run_all_intro g2 i _ _ _ _ _ _ _ _ Ev Er).
  assert (Lo := olds_length h o W).
  destruct (o_angles o) as [|a angles] eqn:Ea; [congruence|].
  destruct (olds_of o) as [|[cells [sl si]] olds] eqn:Eo; [discriminate|]. cbn [combine mapM].
  destruct (olds_in h o cells (sl, si) W) as [Hcells Lcells]; [rewrite Eo; left; reflexivity|].
  assert (ER : run_angle g2 i (o_frq o) e rho dryn wetn refindx a (cells, (sl, si)) = Err ValueError).
  { unfold run_angle. rewrite (path_plane i refindx a Hr). set (ds := lit 0 :: _). cbn [bind].
    assert (Lds : length ds = o_nl o).
    { apply (path_length i refindx a ds); auto. apply path_plane; auto. apply W. }
    assert (HI : forall zf (x : list num) factor, length x = o_nl o -> exists s out,
      exponential_integration zf x ds 0 (Z.of_nat (i_nl i)) factor = Ok (s, out)).
    { intros zf x factor Hx. destruct (exp_int_ok zf x ds 0 factor) as (s & out & E' & _); try lia.
      exists s, out. rewrite Lds in E'. exact E'. }
    destruct (HI true rho (lit 0.1) Lrho) as (s1 & o1 & ->). cbn [bind].
    destruct (HI true wetn (lit 0.1) Lw) as (s2 & o2 & ->). cbn [bind].
    destruct (HI true dryn (lit 0.1) Ld) as (s3 & o3 & ->). cbn [bind].
    assert (Ec : i_cloudy i = true) by exact Hc. rewrite Ec.
    assert (ED : i_dens i = Some (hget h di, hget h dl)) by (unfold i; cbn [inputs_of i_dens]; rewrite Hd; reflexivity).
    assert (EL : i_levels i = Some (b, t)) by exact Hlv. rewrite ED, EL. cbn [need bind fst snd].
    destruct (cloud_density_ok (hget h dl) ds b t) as [r1 ->]; [lia| | |].
    { intros x Hx. apply Rb in Hx. lia. } { intros x Hx. apply Rt in Hx. lia. }
    cbn [bind]. destruct (cloud_density_ok (hget h di) ds b t) as [r2 ->]; [lia| | |].
    { intros x Hx. apply Rb in Hx. lia. } { intros x Hx. apply Rt in Hx. lia. }
    cbn [bind].
    assert (EF : run_freqs g2 i e ds a (o_frq o) cells 0 = Err ValueError).
    { destruct (o_frq o) as [|f frqs] eqn:Efr; [congruence|]. destruct cells as [|c cells]; [discriminate|]. cbn [run_freqs].
      destruct (py_get_inrange (i_es i) 0) as [es ->].
      { assert (H := wf_es _ _ W). unfold i. cbn [inputs_of i_es]. rewrite Efr in H. simpl in H. lia. }
      cbn [bind]. unfold run_cell.
      assert (K := wf_in_ok h o e ds W Le Lds). fold i in K.
      destruct (clearsky_ok g2 (i_amu i) m ll ll2 (i_p i) (i_tk i) e f (i_o3n i)) as (w & dd & EC); auto; try reflexivity.
      { apply Hf. left; auto. }
      { destruct H3 as [H3|H3]; [left|right; exact H3]. unfold i. cbn. rewrite H3. reflexivity. }
      rewrite EC. cbn [bind].
      destruct (clearsky_lengths _ _ _ _ _ _ _ _ _ EC) as [Lw' Ld']; try lia.
      { intros l Hl. rewrite (ik_o3n _ _ _ K l Hl). symmetry. exact LT. }
      destruct (exp_int_ok1 true w ds (i_nl i) (lit 1) (ik_nl _ _ _ K) (ik_ds _ _ _ K)) as (sw & ow & -> & _); [rewrite Lw'; exact LT|].
      cbn [bind].
      destruct (exp_int_ok1 true dd ds (i_nl i) (lit 1) (ik_nl _ _ _ K) (ik_ds _ _ _ K)) as (sd & od & -> & _); [rewrite Ld'; exact LT|].
      cbn [bind]. rewrite Ec, ED. cbn [need bind fst snd].
      change (g_liq g2) with (Some m).
      rewrite (cloudy_err m (i_tk i) (hget h dl) (hget h di) f k d); auto; lia. }
    rewrite EF. reflexivity. }
  rewrite ER. reflexivity.
Qed.

(** ** C49: two solvers in one process *)

(** Selecting a name on solver 2 after solver 1 made its choice: solver 1 fails although its own choice is fine. *)
Theorem C49_other_solver_refuted db (g : globals A) h o m1 m2 : registered db -> wf h o ->
  o_cloudy o = false -> o_ray o = false -> o_ice o = false -> o_unc o = false -> o_o3n o = None ->
  (forall f, In f (o_frq o) -> freq_ok f) -> In m1 runnable -> ~ In m2 runnable ->
  (exists x, execute db (init_absmdl g m1) h o = Ok x) /\
  execute db (init_absmdl (init_absmdl g m1) m2) h o = Err AbsModelError.
Proof.
  intros R W Hc Hr Hi Hu H3 Hf Hm1 Hm2. split.
  - apply (C48_clear_sky db g h o m1); auto.
  - apply (C48_clear_sky db (init_absmdl g m1) h o m2); auto.
Qed.

End Models.
