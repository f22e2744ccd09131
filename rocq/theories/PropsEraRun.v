(** Claim C146: from a file of the ERA5 reanalysis to a spectrum of clear and cloudy skies, as in the examples of the documentation
    (docs/script_examples/plot_bt_era5.py:24-51 and plot_bt_era5_cloudy_profile.py:25-69): [read_data] gives a table of levels, whose
    heights, pressures, temperatures and humidities go to [TbCloudRTE]; the mass fractions of liquid water and ice become densities by
    [kgkg_to_kgm3]; the same solver is run without and then with clouds, over a surface of emissivity 0.6.

    Not modelled: the file format, plotting, [import_lineshape] (the list it returns is replaced by [execute]). *)

From Coq Require Import ZArith Reals Lra Lia String List Bool.
Import ListNotations.
From Verif Require Import Weighting PlotGroups PropsPlot.
From Verif Require Import Arith PyBase Utils RTE Absorption Clear Spectrum Spec ListAux RealAux PlanckReal PlanckMaster PropsPlanck Integral
  SolverGen SolverRun Registry PropsRun PropsObject PropsModels PropsSolverX PropsRay PropsLiq LineData Lineshape PropsAbsN2 PropsClear PropsO2H2O PropsH2O PropsO2Data PropsO3
  PropsUtils PropsUtils2 PropsSelfCont FinTransfer FinGas FinSD PropsUtils3 FinClear PropsRow WeightingGen SolverExamples FinCloud PropsEnd PropsMono PropsMixed.
From Verif Require Import Era PropsEra.
Local Open Scope string_scope.
Open Scope R_scope.

(** ** The program *)

Section Program.
Context {A : Arith}.
Notation num := (car A).
Local Open Scope arith_scope.

(** plot_bt_era5_cloudy_profile.py:37-41: mass of the gas per mass of air, density (g/m3) of a constituent of mass fraction [w]. *)
Definition gas_fraction (ci cl cr cs : num) : num := #1 - ci - cl - cr - cs.
Definition cloud_density (w tot q p t : num) : num := w * (#1 / tot) * kgkg_to_kgm3 (q * (#1 / tot)) p t * #1000.

Fixpoint map5 (f : num -> num -> num -> num -> num -> num) (a b c d e : list num) : list num :=
  match a, b, c, d, e with
  | x :: a, y :: b, z :: c, u :: d, v :: e => f x y z u v :: map5 f a b c d e
  | _, _, _, _, _ => []
  end.
Definition gas_fractions (df : era_df (A:=A)) : list num := map5 (fun ci cl cr cs _ => gas_fraction ci cl cr cs) (e_ciwc df) (e_clwc df) (e_crwc df) (e_cswc df) (e_p df).
Definition cloud_densities (w : list num) (df : era_df (A:=A)) : list num := map5 cloud_density w (gas_fractions df) (e_q df) (e_p df) (e_t df).

(** lines 62-64: models, with whatever list [import_lineshape] returned. *)
Definition choose (g : globals A) (m mw : string) ll : globals A :=
  let g := init_absmdl g m in
  mkGlobals (Some mw) (g_o2 g) (g_n2 g) (g_liq g) (g_o3 g) ll (g_o2ll g) (g_o3ll g) (g_from_sat g) (g_es g).

(** lines 65-69: one pass of the loop. *)
Definition pass (db : lldb A) (cldh : list (num * num)) (di dl : addr) (es : num) (s : globals A * heap A * tbobj A) (cloudy : bool)
  : result (list (row A) * tbobj A * (globals A * heap A * tbobj A)) :=
  let '(g, h, o) := s in
  let '(h, r) := set_emissivity h (with_cloudy o cloudy) (VFloat es) in
  do o <- r;
  let o := init_cloudy h o cldh di dl in
  do x <- execute db g h o;
  let '(fr, _, o', g') := x in
  Ok (fr, o, (g', h, o')).

(** The program: the table of the first and of the second pass and the solver of the second pass before it was executed. *)
Definition era_program (db : lldb A) (g : globals A) (h : heap A) (df : era_df (A:=A)) (frq ang : list num) (m mw : string) ll (es : num)
  : result (list (row A) * list (row A) * tbobj A) :=
  let '(h, z) := halloc h (e_z df) in
  let '(h, p) := halloc h (e_p df) in
  let '(h, t) := halloc h (e_t df) in
  let '(h, rh) := halloc h (e_rh df) in
  do lo <- np_min (e_z df);
  do hi <- np_max (e_z df);
  let '(h, di) := halloc h (cloud_densities (e_ciwc df) df) in
  let '(h, dl) := halloc h (cloud_densities (e_clwc df) df) in
  let '(h, r) := tb_init h z p t rh frq ang None None "" false true false in
  do o <- r;
  do x <- pass db [(lo, hi)] di dl es (choose g m mw ll, h, o) false;
  let '(fr0, _, s) := x in
  do y <- pass db [(lo, hi)] di dl es s true;
  let '(fr1, o1, _) := y in
  Ok (fr0, fr1, o1).
End Program.

(** ** Specification *)

(** A level of the file: pressure (hPa), temperature (K), relative humidity (per cent), specific humidity and mass fractions of cloud
    liquid, cloud ice, rain and snow (kg per kg of air). *)
Record elev := ELev { ev_p : R; ev_t : R; ev_r : R; ev_q : R; ev_cl : R; ev_ci : R; ev_cr : R; ev_cs : R }.

(** The levels of the file at the grid point [k], counted from the last one (the lowest). *)
Definition file_holds (nc : ncfile (A:=XA)) (k : nat) (l : list elev) : Prop :=
  List.length (nc_level nc) = List.length l /\ forall i r, nth_error l i = Some r -> let m := (List.length l - 1 - i)%nat in
    nth_error (nc_level nc) m = Some (Fin (ev_p r)) /\ cell (nc_t nc) m k k = Some (Fin (ev_t r)) /\ cell (nc_r nc) m k k = Some (Fin (ev_r r)) /\
    cell (nc_q nc) m k k = Some (Fin (ev_q r)) /\ cell (nc_clwc nc) m k k = Some (Fin (ev_cl r)) /\ cell (nc_ciwc nc) m k k = Some (Fin (ev_ci r)) /\
    cell (nc_crwc nc) m k k = Some (Fin (ev_cr r)) /\ cell (nc_cswc nc) m k k = Some (Fin (ev_cs r)).

(** Mass fraction of dry air. *)
Definition dry_part (r : elev) : R := 1 - ev_q r - ev_cl r - ev_ci r - ev_cr r - ev_cs r.
(** Density (kg/m3) of moist air carrying condensate: the partial pressures of dry air and vapour, with the gas constants 287.04 and
    287.04 / 0.621970585 J/kg/K, add up to the pressure. *)
Definition air_density (r : elev) : R := 100 * ev_p r / (287.04 * (dry_part r + ev_q r / 0.621970585) * ev_t r).

(** A physical profile: levels from high to low pressure, mass fractions that are not negative and leave some dry air, vapour pressures
    below the pressure, temperatures and pressures in the range of the speed-dependent line shapes; liquid water only above 208 K. *)
Record era_profile (l : list elev) : Prop := {
  ep_ne : l <> [];
  ep_falling : forall i, (S i < List.length l)%nat -> nth (S i) (map ev_p l) 0 < nth i (map ev_p l) 0;
  ep_mass : forall r, In r l -> 0 <= ev_q r /\ 0 <= ev_cl r /\ 0 <= ev_ci r /\ 0 <= ev_cr r /\ 0 <= ev_cs r /\ 0 < dry_part r;
  ep_range : forall r, In r l -> 100 <= ev_t r <= 385 /\ 0 < ev_p r <= 1100 /\ 0 <= ev_r r /\ ev_r r / 100 * goff_water (ev_t r) < ev_p r;
  ep_liquid : forall r, In r l -> 0 < ev_cl r -> 208.15 <= ev_t r }.

(** Heights (km) by the hypsometric equation with the virtual temperature [virtual_temperature] takes from the humidity of the file. *)
Definition ev_heights (l : list elev) : list R := map (hypso (map ev_p l) (level_tv (map ev_t l) (Some (map ev_q l)))) (seq 0 (List.length l)).
Definition ev_rh (r : elev) : R := ev_r r / 100.
Definition ev_liquid (r : elev) : R := 1000 * (ev_cl r * air_density r).
Definition ev_ice (r : elev) : R := 1000 * (ev_ci r * air_density r).

(** ** Columns of the table *)

Lemma nth_error_columns {T} (c : list T) (l : list elev) (f : elev -> T) : List.length c = List.length l ->
  (forall i r, nth_error l i = Some r -> nth_error c i = Some (f r)) -> c = map f l.
Proof.
  revert l. induction c as [|x c IH]; intros [|r l] L H; try discriminate; [reflexivity|]. cbn. f_equal.
  - specialize (H 0%nat r eq_refl). cbn in H. congruence.
  - apply IH; [cbn in L; lia|]. intros i r' Hi. exact (H (S i) r' Hi).
Qed.

Lemma trapz_D (ys xs : list (car XA)) (vs us : list (car RA)) : Forall2 D ys vs -> Forall2 D xs us -> D (trapz ys xs) (trapz vs us).
Proof.
  intros H. revert xs us. induction H as [|y v ys vs Hy H IH]; intros xs us H2; [reflexivity|].
  destruct H as [|y1 v1 ys1 vs1 Hy1 H1]; [reflexivity|].
  destruct H2 as [|x u xs us Hx H2]; [reflexivity|]. destruct H2 as [|x1 u1 xs1 us1 Hx1 H2]; [reflexivity|].
  cbn [trapz]. assert (Q := IH (x1 :: xs1) (u1 :: us1) ltac:(constructor; assumption)). apply D_add; [|exact Q]. dfin. ra. lra.
Qed.

Lemma firstn_D n (l : list (car XA)) (m : list (car RA)) : Forall2 D l m -> Forall2 D (firstn n l) (firstn n m).
Proof. intros H. revert n. induction H; intros [|n]; cbn; constructor; auto. Qed.

Lemma vt_D (t q : car XA) (t' q' : R) : D t t' -> D q q' -> 0 <= q' -> D (virtual_temperature t q) (virtual_temperature (A:=RA) t' q').
Proof. intros H1 H2 Hq. unfold virtual_temperature, k_Rdry, k_Rwatvap. cbv zeta. dfin; ra; try lra. Qed.

Lemma thickness_D (ps ts qs : list R) : (forall x, In x ps -> 0 < x) -> (forall x, In x qs -> 0 <= x) ->
  D (thickness_hydrostatic (A:=XA) (map Fin ps) (map Fin ts) (Some (map Fin qs))) (thickness_hydrostatic (A:=RA) ps ts (Some qs)).
Proof.
  intros Hp Hq. unfold thickness_hydrostatic, us_Rd. cbv zeta. apply D_mul; [dfin; ra; lra|]. apply trapz_D.
  - clear Hp. revert qs Hq. induction ts as [|t ts IH]; intros [|q qs] Hq; cbn [map combine]; try constructor; auto.
    + apply vt_D; [reflexivity|reflexivity|]. apply Hq. left. reflexivity.
    + apply IH. intros x Hx. apply Hq. right. exact Hx.
  - clear Hq. induction ps as [|p ps IH]; cbn [map]; constructor.
    + apply D_ln; [reflexivity|]. apply Hp. left. reflexivity.
    + apply IH. intros x Hx. apply Hp. right. exact Hx.
Qed.

Lemma in_firstn {T} n (l : list T) x : In x (firstn n l) -> In x l.
Proof. intros H. rewrite <- (firstn_skipn n l). apply in_or_app. auto. Qed.

Lemma tickness_fin (ps ts qs : list R) : List.length ps = List.length ts -> List.length qs = List.length ts -> (forall x, In x ps -> 0 < x) -> (forall x, In x qs -> 0 <= x) ->
  atmospheric_tickness (A:=XA) (map Fin ps) (map Fin ts) (Some (map Fin qs)) = map Fin (map (hypso ps (level_tv ts (Some qs))) (seq 0 (List.length ps))).
Proof.
  intros L1 L2 Hp Hq. destruct (C39_hypsometric ps ts (Some qs) L1 (conj L2 Hq) Hp) as [L H].
  assert (E : map (hypso ps (level_tv ts (Some qs))) (seq 0 (List.length ps)) = atmospheric_tickness (A:=RA) ps ts (Some qs)).
  { apply (List.nth_ext _ _ 0 0); [rewrite map_length, seq_length; symmetry; exact L|]. intros i Hi. rewrite map_length, seq_length in Hi. rewrite nth_map_seq_d by exact Hi. symmetry. apply H, Hi. }
  rewrite E. clear E H L. unfold atmospheric_tickness. rewrite map_length. apply D_list_inv.
  assert (Sq : forall q : list nat, Forall2 eq q q) by (intros q; induction q; constructor; auto). apply (D_map eq _ _ _ _ (Sq _)). intros i j <-. destruct i as [|i]; [apply D_lit|].
  apply D_div; [|apply D_lit|ra; lra]. cbn [option_map]. rewrite !firstn_map. apply thickness_D; intros x Hx; apply in_firstn in Hx; auto.
Qed.

(** The columns [era_program] uses: no NaN, and the numbers of the file. *)
Record era_columns (df : era_df (A:=XA)) (l : list elev) : Prop := {
  ec_p : e_p df = map Fin (map ev_p l); ec_t : e_t df = map Fin (map ev_t l); ec_rh : e_rh df = map Fin (map ev_rh l); ec_q : e_q df = map Fin (map ev_q l);
  ec_cl : e_clwc df = map Fin (map ev_cl l); ec_ci : e_ciwc df = map Fin (map ev_ci l); ec_cr : e_crwc df = map Fin (map ev_cr l); ec_cs : e_cswc df = map Fin (map ev_cs l);
  ec_z : e_z df = map Fin (ev_heights l) }.

Lemma heights_rising (l : list elev) : era_profile l -> rising (ev_heights l) /\ nth 0 (ev_heights l) 0 = 0 /\ List.length (ev_heights l) = List.length l.
Proof.
  intros [Hne Hf Hm Hg _]. unfold ev_heights. assert (Ln : (0 < List.length l)%nat) by (destruct l; [congruence|cbn; lia]).
  split; [|split; [rewrite nth_map_seq_d by exact Ln; reflexivity|rewrite map_length, seq_length; reflexivity]].
  intros i Hi. rewrite map_length, seq_length in Hi. rewrite !nth_map_seq_d by lia. rewrite hypso_S.
  set (d := ELev 0 0 0 0 0 0 0 0).
  assert (TV : forall k, (k < List.length l)%nat -> 0 < level_tv (map ev_t l) (Some (map ev_q l)) k).
  { intros k Hk. cbn [level_tv]. rewrite (nth_map_d ev_t l _ d) by exact Hk. rewrite (nth_map_d ev_q l _ d) by exact Hk. destruct (Hg (nth k l d) (nth_In _ _ Hk)) as ([T1 _] & _). destruct (Hm (nth k l d) (nth_In _ _ Hk)) as (Q & _).
    assert (0 < epsilon) by (unfold epsilon; lra). unfold Rdiv. apply Rmult_lt_0_compat; [apply Rmult_lt_0_compat; lra|]. apply Rinv_0_lt_compat, Rmult_lt_0_compat; lra. }
  assert (T1 := TV i ltac:(lia)). assert (T2 := TV (S i) ltac:(lia)). specialize (Hf i ltac:(lia)).
  assert (P2 : 0 < nth (S i) (map ev_p l) 0).
  { rewrite (nth_map_d ev_p l _ d) by lia. apply (Hg (nth (S i) l d)), nth_In. lia. }
  assert (L : 0 < ln (nth i (map ev_p l) 0 / nth (S i) (map ev_p l) 0)).
  { apply ln_gt0. apply Rmult_lt_reg_r with (nth (S i) (map ev_p l) 0); [exact P2|]. unfold Rdiv. rewrite Rmult_assoc, Rinv_l by lra. lra. }
  assert (G := RdG_pos). assert (0 < RdG * ((level_tv (map ev_t l) (Some (map ev_q l)) i + level_tv (map ev_t l) (Some (map ev_q l)) (S i)) / 2) * ln (nth i (map ev_p l) 0 / nth (S i) (map ev_p l) 0))
    by (apply Rmult_lt_0_compat; [apply Rmult_lt_0_compat; lra|exact L]). lra.
Qed.

(** The table read from a file with a physical profile at the nearest grid point, as a physical sounding. *)
Theorem C146_table (nc : ncfile (A:=XA)) lonlat k df l : read_data (A:=XA) nc lonlat = Ok df -> find_nearest (A:=XA) (nc_lon nc) (nc_lat nc) lonlat = Ok k ->
  file_holds nc k l -> era_profile l -> era_columns df l /\ sounding (ev_heights l) (map ev_p l) (map ev_t l) (map ev_rh l).
Proof.
  intros Rd Hk [Hn Hl] EP. assert (EP' := EP). destruct EP' as [Hne Hf Hm Hg _].
  destruct (C102_rows XA nc lonlat df Rd) as (k' & Hk' & [Len Row Z _]). rewrite Hk in Hk'. apply ok_inj in Hk'. subst k'. rewrite Hn in *.
  rewrite Forall_forall in Len.
  assert (C : forall (c : list (car XA)) (f : elev -> R), In c [e_p df; e_z df; e_t df; e_rh df; e_clwc df; e_ciwc df; e_crwc df; e_cswc df; e_o3 df; e_q df; e_time df] ->
    (forall i r, nth_error l i = Some r -> nth_error c i = Some (Fin (f r))) -> c = map Fin (map f l)).
  { intros c f Hc H. rewrite map_map. apply nth_error_columns; [apply Len, Hc|exact H]. }
  assert (V : forall i r, nth_error l i = Some r -> (i < List.length l)%nat) by (intros i r Hi; apply nth_error_Some; congruence).
  assert (E1 : e_p df = map Fin (map ev_p l)).
  { apply C; [cbn; auto 12|]. intros i r Hi. destruct (Row i (V i r Hi)) as (H & _). rewrite H. apply (Hl i r Hi). }
  assert (E2 : e_t df = map Fin (map ev_t l)).
  { apply C; [cbn; auto 12|]. intros i r Hi. destruct (Row i (V i r Hi)) as (_ & H & _). rewrite H. apply (Hl i r Hi). }
  assert (E3 : e_rh df = map Fin (map ev_rh l)).
  { apply C; [cbn; auto 12|]. intros i r Hi. destruct (Row i (V i r Hi)) as (_ & _ & H & _). rewrite H. destruct (Hl i r Hi) as (_ & _ & Q & _). rewrite Q. cbn [option_map]. apply f_equal.
    assert (Dv : D (div (a:=XA) (Fin (ev_r r)) (lit 100)) (div (a:=RA) (ev_r r) (lit 100))) by (dfin; [reflexivity|ra; lra]). unfold D in Dv. rewrite Dv. apply f_equal. unfold ev_rh. ra. lra. }
  assert (E4 : e_clwc df = map Fin (map ev_cl l)).
  { apply C; [cbn; auto 12|]. intros i r Hi. destruct (Row i (V i r Hi)) as (_ & _ & _ & H & _). rewrite H. apply (Hl i r Hi). }
  assert (E5 : e_ciwc df = map Fin (map ev_ci l)).
  { apply C; [cbn; auto 12|]. intros i r Hi. destruct (Row i (V i r Hi)) as (_ & _ & _ & _ & H & _). rewrite H. apply (Hl i r Hi). }
  assert (E6 : e_crwc df = map Fin (map ev_cr l)).
  { apply C; [cbn; auto 12|]. intros i r Hi. destruct (Row i (V i r Hi)) as (_ & _ & _ & _ & _ & H & _). rewrite H. apply (Hl i r Hi). }
  assert (E7 : e_cswc df = map Fin (map ev_cs l)).
  { apply C; [cbn; auto 12|]. intros i r Hi. destruct (Row i (V i r Hi)) as (_ & _ & _ & _ & _ & _ & H & _). rewrite H. apply (Hl i r Hi). }
  assert (E8 : e_q df = map Fin (map ev_q l)).
  { apply C; [cbn; auto 12|]. intros i r Hi. destruct (Row i (V i r Hi)) as (_ & _ & _ & _ & _ & _ & _ & _ & H). rewrite H. apply (Hl i r Hi). }
  destruct (heights_rising l EP) as (R1 & R2 & R3). split.
  - split; auto. rewrite Z, E1, E2, E8. rewrite tickness_fin; rewrite ?map_length; try reflexivity.
    + intros x Hx. apply in_map_iff in Hx. destruct Hx as (r & <- & Hr). apply (Hg r Hr).
    + intros x Hx. apply in_map_iff in Hx. destruct Hx as (r & <- & Hr). apply (Hm r Hr).
  - constructor; rewrite ?map_length, ?R3; auto.
    + intros E. rewrite E in R3. destruct l; [congruence|discriminate].
    + intros x Hx. apply in_map_iff in Hx. destruct Hx as (r & <- & Hr). destruct (Hg r Hr) as ([T _] & _). lra.
    + intros x Hx. apply in_map_iff in Hx. destruct Hx as (r & <- & Hr). destruct (Hg r Hr) as (_ & _ & H & _). unfold ev_rh. lra.
    + intros i Hi. set (d := ELev 0 0 0 0 0 0 0 0). rewrite (nth_map_d ev_rh l _ d), (nth_map_d ev_t l _ d), (nth_map_d ev_p l _ d) by exact Hi. apply (Hg (nth i l d)), nth_In, Hi.
Qed.

(** ** Densities *)

Lemma map5_fin (f : car XA -> car XA -> car XA -> car XA -> car XA -> car XA) (a b c d e g : elev -> R) (l : list elev) :
  (forall r, In r l -> f (Fin (a r)) (Fin (b r)) (Fin (c r)) (Fin (d r)) (Fin (e r)) = Fin (g r)) ->
  map5 (A:=XA) f (map Fin (map a l)) (map Fin (map b l)) (map Fin (map c l)) (map Fin (map d l)) (map Fin (map e l)) = map Fin (map g l).
Proof.
  induction l as [|r l IH]; intros H; [reflexivity|]. cbn [map map5]. rewrite (H r (or_introl eq_refl)). apply f_equal. apply IH. intros r' Hr. apply H. right. exact Hr.
Qed.

Definition ev_gas (r : elev) : R := 1 - ev_ci r - ev_cl r - ev_cr r - ev_cs r.

Lemma gas_fractions_fin df l : era_columns df l -> gas_fractions (A:=XA) df = map Fin (map ev_gas l).
Proof.
  intros C. unfold gas_fractions. rewrite (ec_ci _ _ C), (ec_cl _ _ C), (ec_cr _ _ C), (ec_cs _ _ C), (ec_p _ _ C).
  apply map5_fin with (g := ev_gas). intros r _. unfold gas_fraction, ev_gas.
  assert (Q : D (sub (a:=XA) (sub (a:=XA) (sub (a:=XA) (sub (a:=XA) (lit 1) (Fin (ev_ci r))) (Fin (ev_cl r))) (Fin (ev_cr r))) (Fin (ev_cs r)))
    (sub (a:=RA) (sub (a:=RA) (sub (a:=RA) (sub (a:=RA) (lit 1) (ev_ci r)) (ev_cl r)) (ev_cr r)) (ev_cs r))) by (dfin; reflexivity).
  unfold D in Q. rewrite Q. apply f_equal. ra. lra.
Qed.

Lemma kgkg_D (q p t : car XA) (q' p' t' : R) : D q q' -> D p p' -> D t t' -> 0 <= q' -> 0 < t' -> D (kgkg_to_kgm3 q p t) (kgkg_to_kgm3 (A:=RA) q' p' t').
Proof.
  intros H1 H2 H3 Hq Ht. unfold kgkg_to_kgm3, k_Rdry, eps_. cbv zeta. dfin; ra; try lra.
  assert (0 <= (1 / 1 - 621970585 / 1000000000) / (621970585 / 1000000000) * q') by (apply Rmult_le_pos; lra). apply Rgt_not_eq. apply Rmult_lt_0_compat; [|exact Ht]. apply Rmult_lt_0_compat; lra.
Qed.

Lemma density_fin (r : elev) (w : R) : 0 <= ev_q r -> 0 < dry_part r -> 0 < ev_t r ->
  cloud_density (A:=XA) (Fin w) (Fin (ev_gas r)) (Fin (ev_q r)) (Fin (ev_p r)) (Fin (ev_t r)) = Fin (1000 * (w * air_density r)).
Proof.
  intros Hq Hd Ht. unfold dry_part in Hd. assert (G : 0 < ev_gas r) by (unfold ev_gas; lra).
  assert (H1 := D_fin w). assert (H2 := D_fin (ev_gas r)). assert (H3 := D_fin (ev_q r)). assert (H4 := D_fin (ev_p r)). assert (H5 := D_fin (ev_t r)).
  assert (I : D (div (a:=XA) (lit 1) (Fin (ev_gas r))) (div (a:=RA) (lit 1) (ev_gas r))) by (dfin; ra; lra).
  assert (Hi : 0 < (1 / 1) / ev_gas r) by (apply Rdiv_lt_0_compat; lra).
  assert (Q : D (cloud_density (A:=XA) (Fin w) (Fin (ev_gas r)) (Fin (ev_q r)) (Fin (ev_p r)) (Fin (ev_t r))) (cloud_density (A:=RA) w (ev_gas r) (ev_q r) (ev_p r) (ev_t r))).
  { unfold cloud_density. apply D_mul; [|apply D_lit]. apply D_mul; [apply D_mul; [exact H1|exact I]|]. apply kgkg_D; [apply D_mul; [exact H3|exact I]|exact H4|exact H5| |exact Ht]. ra. apply Rmult_le_pos; lra. }
  unfold D in Q. rewrite Q. apply f_equal. clear Q I Hi H1 H2 H3 H4 H5. unfold cloud_density, kgkg_to_kgm3, k_Rdry, eps_, air_density. ra.
  assert (Dr : dry_part r = ev_gas r - ev_q r) by (unfold dry_part, ev_gas; ring). rewrite Dr.
  replace (28704 / 100) with 287.04 by lra. replace (621970585 / 1000000000) with 0.621970585 by lra.
  assert (Dp : 0 < ev_gas r - ev_q r) by (rewrite <- Dr; exact Hd). clear Dr Hd. generalize dependent (ev_gas r). generalize dependent (ev_q r). generalize dependent (ev_t r). generalize (ev_p r). intros p t Ht q Hq g Hg Hgq.
  assert (E1 : 0 < 0.621970585 < 1) by lra. revert E1. generalize 0.621970585. intros e E1. assert (K : 287.04 <> 0) by lra. revert K. generalize 287.04. intros c K.
  assert (X : 0 < e * (g - q) + q) by nra. field. repeat split; try lra.
  all: try (apply Rgt_not_eq; nra).
Qed.

Lemma densities_fin df l (w : elev -> R) c : era_columns df l -> era_profile l -> c = map Fin (map w l) ->
  cloud_densities (A:=XA) c df = map Fin (map (fun r => 1000 * (w r * air_density r)) l).
Proof.
  intros C [_ _ Hm Hg _] ->. unfold cloud_densities. rewrite (gas_fractions_fin df l C), (ec_q _ _ C), (ec_p _ _ C), (ec_t _ _ C).
  apply map5_fin with (g := fun r => 1000 * (w r * air_density r)). intros r Hr. destruct (Hm r Hr) as (A1 & _ & _ & _ & _ & A2). destruct (Hg r Hr) as ([A3 _] & _). apply density_fin; lra.
Qed.

Lemma air_density_pos r : 0 <= ev_q r -> 0 < dry_part r -> 0 < ev_t r -> 0 < ev_p r -> 0 < air_density r.
Proof.
  intros H1 H2 H3 H4. unfold air_density. apply Rdiv_lt_0_compat; [lra|]. assert (0 <= ev_q r / 0.621970585) by (apply Rmult_le_pos; [lra|left; apply Rinv_0_lt_compat; lra]).
  apply Rmult_lt_0_compat; [apply Rmult_lt_0_compat; lra|exact H3].
Qed.

(** The definition of the density: partial pressures of dry air and vapour add up to the pressure. *)
Lemma air_density_law r : 0 <= ev_q r -> 0 < dry_part r -> 0 < ev_t r ->
  (air_density r * dry_part r) * 287.04 * ev_t r + (air_density r * ev_q r) * (287.04 / 0.621970585) * ev_t r = 100 * ev_p r.
Proof.
  intros H1 H2 H3. unfold air_density. assert (0 <= ev_q r / 0.621970585) by (apply Rmult_le_pos; [lra|left; apply Rinv_0_lt_compat; lra]).
  generalize dependent (dry_part r). intros d Hd. generalize dependent (ev_q r). intros q Hq Hq2.
  assert (E1 : 0 < 0.621970585) by lra. revert E1 Hq2. generalize 0.621970585. intros e E1 Hq2. assert (K : 287.04 <> 0) by lra. revert K. generalize 287.04. intros c K.
  assert (X : 0 < d * e + q) by nra. field. repeat split; try lra. all: try (apply Rgt_not_eq; nra).
Qed.

(** ** Heights of the cloud *)

Lemma minmax_fin (better : bool) (l : list R) a : fold_left (if better then maxv (A:=XA) else minv (A:=XA)) (map Fin l) (Fin a) = Fin (fold_left (if better then maxv (A:=RA) else minv (A:=RA)) l a).
Proof.
  revert a. induction l as [|x l IH]; intros a; [reflexivity|]. cbn [map fold_left].
  assert (Q : (if better then maxv (A:=XA) else minv (A:=XA)) (Fin a) (Fin x) = Fin ((if better then maxv (A:=RA) else minv (A:=RA)) a x)).
  { destruct better; [exact (D_maxv _ _ _ _ (D_fin a) (D_fin x))|]. unfold minv. rewrite (D_ltb (Fin x) (Fin a) x a (D_fin x) (D_fin a)) || rewrite (D_ltb (Fin a) (Fin x) a x (D_fin a) (D_fin x)).
    destruct (ltb _ _); reflexivity. }
  rewrite Q. apply IH.
Qed.

Lemma rising_le zs : rising zs -> forall i j, (i <= j)%nat -> (j < List.length zs)%nat -> nth i zs 0 <= nth j zs 0.
Proof. intros H i j Hij Hj. destruct (Nat.eq_dec i j) as [->|N]; [lra|]. assert (Q := rising_lt zs H i j ltac:(lia) Hj). lra. Qed.

Lemma extremes zs : rising zs -> zs <> [] ->
  np_min (A:=XA) (map Fin zs) = Ok (Fin (nth 0 zs 0)) /\ np_max (A:=XA) (map Fin zs) = Ok (Fin (nth (List.length zs - 1) zs 0)).
Proof.
  intros Hr Hne. assert (Ln : (0 < List.length zs)%nat) by (destruct zs; [congruence|cbn; lia]).
  destruct (np_min_smallest zs Hne) as (a & A1 & A2 & A3). destruct (np_max_largest zs Hne) as (b & B1 & B2 & B3).
  assert (a = nth 0 zs 0).
  { apply Rle_antisym; [apply A3, nth_In, Ln|]. destruct (In_nth _ _ 0 A2) as (i & Hi & <-). apply rising_le; [exact Hr|lia|exact Hi]. }
  assert (b = nth (List.length zs - 1) zs 0).
  { apply Rle_antisym; [|apply B3, nth_In; lia]. destruct (In_nth _ _ 0 B2) as (i & Hi & <-). apply rising_le; [exact Hr|lia|lia]. }
  subst a b. destruct zs as [|z zs]; [congruence|]. unfold np_min in *. unfold np_max in *. cbn [map] in *. split.
  - rewrite (minmax_fin false zs z). apply ok_inj in A1. rewrite <- A1. reflexivity.
  - rewrite (minmax_fin true zs z). apply ok_inj in B1. rewrite <- B1. reflexivity.
Qed.

(** ** One pass of the loop *)

(** What every pass finds in the solver. *)
Record solver_holds (h : heap XA) (o : tbobj XA) (l : list elev) (fs angs : list R) (di dl : addr) : Prop := {
  sh_wf : wf h o; sh_ray : o_ray o = false; sh_ice : o_ice o = false; sh_unc : o_unc o = false; sh_o3 : o_o3n o = None; sh_sat : o_sat o = true;
  sh_frq : o_frq o = map Fin fs; sh_ang : o_angles o = map Fin angs; sh_nl : o_nl o = List.length l; sh_z0 : o_z0 o = Fin 0;
  sh_z : hget h (o_z o) = map Fin (ev_heights l); sh_p : hget h (o_p o) = map Fin (map ev_p l); sh_t : hget h (o_tk o) = map Fin (map ev_t l); sh_rh : hget h (o_rh o) = map Fin (map ev_rh l);
  sh_di : hget h di = map Fin (map ev_ice l); sh_dl : hget h dl = map Fin (map ev_liquid l) }.

(** Every row of a table holds the discretised transfer of the absorption of the models at the levels [l] with the densities [dls] of
    liquid water and [dis] of ice; brightness temperatures are finite, positive and not above [hi]. *)
Definition sky_rows (m mw : string) (es hi : R) (l : list elev) (dls dis : list R) (fs angs : list R) (fr : list (row XA)) : Prop :=
  List.length fr = (List.length angs * List.length fs)%nat /\ forall k j dr, (k < List.length angs)%nat -> (j < List.length fs)%nat ->
  let f := nth j fs 0 in let a := nth k angs 0 in
  exists aw ad al ai x T, mixed_absorption mw m m "" (map ev_p l) (map ev_t l) (map ev_rh l) None f aw ad /\ ideal_clouds m (map ev_t l) dls dis f al ai /\
    (forall v, In v aw \/ In v ad \/ In v al \/ In v ai -> 0 <= v) /\ nth (k * List.length fs + j) fr dr = f_row x /\
    spec_row true f es a (map ev_t l) (slant_path (ev_heights l) a) aw ad al ai x /\ r_tbtotal (f_row x) = Fin T /\ 0 < T <= hi.

Lemma models_kept db (g : globals XA) h o fr full o' g' mw mo mn ml : execute db g h o = Ok (fr, full, o', g') -> chosen g mw mo mn ml -> chosen g' mw mo mn ml.
Proof.
  intros H C. apply execute_inv in H. destruct H as (g1 & r & Hg & _ & _ & _ & _ & ->).
  assert (C1 : chosen g1 mw mo mn ml).
  { assert (E : g_h2o g1 = g_h2o g /\ g_o2 g1 = g_o2 g /\ g_n2 g1 = g_n2 g /\ g_liq g1 = g_liq g).
    { clear C. unfold init_linelist, set_ll_h2o, set_ll_o2 in Hg.
      repeat match type of Hg with context [match ?x with _ => _ end] => destruct x eqn:?; try discriminate; cbn [bind] in Hg end.
      inversion Hg. cbn. auto. }
    destruct E as (E1 & E2 & E3 & E4). unfold chosen. rewrite E1, E2, E3, E4. exact C. }
  clear Hg C. unfold run_effect. destruct (Nat.eqb _ _); exact C1.
Qed.

Lemma pass_runs m mw (g : globals XA) h o l fs angs di dl es hi (b : bool) : In mw std_models \/ In mw sd_fin_models -> In m fin_o2_names -> m <> "R98" -> In m n2_models -> In m liq_models ->
  era_profile l -> solver_holds h o l fs angs di dl -> chosen g mw m m m -> (b = false -> never_run o) -> 0 < es <= 1 ->
  (forall f, In f fs -> covered mw f) -> (forall a, In a angs -> 0 < a < 180) -> (forall r, In r l -> ev_t r <= hi) ->
  let n := List.length l in let no := repeat 0 n in
  exists fr o1 g' h' o', pass (@shipped XA) [(Fin (nth 0 (ev_heights l) 0), Fin (nth (n - 1) (ev_heights l) 0))] di dl (Fin es) (g, h, o) b = Ok (fr, o1, (g', h', o')) /\
    solver_holds h' o' l fs angs di dl /\ chosen g' mw m m m /\ (b = true -> o_levels o1 = Some ([0%Z], [Z.of_nat (n - 1)])) /\
    if b then sky_rows m mw es hi l (map ev_liquid l) (map ev_ice l) fs angs fr else sky_rows m mw es hi l no no fs angs fr.
Proof.
  intros Hmw Ho2 Ho2' Hn2 Hlq EP SH Hc Hb Hes Hf Ha Hhi n no. assert (EP' := EP). destruct EP' as [Hne Hfall Hm Hg Hliq]. destruct SH as [W H1 H2 H3 H4 H5 H6 H7 H8 H9 Hz Hp Ht Hrh Hdi Hdl].
  destruct (heights_rising l EP) as (R1 & R2 & R3).
  assert (Ln : (0 < n)%nat) by (unfold n; destruct l; [congruence|cbn; lia]).
  set (v := repeat (Fin es) (List.length (o_frq (with_cloudy o b)))). set (h' := (h ++ [v])%list). set (oe := with_es (with_cloudy o b) (List.length h)).
  assert (AO : forall a, (a < List.length h)%nat -> hget h' a = hget h a) by (intros a Hv; exact (hget_app_old h v a Hv)).
  assert (V : forall a (x : list R), hget h a = map Fin x -> List.length x = n -> hget h' a = map Fin x).
  { intros a x E L. rewrite AO; [exact E|]. apply hget_valid. rewrite E. destruct x; [cbn in L; lia|discriminate]. }
  assert (Lm : forall (f : elev -> R), List.length (map f l) = n) by (intros; apply map_length).
  assert (Hev : hget h' (List.length h) = v) by (exact (hget_alloc_new h v)).
  assert (VL : forall a, List.length (hget h a) = o_nl o -> hget h' a = hget h a).
  { intros a L. apply AO, hget_valid. intros E. rewrite E in L. apply (wf_nl _ _ W). auto. }
  assert (We : wf h' oe).
  { destruct W as [w1 w2 w3 w4 w5 w6 w7 w8 w9 w10 w11 w12 w13 w14]. constructor; cbn [oe with_es with_cloudy o_nl o_z o_p o_tk o_rh o_o3n o_es o_frq o_dens o_levels o_cells o_angles o_sliq o_sice]; auto.
    - rewrite VL; auto.
    - rewrite VL; auto.
    - rewrite VL; auto.
    - rewrite VL; auto.
    - intros a Ea. rewrite VL; auto.
    - rewrite Hev. unfold v. rewrite repeat_length. cbn. lia.
    - intros a c E. destruct (w8 a c E). rewrite !VL; auto. }
  set (cldh := [(Fin (nth 0 (ev_heights l) 0), Fin (nth (n - 1) (ev_heights l) 0))]).
  destruct (init_cloudy_wf h' oe cldh di dl We ltac:(discriminate)) as [Wc Rc].
  { rewrite (V di _ Hdi (Lm _)), !map_length. symmetry. exact H8. }
  { rewrite (V dl _ Hdl (Lm _)), !map_length. symmetry. exact H8. }
  set (oc := init_cloudy h' oe cldh di dl) in *.
  assert (F : o_z oc = o_z o /\ o_p oc = o_p o /\ o_tk oc = o_tk o /\ o_rh oc = o_rh o /\ o_frq oc = o_frq o /\ o_angles oc = o_angles o /\ o_o3n oc = o_o3n o /\ o_ray oc = o_ray o /\ o_sat oc = o_sat o /\
    o_cloudy oc = b /\ o_unc oc = o_unc o /\ o_ice oc = o_ice o /\ o_nl oc = o_nl o /\ o_es oc = List.length h /\ o_z0 oc = o_z0 o /\ o_cells oc = o_cells o /\ (b = true -> o_dens oc = Some (di, dl))).
  { unfold oc, init_cloudy, oe. cbn [o_cloudy with_es with_cloudy]. destruct b; cbn; repeat split; try reflexivity; discriminate. }
  destruct F as (F1 & F2 & F3 & F4 & F5 & F6 & F7 & F8 & F9 & F10 & F11 & F12 & F13 & F14 & F15 & F16 & F17).
  set (dls := if b then map ev_liquid l else no). set (dis := if b then map ev_ice l else no).
  assert (Lt : List.length (map ev_t l) = n) by apply Lm.
  assert (Zc : hget h' (o_z oc) = map Fin (ev_heights l)) by (rewrite F1; apply V; [exact Hz|rewrite R3; reflexivity]).
  assert (Pc : hget h' (o_p oc) = map Fin (map ev_p l)) by (rewrite F2; apply V; [exact Hp|apply Lm]).
  assert (Tc : hget h' (o_tk oc) = map Fin (map ev_t l)) by (rewrite F3; apply V; [exact Ht|apply Lm]).
  assert (RHc : hget h' (o_rh oc) = map Fin (map ev_rh l)) by (rewrite F4; apply V; [exact Hrh|apply Lm]).
  assert (SO : sounding (ev_heights l) (map ev_p l) (map ev_t l) (map ev_rh l)).
  { constructor; rewrite ?map_length, ?R3; auto.
    + intros E. rewrite E in R3. destruct l; [congruence|discriminate].
    + intros x Hx. apply in_map_iff in Hx. destruct Hx as (r & <- & Hr). destruct (Hg r Hr) as ([T _] & _). lra.
    + intros x Hx. apply in_map_iff in Hx. destruct Hx as (r & <- & Hr). destruct (Hg r Hr) as (_ & _ & H & _). unfold ev_rh. lra.
    + intros i Hi. set (d := ELev 0 0 0 0 0 0 0 0). rewrite (nth_map_d ev_rh l _ d), (nth_map_d ev_t l _ d), (nth_map_d ev_p l _ d) by exact Hi. apply (Hg (nth i l d)), nth_In, Hi. }
  assert (Cv : covers mw m m (map ev_p l) (map ev_t l)).
  { constructor; [|split; assumption|exact Hn2]. destruct Hmw as [X|X]; [left; exact X|right]. split; [exact X|]. split.
    - intros x Hx. apply in_map_iff in Hx. destruct Hx as (r & <- & Hr). apply (Hg r Hr).
    - intros x Hx. apply in_map_iff in Hx. destruct Hx as (r & <- & Hr). apply (Hg r Hr). }
  assert (CI : cloud_input h' oc m (map ev_t l) dls dis).
  { unfold cloud_input. rewrite Lt. rewrite F10. unfold dls, dis. destruct b; [right|left].
    - split; [reflexivity|]. split; [exact Rc|]. split.
      + exists di, dl. split; [apply F17; reflexivity|]. split; apply V; auto.
      + intros i Hi Hd. split; [exact Hlq|]. set (d := ELev 0 0 0 0 0 0 0 0). rewrite (nth_map_d ev_liquid l _ d) in Hd by exact Hi. rewrite (nth_map_d ev_t l _ d) by exact Hi.
        assert (In (nth i l d) l) by (apply nth_In, Hi). destruct (Hg _ H) as (T & P & _). destruct (Hm _ H) as (Q & _ & _ & _ & _ & Dp).
        assert (0 < ev_cl (nth i l d)); [|split; [apply (Hliq _ H H0)|lra]]. unfold ev_liquid in Hd. assert (AP := air_density_pos _ Q Dp ltac:(lra) ltac:(lra)). nra.
    - split; [reflexivity|]. split; [|split; reflexivity]. intros cs c Hcs Hcc. rewrite F16 in Hcs. rewrite F13. apply (Hb eq_refl cs c Hcs Hcc). }
  destruct (C130_run g h' oc mw m m m "" (ev_heights l) (map ev_p l) (map ev_t l) (map ev_rh l) None dls dis Hc Cv Wc CI) as (fr & full & o' & g' & X1 & X2 & X3); auto; try congruence.
  { intros x Hx. rewrite F5, H6 in Hx. apply in_map_iff in Hx. destruct Hx as (u & <- & Hu). eauto. }
  { intros x Hx. rewrite F6, H7 in Hx. apply in_map_iff in Hx. destruct Hx as (u & <- & Hu). eauto. }
  { intros x Hx. rewrite F14, Hev in Hx. unfold v in Hx. apply repeat_spec in Hx. subst x. exists es. split; [reflexivity|lra]. }
  exists fr, oc, g', h', o'. split.
  { transitivity (do x <- execute (@shipped XA) g h' oc; let '(fr, _, o', g') := x in Ok (fr, oc, (g', h', o'))); [reflexivity|]. rewrite X1. reflexivity. }
  assert (Wo := execute_wf _ _ _ _ _ _ _ _ Wc X1). assert (X1' := X1). apply execute_inv in X1'. destruct X1' as (g1 & r & _ & _ & _ & _ & Eo & _).
  assert (Eq : forall T (f : tbobj XA -> T), f o' = f (with_run oc r)) by (intros; rewrite Eo; reflexivity).
  split; [|split; [exact (models_kept _ _ _ _ _ _ _ _ _ _ _ _ X1 Hc)|split]].
  - constructor; auto; try (rewrite Eo; cbn [with_run o_ray o_ice o_unc o_o3n o_sat o_frq o_angles o_nl o_z0 o_z o_p o_tk o_rh]; congruence).
  - intros ->. unfold oc, init_cloudy, oe, cldh. cbn [o_cloudy with_es with_cloudy o_levels o_z o_z0 map].
    rewrite H9. assert (Zh : hget h' (o_z o) = map Fin (ev_heights l)) by (rewrite <- F1; exact Zc). rewrite Zh.
    assert (S0 : forall c, sub (a:=XA) (Fin c) (Fin 0) = Fin c) by (intros c; change (Fin (c - 0) = Fin c); apply f_equal; lra). rewrite !S0.
    rewrite !lookup_found; [|apply rising_NoDup, R1|rewrite R3; unfold n in *; lia|apply rising_NoDup, R1|rewrite R3; exact Ln]. cbn [Z.add Z.of_nat]. reflexivity.
  - assert (SR : sky_rows m mw es hi l dls dis fs angs fr).
    { rewrite F5, F6, H6, H7, !map_length in X2. split; [exact X2|]. intros k j dr Hk Hj f a. rewrite F5, F6, H6, H7, !map_length in X3.
      destruct (X3 k j dr Hk Hj) as (f' & a' & es' & aw & ad & al & ai & E1 & E2 & E3 & E4 & E5 & (E6 & E7 & E8) & (E9 & E10 & E11) & E12 & _ & _ & E13).
      unfold x0 in E1, E2. rewrite (nth_map_d Fin fs _ 0) in E1 by assumption. rewrite (nth_map_d Fin angs _ 0) in E2 by assumption.
      assert (f' = f) by (inversion E1; reflexivity). assert (a' = a) by (inversion E2; reflexivity). subst f' a'.
      assert (es' = es).
      { rewrite F14, Hev in E3. unfold v in E3. cbn [with_cloudy o_frq] in E3. rewrite H6, map_length in E3. rewrite nth_repeat_lt in E3 by exact Hj. inversion E3. reflexivity. }
      subst es'. rewrite F9, H5 in E13. cbv zeta in E12, E13.
      assert (Ha0 : 0 < a < 180) by (apply Ha, nth_In, Hk). assert (SN := slant_nonneg (ev_heights l) a R1 Ha0).
      destruct (C111_bounds true f es a (map ev_t l) _ aw ad al ai _ 100 hi E13) as (T & T1 & T2 & _ & T4 & _).
      { apply (Hf f), nth_In, Hj. } { lra. }
      { intros x Hx. apply in_map_iff in Hx. destruct Hx as (r0 & <- & Hr). destruct (Hg r0 Hr) as ([T _] & _). split; [exact T|apply Hhi, Hr]. }
      { intros E. rewrite E in Lt. cbn in Lt. lia. } { rewrite map_length. exact E9. }
      { intros w Hw. unfold opacities in Hw. apply in_map_iff in Hw. destruct Hw as (i & <- & _).
        assert (A1 := layer_int_nonneg false al _ i ltac:(intros; apply E8; auto) SN). assert (A4 := layer_int_nonneg false ai _ i ltac:(intros; apply E8; auto) SN).
        assert (A2 := layer_int_nonneg true aw _ i ltac:(intros; apply E11; auto) SN). assert (A3 := layer_int_nonneg true ad _ i ltac:(intros; apply E11; auto) SN). lra. }
      { intros _. exact Hes. }
      exists aw, ad, al, ai, (nth j (an_rows (nth k full angle0)) full0), T. split; [exact E4|]. split; [exact E5|]. split.
      { intros w [Hw|[Hw|Hw]]; [apply E11; auto|apply E11; auto|apply E8, Hw]. }
      split; [exact E12|]. split; [exact E13|]. split; [exact T1|]. split; [exact T2|apply T4; reflexivity]. }
    unfold dls, dis in SR. destruct b; exact SR.
Qed.

(** The whole program.  [n] levels; the cloud reaches from the lowest to the highest. *)
Theorem C146_era (nc : ncfile (A:=XA)) lonlat k df l (g : globals XA) (h : heap XA) m mw ll fs angs es hi :
  read_data (A:=XA) nc lonlat = Ok df -> find_nearest (A:=XA) (nc_lon nc) (nc_lat nc) lonlat = Ok k -> file_holds nc k l -> era_profile l ->
  In mw std_models \/ In mw sd_fin_models -> In m fin_o2_names -> m <> "R98" -> In m n2_models -> In m liq_models -> 0 < es <= 1 ->
  (forall f, In f fs -> covered mw f) -> (forall a, In a angs -> 0 < a < 180) -> (forall r, In r l -> ev_t r <= hi) ->
  let no := repeat 0 (List.length l) in
  exists clear cloudy o, era_program (@shipped XA) g h df (map Fin fs) (map Fin angs) m mw ll (Fin es) = Ok (clear, cloudy, o) /\
    sky_rows m mw es hi l no no fs angs clear /\ sky_rows m mw es hi l (map ev_liquid l) (map ev_ice l) fs angs cloudy /\
    o_levels o = Some ([0%Z], [Z.of_nat (List.length l - 1)]).
Proof.
  intros Rd Hk Hl EP Hmw Ho2 Ho2' Hn2 Hlq Hes Hf Ha Hhi no. destruct (C146_table nc lonlat k df l Rd Hk Hl EP) as [C SO].
  destruct (heights_rising l EP) as (R1 & R2 & R3). assert (Hne := ep_ne _ EP). assert (Ln : (0 < List.length l)%nat) by (destruct l; [congruence|cbn; lia]).
  assert (Zne : ev_heights l <> []) by (apply (so_ne _ _ _ _ SO)).
  assert (DI := densities_fin df l ev_ci _ C EP (ec_ci _ _ C)). assert (DL := densities_fin df l ev_cl _ C EP (ec_cl _ _ C)). fold ev_ice in DI. fold ev_liquid in DL.
  destruct (extremes (ev_heights l) R1 Zne) as [M1 M2]. rewrite R3 in M2.
  set (N := List.length h).
  set (h1 := (h ++ [e_z df])%list : heap XA). set (h2 := (h1 ++ [e_p df])%list : heap XA). set (h3 := (h2 ++ [e_t df])%list : heap XA). set (h4 := (h3 ++ [e_rh df])%list : heap XA).
  set (h5 := (h4 ++ [cloud_densities (A:=XA) (e_ciwc df) df])%list : heap XA). set (h6 := (h5 ++ [cloud_densities (A:=XA) (e_clwc df) df])%list : heap XA).
  assert (L1 : List.length h1 = (N + 1)%nat) by (unfold h1; rewrite app_length; reflexivity). assert (L2 : List.length h2 = (N + 2)%nat) by (unfold h2; rewrite app_length, L1; cbn [List.length]; lia).
  assert (L3 : List.length h3 = (N + 3)%nat) by (unfold h3; rewrite app_length, L2; cbn [List.length]; lia). assert (L4 : List.length h4 = (N + 4)%nat) by (unfold h4; rewrite app_length, L3; cbn [List.length]; lia).
  assert (L5 : List.length h5 = (N + 5)%nat) by (unfold h5; rewrite app_length, L4; cbn [List.length]; lia). assert (L6 : List.length h6 = (N + 6)%nat) by (unfold h6; rewrite app_length, L5; cbn [List.length]; lia).
  assert (G : forall i, (i < 6)%nat -> hget h6 (N + i)%nat = nth i [e_z df; e_p df; e_t df; e_rh df; cloud_densities (A:=XA) (e_ciwc df) df; cloud_densities (A:=XA) (e_clwc df) df] []).
  { intros i Hi. unfold h6, h5, h4, h3, h2, h1, hget. rewrite <- !app_assoc. cbn [app]. rewrite app_nth2 by (unfold N; lia). replace (N + i - List.length h)%nat with i by (unfold N; lia). reflexivity. }
  assert (G0 : hget h6 N = map Fin (ev_heights l)) by (rewrite <- (ec_z _ _ C), <- (Nat.add_0_r N); apply (G 0%nat); lia).
  assert (G1 : hget h6 (List.length h1) = map Fin (map ev_p l)) by (rewrite L1, <- (ec_p _ _ C); apply (G 1%nat); lia).
  assert (G2 : hget h6 (List.length h2) = map Fin (map ev_t l)) by (rewrite L2, <- (ec_t _ _ C); apply (G 2%nat); lia).
  assert (G3 : hget h6 (List.length h3) = map Fin (map ev_rh l)) by (rewrite L3, <- (ec_rh _ _ C); apply (G 3%nat); lia).
  assert (G4 : hget h6 (List.length h4) = map Fin (map ev_ice l)) by (rewrite L4; etransitivity; [apply (G 4%nat); lia|exact DI]).
  assert (G5 : hget h6 (List.length h5) = map Fin (map ev_liquid l)) by (rewrite L5; etransitivity; [apply (G 5%nat); lia|exact DL]).
  clear G. assert (ND := rising_NoDup _ R1).
  destruct (C44_exact h6 N (List.length h1) (List.length h2) (List.length h3) (map Fin fs) (map Fin angs) None None false true false (ev_heights l) G0 Zne) as [HC _].
  destruct (HC (NoDup_no_repeat _ ND)) as (o & HO & _).
  destruct (tb_init (A:=XA) h6 N (List.length h1) (List.length h2) (List.length h3) (map Fin fs) (map Fin angs) None None "" false true false) as [h' r] eqn:EI. cbn [snd] in HO. subst r.
  destruct (init_z h6 h' _ _ _ _ (map Fin fs) (map Fin angs) None None false true false o (ev_heights l) G0 Zne ND EI) as (_ & Z0 & _ & Hz').
  assert (F := tb_init_wf h6 h' _ _ _ _ (map Fin fs) (map Fin angs) None None "" false true false o EI). cbv zeta in F. rewrite G0, G1, G2, G3 in F.
  rewrite !map_length, R3 in F. destruct (F eq_refl eq_refl eq_refl) as (W & _ & K2 & K3 & K4 & K5 & K6 & K7 & K8 & K9 & _ & _ & K12 & K13 & K14 & K15 & K16 & K17 & K18 & _ & _); [discriminate|].
  assert (SH : solver_holds h' o l fs angs (List.length h4) (List.length h5)).
  { constructor; auto.
    - rewrite Z0, R2. reflexivity.
    - rewrite K15, Hz', R2. apply f_equal. rewrite <- (map_id (ev_heights l)) at 2. apply map_ext. intros x. lra.
    - rewrite K13, K18 by lia. exact G1.
    - rewrite K12, K18 by lia. exact G2.
    - rewrite K14, K18 by lia. exact G3.
    - rewrite K18 by lia. exact G4.
    - rewrite K18 by lia. exact G5. }
  assert (Ch : chosen (choose g m mw ll) mw m m m) by (repeat split).
  destruct (pass_runs m mw (choose g m mw ll) h' o l fs angs (List.length h4) (List.length h5) es hi false Hmw Ho2 Ho2' Hn2 Hlq EP SH Ch) as (fr & o1 & g2 & h2' & o2 & E1 & SH2 & Ch2 & _ & S1); auto.
  { intros _ cs c Hcs Hcc. rewrite K9. apply (K17 cs c Hcs Hcc). }
  destruct (pass_runs m mw g2 h2' o2 l fs angs (List.length h4) (List.length h5) es hi true Hmw Ho2 Ho2' Hn2 Hlq EP SH2 Ch2) as (fr' & o1' & g3 & h3' & o3 & E2 & _ & _ & Lv & S2); auto.
  { discriminate. }
  exists fr, fr', o1'. split; [|auto]. unfold era_program. cbn [halloc]. fold h1. fold h2. fold h3. fold h4. fold h5. fold h6. fold N.
  rewrite (ec_z _ _ C), M1, M2. cbn [bind]. rewrite EI. cbn [bind]. 
  match goal with |- bind _ ?q = _ => etransitivity; [exact (f_equal (fun r => bind r q) E1)|] end. cbn [bind].
  match goal with |- bind _ ?q = _ => etransitivity; [exact (f_equal (fun r => bind r q) E2)|] end. reflexivity.
Qed.

(** Densities of cloud water and ice: the mass fraction times the density of air for which the partial pressures add up to the
    pressure.  (Rain and snow take part in the mass balance only.) *)
Theorem C146_density (r : elev) (w : R) : 0 <= ev_q r -> 0 < dry_part r -> 0 < ev_t r -> 0 < ev_p r ->
  exists rho, 0 < rho /\ (rho * dry_part r) * 287.04 * ev_t r + (rho * ev_q r) * (287.04 / 0.621970585) * ev_t r = 100 * ev_p r /\
    cloud_density (A:=XA) (Fin w) (gas_fraction (A:=XA) (Fin (ev_ci r)) (Fin (ev_cl r)) (Fin (ev_cr r)) (Fin (ev_cs r))) (Fin (ev_q r)) (Fin (ev_p r)) (Fin (ev_t r)) = Fin (1000 * (w * rho)).
Proof.
  intros Hq Hd Ht Hp. exists (air_density r). split; [apply air_density_pos; assumption|]. split; [apply air_density_law; assumption|].
  assert (Q : D (gas_fraction (A:=XA) (Fin (ev_ci r)) (Fin (ev_cl r)) (Fin (ev_cr r)) (Fin (ev_cs r))) (gas_fraction (A:=RA) (ev_ci r) (ev_cl r) (ev_cr r) (ev_cs r))) by (unfold gas_fraction; dfin; reflexivity).
  unfold D in Q. rewrite Q. replace (gas_fraction (A:=RA) (ev_ci r) (ev_cl r) (ev_cr r) (ev_cs r)) with (ev_gas r) by (unfold gas_fraction, ev_gas; ra; lra).
  apply density_fin; assumption.
Qed.

(** plot_bt_era5.py:33-51: the table without clouds, over a black surface, in either direction. *)
Theorem C146_clear (nc : ncfile (A:=XA)) lonlat k df l (g : globals XA) (h : heap XA) z p t rh m mw ll fs angs sat hi :
  read_data (A:=XA) nc lonlat = Ok df -> find_nearest (A:=XA) (nc_lon nc) (nc_lat nc) lonlat = Ok k -> file_holds nc k l -> era_profile l ->
  In mw std_models \/ In mw sd_fin_models -> In m fin_o2_names -> m <> "R98" -> In m n2_models ->
  hget h z = e_z df -> hget h p = e_p df -> hget h t = e_t df -> hget h rh = e_rh df -> z <> p -> z <> t -> z <> rh ->
  (forall f, In f fs -> covered mw f) -> (forall a, In a angs -> 0 < a < 180) -> (forall r, In r l -> ev_t r <= hi) ->
  exists h' o fr full o' g', tb_init (A:=XA) h z p t rh (map Fin fs) (map Fin angs) None None "" false sat false = (h', Ok o) /\
    execute (@shipped XA) (choose g m mw ll) h' o = Ok (fr, full, o', g') /\ List.length fr = (List.length angs * List.length fs)%nat /\
    forall k j dr, (k < List.length angs)%nat -> (j < List.length fs)%nat ->
    let f := nth j fs 0 in let a := nth k angs 0 in let no := repeat 0 (List.length l) in
    exists aw ad x T, mixed_absorption mw m m "" (map ev_p l) (map ev_t l) (map ev_rh l) None f aw ad /\ (forall v, In v aw \/ In v ad -> 0 <= v) /\
      nth (k * List.length fs + j) fr dr = f_row x /\ spec_row sat f 1 a (map ev_t l) (slant_path (ev_heights l) a) aw ad no no x /\
      r_tbtotal (f_row x) = Fin T /\ 0 < T <= hi.
Proof.
  intros Rd Hk Hl EP Hmw Ho2 Ho2' Hn2 Hz Hp Ht Hrh N1 N2 N3 Hf Ha Hhi. destruct (C146_table nc lonlat k df l Rd Hk Hl EP) as [C SO]. assert (Hg := ep_range _ EP).
  assert (Cv : covers mw m m (map ev_p l) (map ev_t l)).
  { constructor; [|split; assumption|exact Hn2]. destruct Hmw as [X|X]; [left; exact X|right]. split; [exact X|]. split.
    - intros x Hx. apply in_map_iff in Hx. destruct Hx as (r & <- & Hr). apply (Hg r Hr).
    - intros x Hx. apply in_map_iff in Hx. destruct Hx as (r & <- & Hr). apply (Hg r Hr). }
  destruct (heights_rising l EP) as (_ & _ & R3).
  destruct (C130_from_constructor (choose g m mw ll) h z p t rh None mw m m m "" (ev_heights l) (map ev_p l) (map ev_t l) (map ev_rh l) None fs angs sat 100 hi) as (h' & o & fr & full & o' & g' & R1 & R2 & R4 & R5); auto; try lra.
  { repeat split. } { rewrite Hz. apply C. } { rewrite Hp. apply C. } { rewrite Ht. apply C. } { rewrite Hrh. apply C. } { exact I. }
  { intros x Hx. apply in_map_iff in Hx. destruct Hx as (r & <- & Hr). destruct (Hg r Hr) as ([T _] & _). split; [exact T|apply Hhi, Hr]. }
  exists h', o, fr, full, o', g'. split; [exact R1|]. split; [exact R2|]. split; [exact R4|]. intros i j dr Hi Hj f a no.
  destruct (R5 i j dr Hi Hj) as (aw & ad & x & T & E1 & (_ & _ & E2) & E3 & _ & _ & E6 & E7 & E8 & _). rewrite R3 in E6. exists aw, ad, x, T. auto 10.
Qed.

(** ** A concrete case: two levels, a water cloud in the lower one. *)

Definition ex_glob0 : globals XA := mkGlobals (A:=XA) None None None None None None None None false (Fin 1).

Definition small_file : ncfile (A:=XA) :=
  let v a b : cube (A:=XA) := [[[[Fin a]]; [[Fin b]]]] in Nc (A:=XA) [Fin 38] [Fin 15] [Fin 500; Fin 1000] [Fin 0] (v 250 290) (v 30 80) (v 0 0.0003) (v 0.0001 0) (v 0 0.0001) (v 0 0) (v 0 0) (v 0.001 0.01).
Definition small_levels : list elev := [ELev 1000 290 80 0.01 0.0003 0 0.0001 0; ELev 500 250 30 0.001 0 0.0001 0 0].

Lemma small_profile : era_profile small_levels.
Proof.
  assert (G1 := goff_small 290 ltac:(lra)). assert (G2 := goff_small 250 ltac:(lra)).
  constructor.
  - discriminate.
  - intros [|i] Hi; cbn in *; [lra|lia].
  - intros r [<-|[<-|[]]]; unfold dry_part; cbn; lra.
  - intros r [<-|[<-|[]]]; cbn [ev_t ev_p ev_r]; lra.
  - intros r [<-|[<-|[]]]; cbn; lra.
Qed.

Lemma small_holds : file_holds small_file 0 small_levels.
Proof. split; [reflexivity|]. intros [|[|i]] r H; [| |destruct i; discriminate]; injection H as <-; cbn; repeat split; reflexivity. Qed.

Example C146_example : exists df clear cloudy o, read_data (A:=XA) small_file (Fin 15, Fin 38) = Ok df /\
  era_program (@shipped XA) ex_glob0 [] df (map Fin [22.235; 60]) (map Fin [90]) "R20" "R21SD" None (Fin 0.6) = Ok (clear, cloudy, o) /\
  sky_rows "R20" "R21SD" 0.6 290 small_levels [0; 0] [0; 0] [22.235; 60] [90] clear /\
  sky_rows "R20" "R21SD" 0.6 290 small_levels (map ev_liquid small_levels) (map ev_ice small_levels) [22.235; 60] [90] cloudy.
Proof.
  destruct (read_data (A:=XA) small_file (Fin 15, Fin 38)) as [df|] eqn:E; [|discriminate].
  destruct (C146_era small_file (Fin 15, Fin 38) 0%nat df small_levels ex_glob0 [] "R20" "R21SD" None [22.235; 60] [90] 0.6 290) as (c & cl & o & H1 & H2 & H3 & _).
  - exact E.
  - reflexivity.
  - exact small_holds.
  - exact small_profile.
  - right. cbn. tauto.
  - cbn. tauto.
  - discriminate.
  - cbn. tauto.
  - cbn. tauto.
  - lra.
  - intros f [<-|[<-|[]]]; (split; [lra|intros [X|[X|[X|[]]]]; discriminate]).
  - intros a [<-|[]]; lra.
  - intros r [<-|[<-|[]]]; cbn; lra.
  - exists df, c, cl, o. auto.
Qed.
