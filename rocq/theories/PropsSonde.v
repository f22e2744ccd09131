(** Claim C145: from the text of a radiosonde archive to a spectrum, as in the examples of the documentation
    (docs/script_examples/plot_bt_wyoming.py:24-43 and plot_bt_igra2.py:23-44): the levels of a table become the arrays
    height / 1000, pressure, [to_kelvin] of temperature and [dewpoint2rh] of dew point and temperature, which are handed to
    [TbCloudRTE]; models are chosen per gas; [execute] fills the table.

    Not modelled: data frames (a column is a list, a missing cell is NaN), the download. *)

From Coq Require Import ZArith Reals Lra Lia String List Bool Ascii.
Import ListNotations.
From Verif Require Import PyStr Igra Web IgraTable WyoTable PropsIgra PropsIgra2 PropsIgraTable PropsWyoTable.
From Verif Require Import Arith PyBase Utils RTE Absorption Clear Spectrum Spec ListAux RealAux PlanckReal PlanckMaster PropsPlanck Integral
  SolverGen SolverRun Registry PropsRun PropsObject PropsModels PropsSolverX PropsRay PropsLiq LineData Lineshape PropsAbsN2 PropsClear PropsO2H2O PropsH2O PropsO2Data PropsO3
  PropsUtils PropsUtils2 PropsSelfCont FinTransfer FinGas FinSD PropsUtils3 FinClear PropsRow WeightingGen SolverExamples FinCloud PropsEnd PropsMono PropsMixed.
Local Open Scope string_scope.
Open Scope R_scope.

(** ** The program *)

(** plot_bt_wyoming.py:29-34, plot_bt_igra2.py:32-34: the four arrays, from the cells of a level (height in m, pressure in hPa,
    temperature and dew point in degrees Celsius). *)
Section Program.
Context {A : Arith}.
Notation num := (car A).
Local Open Scope arith_scope.
Definition sonde_z (r : num * num * num * num) : num := let '(h, _, _, _) := r in h / #1000.
Definition sonde_p (r : num * num * num * num) : num := let '(_, p, _, _) := r in p.
Definition sonde_t (r : num * num * num * num) : num := let '(_, _, t, _) := r in to_kelvin t.
Definition sonde_rh (r : num * num * num * num) : num := let '(_, _, t, d) := r in dewpoint2rh d t false "arm".
End Program.

(** ** Specification *)

(** A level: height (m), pressure (hPa), temperature and dew point (degrees Celsius). *)
Record slev := SLev { sl_h : R; sl_p : R; sl_t : R; sl_d : R }.
(** A usable table of levels: heights rise; temperatures from -170 to 110 degrees; the dew point does not exceed the temperature;
    pressures up to 1100 hPa that exceed the saturation pressure of water. *)
Record sonde_table (l : list slev) : Prop := {
  st_ne : l <> [];
  st_rising : rising (map sl_h l);
  st_range : forall r, In r l -> -170 <= sl_t r <= 110 /\ -243 < sl_d r <= sl_t r /\ goff_water (sl_t r + 273.25) < sl_p r <= 1100 }.

(** The cells of a level as the program sees them. *)
Definition cells (r : slev) : car XA * car XA * car XA * car XA := (Fin (sl_h r), Fin (sl_p r), Fin (sl_t r), Fin (sl_d r)).

(** Magnus formula. *)
Definition magnus (t : R) : R := exp (17.625 * t / (243.04 + t)).

(** The four arrays of the ideal program. *)
Definition arr_z (l : list slev) : list R := map (fun r => sl_h r / 1000) l.
Definition arr_p (l : list slev) : list R := map sl_p l.
Definition arr_t (l : list slev) : list R := map (fun r => sl_t r + 273.25) l.
Definition arr_rh (l : list slev) : list R := map (fun r => magnus (sl_d r) / magnus (sl_t r)) l.

(** A finished run on arrays at the addresses [z], [p], [t] and [rh]: constructor and execution succeed and every row is the
    solution of the discretised transfer equation for the levels [l]; the brightness temperatures are finite, positive and do not
    exceed the bound [hi]. *)
Definition finished (g : globals XA) (h : heap XA) (z p t rh : addr) (mw mo mn : string) (l : list slev) (fs angs : list R) (sat : bool) (hi : R) : Prop :=
  exists h' o fr full o' g',
    tb_init (A:=XA) h z p t rh (map Fin fs) (map Fin angs) None None "" false sat false = (h', Ok o) /\
    execute (@shipped XA) g h' o = Ok (fr, full, o', g') /\ length fr = (length angs * length fs)%nat /\
    forall k j dr, (k < length angs)%nat -> (j < length fs)%nat ->
    let f := nth j fs 0 in let a := nth k angs 0 in let no := repeat 0 (length l) in
    exists aw ad x T, mixed_absorption mw mo mn "" (arr_p l) (arr_t l) (arr_rh l) None f aw ad /\ (forall v, In v aw \/ In v ad -> 0 <= v) /\
      nth (k * length fs + j) fr dr = f_row x /\ f_awet x = map Fin aw /\ f_adry x = map Fin ad /\
      spec_row sat f 1 a (arr_t l) (slant_path (arr_z l) a) aw ad no no x /\ r_tbtotal (f_row x) = Fin T /\ 0 < T <= hi.

(** ** Proofs *)

Lemma magnus_ratio d t : -243 < d <= t -> 0 < magnus d / magnus t <= 1.
Proof.
  intros [H1 H2]. assert (P := exp_pos (17.625 * d / (243.04 + d))). assert (Q := exp_pos (17.625 * t / (243.04 + t))). fold (magnus d) in P. fold (magnus t) in Q.
  split; [apply Rdiv_lt_0_compat; assumption|].
  assert (magnus d <= magnus t).
  { destruct (Req_dec d t) as [->|N]; [lra|]. unfold magnus. apply Rlt_le, exp_increasing. apply frac_incr; lra. }
  apply (Rmult_le_reg_r (magnus t)); [exact Q|]. unfold Rdiv. rewrite Rmult_assoc, Rinv_l by lra. lra.
Qed.

Lemma cells_D (r : slev) : -170 <= sl_t r <= 110 -> -243 < sl_d r <= sl_t r ->
  sonde_z (A:=XA) (cells r) = Fin (sl_h r / 1000) /\ sonde_p (A:=XA) (cells r) = Fin (sl_p r) /\
  sonde_t (A:=XA) (cells r) = Fin (sl_t r + 273.25) /\ sonde_rh (A:=XA) (cells r) = Fin (magnus (sl_d r) / magnus (sl_t r)).
Proof.
  intros Ht Hd. destruct r as [h p t d]. cbn [sl_h sl_p sl_t sl_d] in *.
  assert (H1 := D_fin h). assert (H3 := D_fin t). assert (H4 := D_fin d).
  assert (Z : D (sonde_z (A:=XA) (cells (SLev h p t d))) (sonde_z (A:=RA) (h, p, t, d))).
  { unfold sonde_z, cells. cbn [sl_h sl_p sl_t sl_d]. dfin. ra. lra. }
  assert (T : D (sonde_t (A:=XA) (cells (SLev h p t d))) (sonde_t (A:=RA) (h, p, t, d))).
  { unfold sonde_t, cells, to_kelvin. cbn [sl_h sl_p sl_t sl_d]. dfin. }
  assert (Q : D (sonde_rh (A:=XA) (cells (SLev h p t d))) (sonde_rh (A:=RA) (h, p, t, d))).
  { unfold sonde_rh, cells, dewpoint2rh. cbn [sl_h sl_p sl_t sl_d String.eqb Ascii.eqb Bool.eqb]. cbv zeta. dfin; ra; try lra. apply Rgt_not_eq, exp_pos. }
  unfold D in Z, T, Q. rewrite Z, T, Q. split; [|split; [reflexivity|split]].
  - apply f_equal. unfold sonde_z. ra. lra.
  - apply f_equal. unfold sonde_t, to_kelvin. ra. lra.
  - apply f_equal. unfold sonde_rh. rewrite dewpoint_R. reflexivity.
Qed.

(** The arrays of a usable table: no NaN; a physical sounding; relative humidity is a fraction of saturation; but the temperature is
    a tenth of a kelvin above the reading (C36). *)
Theorem C145_arrays l : sonde_table l ->
  map (sonde_z (A:=XA)) (map cells l) = map Fin (arr_z l) /\ map (sonde_p (A:=XA)) (map cells l) = map Fin (arr_p l) /\
  map (sonde_t (A:=XA)) (map cells l) = map Fin (arr_t l) /\ map (sonde_rh (A:=XA)) (map cells l) = map Fin (arr_rh l) /\
  sounding (arr_z l) (arr_p l) (arr_t l) (arr_rh l) /\ (forall v, In v (arr_rh l) -> 0 < v <= 1) /\
  (forall i, (i < length l)%nat -> nth i (arr_t l) 0 = (sl_t (nth i l (SLev 0 0 0 0)) + 273.15) + 0.1).
Proof.
  intros [Hne Hr Hg].
  assert (C : forall r, In r l -> sonde_z (A:=XA) (cells r) = Fin (sl_h r / 1000) /\ sonde_p (A:=XA) (cells r) = Fin (sl_p r) /\
    sonde_t (A:=XA) (cells r) = Fin (sl_t r + 273.25) /\ sonde_rh (A:=XA) (cells r) = Fin (magnus (sl_d r) / magnus (sl_t r))).
  { intros r Hin. destruct (Hg r Hin) as (A1 & A2 & _). apply cells_D; assumption. }
  unfold arr_z, arr_p, arr_t, arr_rh. rewrite !map_map.
  split; [apply map_ext_in; intros r Hin; apply (C r Hin)|]. split; [apply map_ext_in; intros r Hin; apply (C r Hin)|].
  split; [apply map_ext_in; intros r Hin; apply (C r Hin)|]. split; [apply map_ext_in; intros r Hin; apply (C r Hin)|].
  assert (M : forall v, In v (map (fun r => magnus (sl_d r) / magnus (sl_t r)) l) -> 0 < v <= 1).
  { intros v Hv. apply in_map_iff in Hv. destruct Hv as (r & <- & Hin). apply magnus_ratio, (Hg r Hin). }
  split; [|split; [exact M|]].
  - constructor; rewrite ?map_length; try reflexivity.
    + intros E. apply Hne. destruct l; [reflexivity|discriminate].
    + intros i Hi. rewrite map_length in Hi. assert (Q := Hr i). rewrite map_length in Q. specialize (Q Hi).
      rewrite (nth_map_d _ l _ (SLev 0 0 0 0)) by lia. rewrite (nth_map_d _ l _ (SLev 0 0 0 0)) by lia.
      rewrite (nth_map_d sl_h l _ (SLev 0 0 0 0)) in Q by lia. rewrite (nth_map_d sl_h l _ (SLev 0 0 0 0)) in Q by lia. lra.
    + intros t Ht. apply in_map_iff in Ht. destruct Ht as (r & <- & Hin). destruct (Hg r Hin) as (A1 & _). lra.
    + intros v Hv. specialize (M v Hv). lra.
    + intros i Hi. rewrite !(nth_map_d _ l _ (SLev 0 0 0 0)) by lia. set (r := nth i l (SLev 0 0 0 0)).
      assert (Hin : In r l) by (apply nth_In; lia). destruct (Hg r Hin) as (_ & A2 & A3). assert (B := magnus_ratio _ _ A2).
      assert (0 < goff_water (sl_t r + 273.25)) by apply Rpower_pos. nra.
  - intros i Hi. rewrite (nth_map_d _ l _ (SLev 0 0 0 0)) by lia. lra.
Qed.

(** Every usable table gives a spectrum. *)
Theorem C145_sonde (g : globals XA) (h : heap XA) z p t rh mw mo mn ml l fs angs sat hi : chosen g mw mo mn ml ->
  In mw std_models \/ In mw sd_fin_models -> In mo fin_o2_names -> mo <> "R98" -> In mn n2_models -> sonde_table l ->
  hget h z = map sonde_z (map cells l) -> hget h p = map sonde_p (map cells l) -> hget h t = map sonde_t (map cells l) -> hget h rh = map sonde_rh (map cells l) ->
  z <> p -> z <> t -> z <> rh -> (forall f, In f fs -> covered mw f) -> (forall a, In a angs -> 0 < a < 180) -> (forall r, In r l -> sl_t r + 273.25 <= hi) ->
  finished g h z p t rh mw mo mn l fs angs sat hi.
Proof.
  intros Hc Hw Ho Ho' Hn Hl Hz Hp Ht Hrh N1 N2 N3 Hf Ha Hhi. destruct (C145_arrays l Hl) as (Z & P & T & Q & SO & _). destruct Hl as [_ _ Hg].
  assert (Rt : forall t, In t (arr_t l) -> 103.25 <= t <= 383.25).
  { intros v Hv. unfold arr_t in Hv. apply in_map_iff in Hv. destruct Hv as (r & <- & Hin). destruct (Hg r Hin) as (A1 & _). lra. }
  assert (Hm : covers mw mo mn (arr_p l) (arr_t l)).
  { constructor; [|split; assumption|exact Hn]. destruct Hw as [Hw|Hw]; [left; exact Hw|right]. split; [exact Hw|]. split.
    - intros v Hv. specialize (Rt v Hv). lra.
    - intros v Hv. unfold arr_p in Hv. apply in_map_iff in Hv. destruct Hv as (r & <- & Hin). destruct (Hg r Hin) as (_ & _ & A3). lra. }
  destruct (C130_from_constructor g h z p t rh None mw mo mn ml "" (arr_z l) (arr_p l) (arr_t l) (arr_rh l) None fs angs sat 103.25 hi Hc Hm)
    as (h' & o & fr & full & o' & g' & R1 & R2 & R3 & R4); auto; try congruence; try lra.
  { exact I. }
  { intros v Hv. split; [apply Rt, Hv|]. unfold arr_t in Hv. apply in_map_iff in Hv. destruct Hv as (r & <- & Hin). apply Hhi, Hin. }
  exists h', o, fr, full, o', g'. split; [exact R1|]. split; [exact R2|]. split; [exact R3|]. intros k j dr Hk Hj f a no.
  destruct (R4 k j dr Hk Hj) as (aw & ad & x & Tb & E1 & (_ & _ & E2) & E3 & E4 & E5 & E6 & E7 & E8 & _).
  assert (Lz : length (arr_z l) = length l) by apply map_length. rewrite Lz in E6.
  exists aw, ad, x, Tb. auto 10.
Qed.

(** *** Wyoming *)

(** A cell of the data frame; nan if missing. *)
Definition cellX (o : option dec) : car XA := match o with Some d => Fin (litR d) | None => NaN end.
Definition wyo_cells (w : wlevel) : car XA * car XA * car XA * car XA := (cellX (w_height w), cellX (w_pressure w), cellX (w_temperature w), cellX (w_dewpoint w)).

(** The levels that a page reports with temperature and dew point. *)
Definition val (o : option dec) : R := match o with Some d => litR d | None => 0 end.
Definition wyo_level (v : report) : slev := SLev (val (PropsWyoTable.col v 1)) (val (PropsWyoTable.col v 0)) (val (PropsWyoTable.col v 2)) (val (PropsWyoTable.col v 3)).
Definition humid (v : report) : bool := match PropsWyoTable.col v 2, PropsWyoTable.col v 3 with Some _, Some _ => true | _, _ => false end.

Lemma repeat_col k n : PropsWyoTable.col (repeat None k) n = None.
Proof. unfold PropsWyoTable.col. revert n. induction k as [|k IH]; intros [|n]; cbn; auto. Qed.

Lemma humid_all v : no_gap v -> humid v = true -> exists p h t d, PropsWyoTable.col v 0 = Some p /\ PropsWyoTable.col v 1 = Some h /\ PropsWyoTable.col v 2 = Some t /\ PropsWyoTable.col v 3 = Some d.
Proof.
  intros G H. unfold humid in H. destruct (PropsWyoTable.col v 2) as [t|] eqn:E2; [|discriminate]. destruct (PropsWyoTable.col v 3) as [d|] eqn:E3; [|discriminate].
  destruct G as [k|p v G]; [rewrite repeat_col in E2; discriminate|]. destruct G as [k|h v G]; [destruct k; [discriminate|cbn in E2; fold (PropsWyoTable.col (repeat None k) 0) in E2; rewrite repeat_col in E2; discriminate]|].
  exists p, h, t, d. auto.
Qed.

Lemma wyo_rows vs : Forall no_gap vs -> map wyo_cells (filter has_both (map level_of vs)) = map cells (map wyo_level (filter humid vs)).
Proof.
  induction 1 as [|v vs G F IH]; [reflexivity|]. cbn [map filter].
  assert (B : has_both (level_of v) = humid v) by reflexivity. rewrite B. destruct (humid v) eqn:H; [|exact IH]. cbn [map]. rewrite IH. f_equal.
  destruct (humid_all v G H) as (p & hh & t & d & E0 & E1 & E2 & E3). unfold wyo_cells, cells, wyo_level, level_of. cbn [w_height w_pressure w_temperature w_dewpoint sl_h sl_p sl_t sl_d].
  rewrite E0, E1, E2, E3. reflexivity.
Qed.

(** From the text of a page of the University of Wyoming to the spectrum: five lines of heading, then levels without gaps. *)
Theorem C145_wyoming heads xs vs (g : globals XA) (h : heap XA) z p t rh mw mo mn ml fs angs sat hi :
  List.length heads = 5%nat -> Forall line_text heads -> Forall2 report_line xs vs -> Forall no_gap vs ->
  let l := map wyo_level (filter humid vs) in sonde_table l ->
  chosen g mw mo mn ml -> In mw std_models \/ In mw sd_fin_models -> In mo fin_o2_names -> mo <> "R98" -> In mn n2_models ->
  exists ls, wyoming_levels (page (heads ++ xs)) = Ok ls /\
  (hget h z = map sonde_z (map wyo_cells ls) -> hget h p = map sonde_p (map wyo_cells ls) -> hget h t = map sonde_t (map wyo_cells ls) -> hget h rh = map sonde_rh (map wyo_cells ls) ->
   z <> p -> z <> t -> z <> rh -> (forall f, In f fs -> covered mw f) -> (forall a, In a angs -> 0 < a < 180) -> (forall r, In r l -> sl_t r + 273.25 <= hi) ->
   finished g h z p t rh mw mo mn l fs angs sat hi).
Proof.
  intros L5 Hh Hx Hg l Hl Hc Hw Ho Ho' Hn. exists (filter has_both (map level_of vs)). split; [apply C133_table; assumption|].
  rewrite (wyo_rows vs Hg). fold l. intros. eapply C145_sonde; eassumption.
Qed.

(** *** IGRA2 *)

(** plot_bt_igra2.py:27-30: rows with all four cells; the cells of a row. *)
Definition igra_keep (r : out_row RA) : bool :=
  match b_pressure (A:=RA) (o_body (A:=RA) r), b_temperature (A:=RA) (o_body (A:=RA) r), o_dewpoint (A:=RA) r, b_height (A:=RA) (o_body (A:=RA) r) with Some _, Some _, Some _, Some _ => true | _, _, _, _ => false end.
Definition cellR (o : option R) : car XA := match o with Some x => Fin x | None => NaN end.
Definition igra_cells (r : out_row RA) : car XA * car XA * car XA * car XA :=
  (cellR (option_map IZR (b_height (A:=RA) (o_body (A:=RA) r))), cellR (b_pressure (A:=RA) (o_body (A:=RA) r)), cellR (b_temperature (A:=RA) (o_body (A:=RA) r)), cellR (o_dewpoint (A:=RA) r)).

(** The complete levels of a sounding of the archive (pressure in Pa, temperature and dew-point depression in tenths of a degree). *)
Definition complete (l : level) : list slev :=
  match l_z l, l_p l, l_T l, l_dd l with
  | Some z, Some p, Some t, Some d => [SLev (IZR z) (IZR p / 100) (IZR t / 10) ((IZR t - IZR d) / 10)]
  | _, _, _, _ => []
  end.

Lemma igra_rows rnd t (ls : list level) : map igra_cells (filter igra_keep (map (row_at rnd t) (filter listed ls))) = map cells (flat_map complete ls).
Proof.
  induction ls as [|l ls IH]; [reflexivity|]. cbn [filter flat_map].
  assert (K : listed l = false -> complete l = []) by (unfold listed, complete; destruct (l_T l), (l_dd l), (l_dir l), (l_sp l), (l_z l), (l_p l); congruence).
  destruct (listed l) eqn:El; [|rewrite (K eq_refl); exact IH]. cbn [map filter]. rewrite map_app, <- IH. clear K El.
  assert (Kp : igra_keep (row_at rnd t l) = match complete l with [] => false | _ => true end).
  { unfold igra_keep, row_at. cbn [o_body o_dewpoint row_of b_pressure b_temperature b_height]. unfold dew_of, complete, scaled.
    destruct (l_p l), (l_T l), (l_dd l), (l_z l); reflexivity. }
  rewrite Kp. unfold complete. destruct (l_p l) as [p|] eqn:Ep, (l_T l) as [T|] eqn:ET, (l_dd l) as [d|] eqn:Ed, (l_z l) as [z|] eqn:Ez; cbn [map app]; try reflexivity.
  apply f_equal2; [|reflexivity]. unfold igra_cells, row_at. cbn [o_body o_dewpoint row_of b_pressure b_temperature b_height].
  unfold dew_of, scaled. rewrite Ep, ET, Ed, Ez. cbn [option_map cellR cells sl_h sl_p sl_t sl_d]. reflexivity.
Qed.

(** From the lines of a station file of the archive to the spectrum of the one sounding in the requested interval. *)
Theorem C145_igra rnd b e gs s (g : globals XA) (h : heap XA) z p t rh mw mo mn ml fs angs sat hi :
  wf_time b -> wf_time e -> Forall good gs -> sorted_file (map g_snd gs) -> filter (fun x => in_range b e (g_snd x)) gs = [s] ->
  let l := flat_map complete (g_levels s) in sonde_table l ->
  chosen g mw mo mn ml -> In mw std_models \/ In mw sd_fin_models -> In mo fin_o2_names -> mo <> "R98" -> In mn n2_models ->
  exists table heads, get_data (A:=RA) rnd b e (file_lines (map g_snd gs)) = Ok (table, heads) /\
  let df := map igra_cells (filter igra_keep table) in
  (hget h z = map sonde_z df -> hget h p = map sonde_p df -> hget h t = map sonde_t df -> hget h rh = map sonde_rh df ->
   z <> p -> z <> t -> z <> rh -> (forall f, In f fs -> covered mw f) -> (forall a, In a angs -> 0 < a < 180) -> (forall r, In r l -> sl_t r + 273.25 <= hi) ->
   finished g h z p t rh mw mo mn l fs angs sat hi).
Proof.
  intros Wb We G Srt Es l Hl Hc Hw Ho Ho' Hn. assert (Q := C132_tables rnd b e gs Wb We G Srt). cbv zeta in Q. rewrite Es in Q.
  destruct Q as (heads & E & _). exists (table_of rnd [s]), heads. split; [exact E|]. cbv zeta.
  assert (Et : table_of rnd [s] = map (row_at rnd (time_of (g_snd s))) (filter listed (g_levels s))) by (unfold table_of; cbn [flat_map]; apply app_nil_r).
  rewrite Et, igra_rows. fold l. intros. eapply C145_sonde; eassumption.
Qed.

(** ** Concrete cases *)

Lemma goff_tenth t : 0 < t <= 310 -> goff_water t < 102.
Proof.
  intros Ht. unfold goff_water. cbv zeta. set (y := 373.16 / t).
  assert (Hy : 1.2 <= y) by (unfold y; apply (Rmult_le_reg_r t); [lra|]; unfold Rdiv; rewrite Rmult_assoc, Rinv_l by lra; lra).
  assert (L10 := ln10_gt2).
  assert (Q1 : log10 y <= (y - 1) / 2).
  { unfold log10. assert (L := ln_le_sub1 y ltac:(lra)). apply (Rmult_le_reg_r (ln 10)); [lra|]. replace (ln y / ln 10 * ln 10) with (ln y) by (field; lra). assert (P : 0 <= (y - 1) * (ln 10 - 2)) by (apply Rmult_le_pos; lra). lra. }
  assert (Q2 : 1 <= Rpower 10 (11.344 * (1 - 1 / y))).
  { apply Rle_trans with (Rpower 10 0); [rewrite Rpower_O; lra|]. apply Rle_Rpower; [lra|]. assert (1 / y <= 1) by (apply (Rmult_le_reg_r y); [lra|]; unfold Rdiv; rewrite Rmult_assoc, Rinv_l by lra; lra). lra. }
  assert (Q3 : Rpower 10 (-3.49149 * (y - 1)) <= 1).
  { apply Rle_trans with (Rpower 10 0); [apply Rle_Rpower; [lra|]|rewrite Rpower_O; lra]. assert (0 <= 3.49149 * (y - 1)) by (apply Rmult_le_pos; lra). lra. }
  eapply Rle_lt_trans; [apply Rle_Rpower with (m := -1 + log10 1013.246); [lra|nra]|].
  rewrite Rpower_plus. assert (E : Rpower 10 (log10 1013.246) = 1013.246).
  { unfold Rpower, log10. replace (ln 1013.246 / ln 10 * ln 10) with (ln 1013.246) by (field; lra). apply exp_ln. lra. }
  rewrite E. replace (-1) with (- (1)) by lra. rewrite Rpower_Ropp, Rpower_1 by lra. lra.
Qed.

Definition ex_models : globals XA := mkGlobals (A:=XA) (Some "R21SD") (Some "R20") (Some "R20") (Some "R20") None None None None false (Fin 1).

(** A page with two levels and a report of pressure and height only; the models of the example. *)
Definition wyo3 : str := tx "  925.0    765   10.2    8.4".
Definition wyo4 : str := tx "  850.0   1457".
Lemma wyo3_ok : report_line wyo3 [Some (Dec 9250 10); Some (Dec 765 1); Some (Dec 102 10); Some (Dec 84 10)].
Proof.
  apply (report_intro [tx "  925.0"; tx "    765"; tx "   10.2"; tx "    8.4"]). repeat apply Forall2_cons; [..|constructor].
  - column_frac false (tx "925") (tx "0").
  - column_int (tx "765").
  - column_frac false (tx "10") (tx "2").
  - column_frac false (tx "8") (tx "4").
Qed.
Lemma wyo4_ok : report_line wyo4 [Some (Dec 8500 10); Some (Dec 1457 1)].
Proof.
  apply (report_intro [tx "  850.0"; tx "   1457"]). repeat apply Forall2_cons; [..|constructor].
  - column_frac false (tx "850") (tx "0").
  - column_int (tx "1457").
Qed.

Example C145_wyoming_example sat : exists ls,
  wyoming_levels (page (map tx [""; "-----"; "PRES"; "hPa"; "-----"] ++ [wyo1; wyo3; wyo4])) = Ok ls /\ List.length ls = 2%nat /\
  let df := map wyo_cells ls in
  finished ex_models [map sonde_z df; map sonde_p df; map sonde_t df; map sonde_rh df] 0%nat 1%nat 2%nat 3%nat "R21SD" "R20" "R20"
    [SLev 125 1000 15.2 12.4; SLev 765 925 10.2 8.4] [22.235; 60] [90; 30] sat 289.
Proof.
  destruct wyo1_ok as [rest R]. set (v1 := Some (Dec 10000 10) :: _) in R.
  set (vs := [v1; [Some (Dec 9250 10); Some (Dec 765 1); Some (Dec 102 10); Some (Dec 84 10)]; [Some (Dec 8500 10); Some (Dec 1457 1)]]).
  assert (El : map wyo_level (filter humid vs) = [SLev 125 1000 15.2 12.4; SLev 765 925 10.2 8.4]).
  { unfold vs, v1. cbn [filter humid PropsWyoTable.col nth map]. unfold wyo_level. cbn [PropsWyoTable.col nth val].
    assert (K : forall a b c d a' b' c' d', a = a' -> b = b' -> c = c' -> d = d' -> SLev a b c d = SLev a' b' c' d') by congruence.
    apply f_equal2; [|apply f_equal2; [|reflexivity]]; apply K; cbn; lra. }
  assert (Hl : sonde_table [SLev 125 1000 15.2 12.4; SLev 765 925 10.2 8.4]).
  { constructor; [discriminate| |].
    - intros [|i] Hi; cbn in *; [lra|lia].
    - intros r [<-|[<-|[]]]; cbn [sl_t sl_d sl_p]; (split; [lra|]); (split; [lra|]); split; try lra.
      + assert (G := goff_tenth (15.2 + 273.25) ltac:(lra)). lra.
      + assert (G := goff_tenth (10.2 + 273.25) ltac:(lra)). lra. }
  destruct (C145_wyoming (map tx [""; "-----"; "PRES"; "hPa"; "-----"]) [wyo1; wyo3; wyo4] vs ex_models
    (let df := map cells (map wyo_level (filter humid vs)) in [map sonde_z df; map sonde_p df; map sonde_t df; map sonde_rh df])
    0%nat 1%nat 2%nat 3%nat "R21SD" "R20" "R20" "R20" [22.235; 60] [90; 30] sat 289) as (ls & E & Run).
  { reflexivity. }
  { repeat constructor; cbn; intros X; discriminate X. }
  { repeat constructor; [exact R|exact wyo3_ok|exact wyo4_ok]. }
  { repeat constructor.
    - clear. induction rest as [|d rest IH]; [apply (gap_rest 0)|apply gap_more; exact IH].
    - apply (gap_rest 0).
    - apply (gap_rest 0). }
  { rewrite El. exact Hl. }
  { repeat split. } { right. cbn. tauto. } { cbn. tauto. } { discriminate. } { cbn. tauto. }
  exists ls. split; [exact E|].
  assert (F : Forall no_gap vs).
  { repeat constructor.
    - clear. induction rest as [|d rest IH]; [apply (gap_rest 0)|apply gap_more; exact IH].
    - apply (gap_rest 0).
    - apply (gap_rest 0). }
  assert (Els : ls = filter has_both (map level_of vs)).
  { assert (Q := C133_table (map tx [""; "-----"; "PRES"; "hPa"; "-----"]) [wyo1; wyo3; wyo4] vs eq_refl ltac:(repeat constructor; cbn; intros X; discriminate X)
      ltac:(repeat constructor; [exact R|exact wyo3_ok|exact wyo4_ok]) F). rewrite E in Q. apply ok_inj in Q. exact Q. }
  subst ls. split; [reflexivity|]. cbv zeta in Run |- *. rewrite (wyo_rows vs F) in Run |- *. rewrite El in Run |- *.
  apply Run; [reflexivity|reflexivity|reflexivity|reflexivity|discriminate|discriminate|discriminate| | |].
  - intros f [<-|[<-|[]]]; (split; [lra|intros [X|[X|[X|[]]]]; discriminate]).
  - intros a [<-|[<-|[]]]; lra.
  - intros r [<-|[<-|[]]]; cbn [sl_t]; lra.
Qed.

(** A station file with one sounding of two complete levels. *)
Definition lev3 : level := Lev 2 0 None (Some 95000%Z) 0 (Some 560%Z) 2 (Some 200%Z) 2 (Some 780%Z) (Some 50%Z) (Some 50%Z) (Some 31%Z).
Definition line3 : str := tx "20 -9999  95000   560B  200B  780    50    50    31".
Definition rep3 : reported := Rep (Snd (tx "SPM00060018") 2022 6 22 12 (tx "1100") (tx " ncdc6301 ncdc-gts  284744  -163822" ++ nl)%list [(line1 ++ nl)%list; (line3 ++ nl)%list]) [lev1; lev3] 284744 (-163822).
Lemma line3_ok : level_line line3 lev3.
Proof.
  apply (level_line_intro lev3 (tx "-9999") (tx "95000") " " (tx "560") "B" (tx "200") "B" (tx "780") (tx "50") (tx "50") (tx "31")); cbn [lev3 l_t1 l_t2 l_time l_p l_pf l_z l_zf l_T l_Tf l_rh l_dd l_dir l_sp]; try lia; try constructor; auto.
  - apply (says_num 6 false (tx "95000")); cbn; [reflexivity|discriminate|lia|reflexivity].
  - apply (says_num 5 false (tx "560")); cbn; [reflexivity|discriminate|lia|reflexivity].
  - apply (says_num 5 false (tx "200")); cbn; [reflexivity|discriminate|lia|reflexivity].
  - apply (says_num 5 false (tx "780")); cbn; [reflexivity|discriminate|lia|reflexivity].
  - apply (says_num 5 false (tx "50")); cbn; [reflexivity|discriminate|lia|reflexivity].
  - apply (says_num 5 false (tx "50")); cbn; [reflexivity|discriminate|lia|reflexivity].
  - apply (says_num 5 false (tx "31")); cbn; [reflexivity|discriminate|lia|reflexivity].
Qed.
Lemma rep3_good : good rep3.
Proof.
  constructor; cbn [rep3 g_snd g_levels g_lat g_lon s_id s_rel s_y s_m s_d s_h s_tail s_rows].
  - split; [reflexivity|]. apply Forall_forall. assert (F : forallb (fun c => negb (is_space c)) (tx "SPM00060018") = true) by reflexivity. rewrite forallb_forall in F. intros c Hc. apply negb_true_iff, F, Hc.
  - split; [apply digits_tx|]; reflexivity.
  - cbn. lia.
  - cbn. lia.
  - eexists. split; [|reflexivity]. assert (N : forall u, forallb (fun c => negb (chr_eqb c "010")) u = true -> Forall (fun c => c <> "010"%char) u).
    { intros u F. apply Forall_forall. rewrite forallb_forall in F. intros c Hc E. specialize (F c Hc). rewrite E in F. discriminate. }
    refine (head_tail_intro (tx "ncdc6301") (tx "ncdc-gts") (tx "284744") (tx "-163822") _ _ _ _ _ _ _ _); [reflexivity|reflexivity| | |apply N; reflexivity|apply N; reflexivity].
    + apply (coord_intro 7 false (tx "284744")); [apply digits_tx; reflexivity|cbn; lia|cbn; lia].
    + apply (coord_intro 8 true (tx "163822")); [apply digits_tx; reflexivity|cbn; lia|cbn; lia].
  - exists [line1; line3]. split; [|reflexivity]. constructor; [apply line1_ok|]. constructor; [apply line3_ok|constructor].
Qed.

Example C145_igra_example rnd sat : exists table heads,
  get_data (A:=RA) rnd (DT 2022 6 22 0 0 0) (DT 2022 6 22 23 0 0) (file_lines [g_snd rep3]) = Ok (table, heads) /\
  let df := map igra_cells (filter igra_keep table) in
  finished ex_models [map sonde_z df; map sonde_p df; map sonde_t df; map sonde_rh df] 0%nat 1%nat 2%nat 3%nat "R21SD" "R20" "R20"
    (flat_map complete [lev1; lev3]) [22.235; 60] [90] sat 298.
Proof.
  assert (El : flat_map complete [lev1; lev3] = [SLev 9 (101300 / 100) (240 / 10) ((240 - 40) / 10); SLev 560 (95000 / 100) (200 / 10) ((200 - 50) / 10)]) by reflexivity.
  assert (Hl : sonde_table (flat_map complete [lev1; lev3])).
  { rewrite El. constructor; [discriminate| |].
    - intros [|i] Hi; cbn in *; [lra|lia].
    - intros r [<-|[<-|[]]]; cbn [sl_t sl_d sl_p]; (split; [lra|]); (split; [lra|]); split; try lra.
      + assert (G := goff_tenth (240 / 10 + 273.25) ltac:(lra)). lra.
      + assert (G := goff_tenth (200 / 10 + 273.25) ltac:(lra)). lra. }
  set (df0 := map cells (flat_map complete [lev1; lev3])).
  destruct (C145_igra rnd (DT 2022 6 22 0 0 0) (DT 2022 6 22 23 0 0) [rep3] rep3 ex_models [map sonde_z df0; map sonde_p df0; map sonde_t df0; map sonde_rh df0]
    0%nat 1%nat 2%nat 3%nat "R21SD" "R20" "R20" "R20" [22.235; 60] [90] sat 298) as (table & heads & E & Run).
  { cbn. unfold wf_time. cbn. lia. } { cbn. unfold wf_time. cbn. lia. } { constructor; [exact rep3_good|constructor]. } { repeat constructor. } { reflexivity. }
  { exact Hl. } { repeat split. } { right. cbn. tauto. } { cbn. tauto. } { discriminate. } { cbn. tauto. }
  exists table, heads. split; [exact E|]. cbv zeta in Run |- *.
  assert (Et : map igra_cells (filter igra_keep table) = df0).
  { assert (Q := C132_tables rnd (DT 2022 6 22 0 0 0) (DT 2022 6 22 23 0 0) [rep3] ltac:(cbn; unfold wf_time; cbn; lia) ltac:(cbn; unfold wf_time; cbn; lia) ltac:(constructor; [exact rep3_good|constructor]) ltac:(repeat constructor)).
    cbv zeta in Q. change (filter (fun g => in_range (DT 2022 6 22 0 0 0) (DT 2022 6 22 23 0 0) (g_snd g)) [rep3]) with [rep3] in Q. destruct Q as (hd & E' & _).
    rewrite E in E'. assert (table = table_of rnd [rep3]) by congruence. subst table.
    unfold table_of. cbn [flat_map]. rewrite app_nil_r. apply igra_rows. }
  change (g_levels rep3) with [lev1; lev3] in Run. rewrite Et in Run |- *. clearbody df0. revert Run El. generalize (flat_map complete [lev1; lev3]). intros l Run El.
  apply Run; clear Run; [reflexivity|reflexivity|reflexivity|reflexivity|discriminate|discriminate|discriminate| | |].
  - intros f [<-|[<-|[]]]; (split; [lra|intros [X|[X|[X|[]]]]; discriminate]).
  - intros a [<-|[]]; lra.
  - rewrite El. intros r [<-|[<-|[]]]; cbn [sl_t]; lra.
Qed.
