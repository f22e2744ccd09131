(** Claim C110: every row of the result table, from the absorption profiles of its frequency to the brightness temperature, over the
    reals with infinities and NaN. *)

From Coq Require Import ZArith Reals Lra Lia String List Bool.
Import ListNotations.
From Verif Require Import Arith PyBase Utils RTE Absorption Clear Spectrum Spec ListAux RealAux PlanckReal PlanckMaster PropsPlanck Integral
  SolverGen SolverRun Registry PropsRun PropsObject PropsModels PropsSolverX PropsRay PropsLiq.
Open Scope R_scope.

(** ** Specification *)

(** Mean over a layer of a quantity varying exponentially with height between [u] (bottom) and [v] (top).  When one end is zero: the
    arithmetic mean for gases ([gas]), nothing for clouds.  Below a difference of 1e-9: the value at the top. *)
Definition layer_mean (gas : bool) (u v : R) : R :=
  if Rlt_dec (Rabs (v - u)) 1e-9 then v
  else if Req_EM_T u 0 then (if gas then (u + v) / 2 else 0)
  else if Req_EM_T v 0 then (if gas then (u + v) / 2 else 0)
  else (v - u) / ln (v / u).

(** Integral over the layer below level [i] for path lengths [d]; the layer below level 0 is empty. *)
Definition layer_int (gas : bool) (x d : list R) (i : nat) : R :=
  match i with O => 0 | S m => layer_mean gas (nth m x 0) (nth i x 0) * nth i d 0 end.
Definition layers (gas : bool) (x d : list R) : list R := map (layer_int gas x d) (seq 0 (length x)).
Definition column (gas : bool) (x d : list R) : R := rsum (length x - 1) (fun i => layer_int gas x d (S i)).

(** Slant path through the layer below level [i] of plane-parallel layers at elevation [a] (degrees). *)
Definition slant (z : list R) (a : R) (i : nat) : R :=
  match i with O => 0 | S m => (nth i z 0 - nth m z 0) / sin (a * PI / 180) end.
Definition slant_path (z : list R) (a : R) : list R := map (slant z a) (seq 0 (length z)).

(** Opacities of the layers: vapour, dry air, ice and liquid. *)
Definition opacities (aw ad ai al d : list R) : list R :=
  map (fun i => layer_int true aw d i + layer_int true ad d i + layer_int false ai d i + layer_int false al d i) (seq 0 (length aw)).

(** ** Integration *)

Lemma layer_layV gas (x d : list R) i : layer_int gas x d (S i) = layV gas x d (S i).
Proof. unfold layV, prevx. replace (S i =? 0)%nat with false by reflexivity. replace (S i - 1)%nat with i by lia. reflexivity. Qed.

Lemma nonneg_layer (x : list R) i : (forall v, In v x -> 0 <= v) -> (i < length x)%nat -> layer_ok x i.
Proof. intros H Hi. unfold layer_ok, prevx. split; apply H, nth_In; destruct (i =? 0)%nat; lia. Qed.

Lemma integ_layers gas (x d : list R) : length d = length x -> x <> [] -> (forall v, In v x -> 0 <= v) ->
  exponential_integration (A:=XA) gas (map Fin x) (map Fin d) 1 (Z.of_nat (length x)) (Fin 1)
  = Ok (Fin (column gas x d), map Fin (layers gas x d)).
Proof.
  intros L Hne Hx. assert (Hn : (0 < length x)%nat) by (destruct x; [congruence|cbn; lia]).
  destruct (exp_complete gas x d 1 1) as (out & Ho & Hnth & E); [lia|lia|intros i Hi; apply nonneg_layer; auto; lia|].
  rewrite L in E. change 1%Z with (Z.of_nat 1). etransitivity; [exact E|]. f_equal. f_equal.
  - f_equal. unfold column. rewrite Rmult_1_l. apply rsum_ext. intros i _. rewrite layer_layV. reflexivity.
  - f_equal. apply (List.nth_ext _ _ 0 0); [unfold layers; rewrite map_length, seq_length; lia|].
    intros i Hi. rewrite Hnth. unfold layers. rewrite (nth_map_d _ _ _ 0%nat) by (rewrite seq_length; lia). rewrite seq_nth by lia. cbn [Nat.add].
    destruct i as [|i]; [reflexivity|]. replace (1 <=? S i)%nat with true by (symmetry; apply Nat.leb_le; lia).
    replace (S i <? length d)%nat with true by (symmetry; apply Nat.ltb_lt; lia). cbn [andb]. symmetry. apply layer_layV.
Qed.

Lemma integ_column gas (x d : list R) c : length d = length x -> x <> [] -> (forall v, In v x -> 0 <= v) -> nth 0 d 0 = 0 ->
  exists out, exponential_integration (A:=XA) gas (map Fin x) (map Fin d) 0 (Z.of_nat (length x)) (Fin c)
  = Ok (Fin (c * column gas x d), out).
Proof.
  intros L Hne Hx H0. assert (Hn : (0 < length x)%nat) by (destruct x; [congruence|cbn; lia]).
  destruct (exp_complete gas x d 0 c) as (out & Ho & Hnth & E); [lia|lia|intros i Hi; apply nonneg_layer; auto; lia|].
  rewrite L in E. exists (map Fin out). change 0%Z with (Z.of_nat 0).
  assert (Q : rsum (length x - 0) (fun j => layV gas x d (0 + j)) = column gas x d).
  { replace (length x - 0)%nat with (1 + (length x - 1))%nat by lia. rewrite rsum_split. cbn [rsum Nat.add].
    unfold layV at 1. rewrite H0, Rmult_0_r, !Rplus_0_l. unfold column. apply rsum_ext. intros i _. rewrite layer_layV. reflexivity. }
  rewrite Q in E. exact E.
Qed.

Lemma slant_path_diffs (z : list R) a : z <> [] ->
  map (fun d => d * (1 / sin (a * PI / 180))) (0 :: diffs (A:=RA) z) = slant_path z a.
Proof.
  intros Hne. assert (Hn : (0 < length z)%nat) by (destruct z; [congruence|cbn; lia]).
  assert (LD : length (diffs (A:=RA) z) = (length z - 1)%nat) by exact (PropsRay.diffs_length RA z).
  assert (ND := fun i => diffs_nth z i). revert LD ND. generalize (diffs (A:=RA) z). change (car RA) with R. intros dd LD ND.
  apply (List.nth_ext _ _ 0 0).
  - cbn [map length]. rewrite map_length. unfold slant_path. rewrite map_length, seq_length. lia.
  - intros i Hi. cbn [map length] in Hi. rewrite map_length in Hi.
    unfold slant_path. rewrite (nth_map_d _ _ _ 0%nat) by (rewrite seq_length; lia). rewrite seq_nth by lia. cbn [Nat.add].
    destruct i as [|i]; [cbn; lra|]. cbn [map nth]. rewrite (nth_map_d _ _ _ 0) by lia.
    rewrite ND by lia. cbn [slant]. unfold Rdiv. ring.
Qed.

(** ** Complete output of one cell and one angle (every arithmetic) *)

Lemma execute_full (A : Arith) db (g : globals A) h o fr full o' g' : wf h o -> execute db g h o = Ok (fr, full, o', g') ->
  length full = length (o_angles o) /\ forall k da, (k < length (o_angles o))%nat -> length (an_rows (nth k full da)) = length (o_frq o).
Proof.
  intros W H. apply execute_inv in H. destruct H as (g1 & r & _ & Hr & _ & -> & _ & _).
  destruct (run_shape _ _ h o r W Hr) as [Lr Hrows]. split; [rewrite map_length; exact Lr|].
  intros k da Hk. assert (Hin : In (nth k (map fst r) da) (map fst r)) by (apply nth_In; rewrite map_length; lia).
  apply in_map_iff in Hin. destruct Hin as (y & <- & Hy). apply (Hrows y Hy).
Qed.

Definition full0 : row_full XA := mkFull (mkRow x0 x0 x0 x0 x0 x0 x0 x0 x0) [] [] [] [] [] [].

Lemma execute_angle (A : Arith) db (g : globals A) h o fr full o' g' d0 da : wf h o -> execute db g h o = Ok (fr, full, o', g') ->
  exists g1 e rho dryn wetn refindx, init_linelist db g = Ok g1 /\
    vapor (hget h (o_tk o)) (hget h (o_rh o)) (o_ice o) = Ok (e, rho) /\
    refractivity (hget h (o_p o)) (hget h (o_tk o)) e = (dryn, wetn, refindx) /\
    forall k, (k < length (o_angles o))%nat -> exists ds sr sw sd,
      path_ds (inputs_of h o) refindx (nth k (o_angles o) d0) = Ok ds /\
      exponential_integration true rho ds 0 (Z.of_nat (o_nl o)) (lit 0.1) = Ok sr /\
      exponential_integration true wetn ds 0 (Z.of_nat (o_nl o)) (lit 0.1) = Ok sw /\
      exponential_integration true dryn ds 0 (Z.of_nat (o_nl o)) (lit 0.1) = Ok sd /\
      an_srho (nth k full da) = fst sr /\ an_swet (nth k full da) = fst sw /\ an_sdry (nth k full da) = fst sd /\
      (o_cloudy o = true -> exists lv dens, o_levels o = Some lv /\ o_dens o = Some dens /\
         cloud_integrated_density (hget h (snd dens)) ds (fst lv) (snd lv) = Ok (an_sliq (nth k full da)) /\
         cloud_integrated_density (hget h (fst dens)) ds (fst lv) (snd lv) = Ok (an_sice (nth k full da))).
Proof.
  intros W H. apply execute_inv in H. destruct H as (g1 & r & Hg1 & Hrun & -> & -> & _ & _).
  destruct (run_shape _ _ h o r W Hrun) as [Lr _].
  apply run_all_inv in Hrun. destruct Hrun as (e & rho & dryn & wetn & refindx & Ev & Er & Hm).
  assert (Lo := olds_length h o W). exists g1, e, rho, dryn, wetn, refindx. split; [exact Hg1|]. split; [exact Ev|]. split; [exact Er|].
  intros k Hk. pose (dx := (da, ([], (d0, d0))) : angle_full A * (list (cell A) * (car A * car A))).
  assert (Hkr := mapM_nth _ _ r k (d0, ([], (d0, d0))) dx Hm).
  rewrite combine_nth in Hkr by auto. rewrite (olds_nth h o k d0 W Hk) in Hkr.
  assert (Lc : (k < length (combine (o_angles o) (olds_of o)))%nat) by (rewrite combine_length; lia).
  specialize (Hkr Lc). rewrite (nth_map_d fst _ _ dx) by lia. destruct (nth k r dx) as [af [cs cl]]. cbn [fst].
  unfold run_angle in Hkr. inv_bind Hkr ds Eds. inv_bind Hkr sr Esr. inv_bind Hkr sw Esw. inv_bind Hkr sd Esd. inv_bind Hkr c Ec. inv_bind Hkr xs Exs.
  inversion Hkr; subst. exists ds, sr, sw, sd. cbn [an_srho an_swet an_sdry an_sliq an_sice]. split; [exact Eds|]. split; [exact Esr|]. split; [exact Esw|].
  split; [exact Esd|]. split; [reflexivity|]. split; [reflexivity|]. split; [reflexivity|].
  intros Hc. cbn [inputs_of i_cloudy i_dens i_levels] in Ec. rewrite Hc in Ec. destruct (o_dens o) as [[di dl]|]; [|discriminate].
  destruct (o_levels o) as [lv|]; [|discriminate]. cbn [option_map need bind fst snd] in Ec.
  inv_bind Ec a Ea. inv_bind Ec b Eb. inversion Ec; subst. exists lv, (di, dl). cbn [fst snd]. repeat split; auto.
Qed.

Lemma init_linelist_liq (A : Arith) db (g g1 : globals A) : init_linelist db g = Ok g1 -> g_liq g1 = g_liq g.
Proof.
  unfold init_linelist, set_ll_h2o, set_ll_o2. intros H.
  repeat match type of H with context [match ?x with _ => _ end] => destruct x; try discriminate; cbn [bind] in H end.
  inversion H. reflexivity.
Qed.

(** ** C110 *)

(** Absorption by clouds, liquid [al] and ice [ai]: computed from the densities when the solver is cloudy, none on a solver that is not
    cloudy and was never run before. *)
Definition cloud_profiles (h : heap XA) (g : globals XA) (o : tbobj XA) (f : R) (al ai : list R) : Prop :=
  (o_cloudy o = false /\ never_run o /\ al = repeat 0 (o_nl o) /\ ai = repeat 0 (o_nl o)) \/
  (o_cloudy o = true /\ exists di dl, o_dens o = Some (di, dl) /\
     cloudy_absorption (A:=XA) (g_liq g) (hget h (o_tk o)) (hget h dl) (hget h di) (Fin f) = Ok (map Fin al, map Fin ai)).

Lemma add4_X (aw ad ai al d : list R) n : length aw = n -> length ad = n -> length ai = n -> length al = n ->
  add4 (A:=XA) (map Fin (layers true aw d)) (map Fin (layers true ad d)) (map Fin (layers false ai d)) (map Fin (layers false al d))
  = map Fin (opacities aw ad ai al d).
Proof.
  intros L1 L2 L3 L4. unfold layers, opacities. rewrite L1, L2, L3, L4. generalize (seq 0 n). induction l as [|i l IH]; [reflexivity|].
  cbn [map add4]. f_equal. exact IH.
Qed.

Lemma zero_layers (d : list R) n : layers false (repeat 0 n) d = repeat 0 n /\ column false (repeat 0 n) d = 0.
Proof.
  assert (Z : forall i, nth i (repeat 0 n) 0 = 0) by (intros i; generalize n; induction i as [|i IH]; intros [|m]; cbn; auto).
  assert (V : forall i, layer_int false (repeat 0 n) d i = 0).
  { intros [|i]; [reflexivity|]. cbn [layer_int]. rewrite !Z. unfold layer_mean. destruct (Rlt_dec _ _) as [_|N]; [lra|].
    destruct (Req_EM_T 0 0) as [_|N']; lra. }
  split.
  - unfold layers. rewrite repeat_length. apply (List.nth_ext _ _ 0 0); [rewrite map_length, seq_length, repeat_length; lia|].
    intros i Hi. rewrite map_length, seq_length in Hi. rewrite (nth_map_d _ _ _ 0%nat) by (rewrite seq_length; lia). rewrite Z. apply V.
  - unfold column. apply rsum_zero. intros i _. apply V.
Qed.

Lemma range_exists (t : list R) : (forall x, In x t -> 0 < x) -> t <> [] -> exists lo hi, 0 < lo /\ forall x, In x t -> lo <= x <= hi.
Proof.
  induction t as [|a t IH]; [congruence|]. intros H _. destruct t as [|b t].
  - exists a, a. split; [apply H; left; reflexivity|]. intros x [<-|[]]. lra.
  - destruct IH as (lo & hi & Hlo & Hb); [intros x Hx; apply H; right; exact Hx|discriminate|].
    exists (Rmin lo a), (Rmax hi a). split; [apply Rmin_glb_lt; [exact Hlo|apply H; left; reflexivity]|].
    assert (M1 := Rmin_l lo a). assert (M2 := Rmin_r lo a). assert (M3 := Rmax_l hi a). assert (M4 := Rmax_r hi a).
    intros x [<-|Hx]; [lra|]. destruct (Hb x Hx). lra.
Qed.

Lemma emission_sign sat h (t tau : list R) : 0 < h -> (forall x, In x t -> 0 < x) -> (forall x, In x tau -> 0 <= x) ->
  length t = length tau -> t <> [] -> 0 <= total_atm sat h t tau /\ (0 < total_tau tau -> 0 < total_atm sat h t tau).
Proof.
  intros Hh Ht Htau L Hne. destruct (range_exists t Ht Hne) as (lo & hi & Hlo & Hr).
  destruct (total_atm_bounds sat h t tau lo hi Hh Hlo Hr Htau L Hne) as [B _].
  assert (P := planckB_pos h lo Hh Hlo). assert (T := total_tau_nonneg tau Htau).
  split.
  - assert (exp (- total_tau tau) <= 1) by (rewrite <- exp_0; apply exp_le; lra).
    assert (0 <= planckB h lo * (1 - exp (- total_tau tau))) by (apply Rmult_le_pos; lra). lra.
  - intros HT. assert (E := exp_neg_lt1 _ HT).
    assert (0 < planckB h lo * (1 - exp (- total_tau tau))) by (apply Rmult_lt_0_compat; lra). lra.
Qed.

(** What a row says, for vapour and dry absorption [aw], [ad], cloud absorption [al], [ai], temperatures [ts] and path lengths [d]. *)
Definition spec_row (sat : bool) (f es a : R) (ts d aw ad al ai : list R) (x : row_full XA) : Prop :=
  let r := f_row x in let h := spec_hvk f in
  let tl := opacities aw ad ai al d in let tau := total_tau tl in
  let atm := total_atm sat h ts tl in let bg := background sat es h ts in
  r_angle r = Fin a /\
  r_tauwet r = Fin (column true aw d) /\ r_taudry r = Fin (column true ad d) /\
  r_tauliq r = Fin (column false al d) /\ r_tauice r = Fin (column false ai d) /\
  tau = column true aw d + column true ad d + column false ai d + column false al d /\
  f_ptauwet x = map Fin (layers true aw d) /\ f_ptaudry x = map Fin (layers true ad d) /\
  f_ptauliq x = map Fin (layers false al d) /\ f_ptauice x = map Fin (layers false ai d) /\
  (tau < 125 -> r_tbtotal r = Fin (planckT h (bg * exp (- tau) + atm))) /\
  (125 <= tau -> r_tbtotal r = Fin (planckT h atm)) /\
  (0 < tau < 125 -> r_tmr r = Fin (planckT h (atm / (1 - exp (- tau))))) /\
  (125 <= tau -> r_tmr r = Fin (planckT h atm)) /\
  (sat = false -> 0 < tau -> r_tbatm r = Fin (planckT h atm)) /\ (sat = true -> r_tbatm r = Fin 0).

Lemma total_tau_nth (l : list R) : total_tau l = rsum (length l - 1) (fun i => nth (S i) l 0).
Proof.
  unfold total_tau. destruct l as [|a l]; [reflexivity|]. cbn [tl length]. replace (S (length l) - 1)%nat with (length l) by lia. cbn [nth].
  induction l as [|b l IH]; [reflexivity|]. change (length (b :: l)) with (1 + length l)%nat. rewrite rsum_split. cbn [fold_right rsum Nat.add nth]. 
  rewrite IH. lra.
Qed.

Lemma rsum_plus4 n (u v w x : nat -> R) : rsum n (fun i => u i + v i + w i + x i) = rsum n u + rsum n v + rsum n w + rsum n x.
Proof. induction n as [|n IH]; cbn [rsum]; [lra|]. rewrite IH. lra. Qed.

Lemma total_opacities (aw ad ai al d : list R) : length ad = length aw -> length ai = length aw -> length al = length aw ->
  total_tau (opacities aw ad ai al d) = column true aw d + column true ad d + column false ai d + column false al d.
Proof.
  intros L1 L2 L3. rewrite total_tau_nth. unfold column, opacities. rewrite map_length, seq_length, L1, L2, L3. rewrite <- rsum_plus4.
  apply rsum_ext. intros i Hi. rewrite (nth_map_d _ _ _ 0%nat) by (rewrite seq_length; lia). rewrite seq_nth by lia. reflexivity.
Qed.

Lemma layer_int_nonneg gas (x d : list R) i : (forall v, In v x -> 0 <= v) -> (forall v, In v d -> 0 <= v) -> 0 <= layer_int gas x d i.
Proof.
  intros Hx Hd. assert (N : forall (l : list R) k, (forall v, In v l -> 0 <= v) -> 0 <= nth k l 0).
  { intros l k H. destruct (nth_in_or_default k l 0) as [Hin| ->]; [apply H, Hin|lra]. }
  destruct i as [|i]; [cbn; lra|]. cbn [layer_int]. apply Rmult_le_pos; [|apply N, Hd].
  change (layer_mean gas) with (layR gas). apply layR_nonneg; apply N, Hx.
Qed.

Theorem row_general db (g : globals XA) (h : heap XA) o fr full o' g' ts : wf h o -> execute db g h o = Ok (fr, full, o', g') ->
  hget h (o_tk o) = map Fin ts -> (forall t, In t ts -> 0 < t) ->
  forall k j f a es d aw ad al ai dr, (k < length (o_angles o))%nat -> (j < length (o_frq o))%nat ->
  nth j (o_frq o) x0 = Fin f -> 0 < f -> nth k (o_angles o) x0 = Fin a -> nth j (hget h (o_es o)) x0 = Fin es -> (o_sat o = true -> 0 < es) ->
  (forall e rho dryn wetn refindx, vapor (hget h (o_tk o)) (hget h (o_rh o)) (o_ice o) = Ok (e, rho) ->
     refractivity (hget h (o_p o)) (hget h (o_tk o)) e = (dryn, wetn, refindx) ->
     path_ds (A:=XA) (inputs_of h o) refindx (Fin a) = Ok (map Fin d)) ->
  (forall v, In v d -> 0 <= v) ->
  let x := nth j (an_rows (nth k full angle0)) full0 in
  f_awet x = map Fin aw -> f_adry x = map Fin ad -> cloud_profiles h g o f al ai ->
  length aw = o_nl o -> length ad = o_nl o -> length al = o_nl o -> length ai = o_nl o ->
  (forall v, In v aw \/ In v ad \/ In v al \/ In v ai -> 0 <= v) ->
  nth (k * length (o_frq o) + j) fr dr = f_row x /\ spec_row (o_sat o) f es a ts d aw ad al ai x.
Proof.
  intros W H Htk Hts k j f a es d aw ad al ai dr Hk Hj Hf Hf0 Ha Hes Hes0 HP Hd x Haw Had Hcl Lw Ldr Ll Li Hnn.
  destruct (execute_cell XA db g h o fr full o' g' W H) as (g1 & e & rho & dryn & wetn & refindx & Eg & Ev & Er & _ & _ & _ & HC).
  destruct (execute_full XA db g h o fr full o' g' W H) as [_ Hfl].
  destruct (HC k j x0 cell0 dr angle0 Hk Hj) as (ds & es' & y & c & Eds & Lds & Ees & Hin1 & Hin2 & Hcell & Hrow & Hy & _). clear HC.
  assert (Ex : x = y).
  { rewrite Hy. unfold x. apply nth_indep. rewrite Hfl by exact Hk. exact Hj. }
  clearbody x. subst x. clear Hy Hfl. rewrite Ha in Eds, Hcell. rewrite Hf in Hcell. specialize (HP _ _ _ _ _ Ev Er). rewrite HP in Eds. apply ok_inj in Eds. subst ds.
  rewrite map_length in Lds.
  assert (Hes' : es' = Fin es).
  { rewrite (py_get_nat _ j x0) in Ees by (assert (L := wf_es _ _ W); lia). rewrite Hes in Ees. apply ok_inj in Ees. auto. }
  subst es'. apply run_cell_inv in Hcell.
  destruct Hcell as (aw' & ad' & w & dd & cc & pl & atl & Ea & Ew & Ed & Hc0 & Hc1 & Epl & Eal & Q1 & Q2 & Q3 & R1 & R2 & R3 & R4 & R5 & F1 & F2 & F3 & F4 & F5 & F6).
  rewrite Haw in F5. rewrite Had in F6. subst aw' ad'.
  assert (NL := wf_nl _ _ W).
  assert (Nw : aw <> []) by (intros ->; cbn in Lw; lia). assert (Nd : ad <> []) by (intros ->; cbn in Ldr; lia).
  assert (Nl : al <> []) by (intros ->; cbn in Ll; lia). assert (Ni : ai <> []) by (intros ->; cbn in Li; lia).
  change (i_nl (inputs_of h o)) with (o_nl o) in *. assert (One : lit (a:=XA) 1 = Fin 1) by (rewrite PropsSolverX.lit1_X; f_equal; lra). rewrite One in *.
  assert (IW := integ_layers true aw d ltac:(lia) Nw ltac:(intros; apply Hnn; auto)). rewrite Lw in IW. assert (Ew' := eq_trans (eq_sym IW) Ew). apply ok_inj in Ew'. subst w.
  assert (ID := integ_layers true ad d ltac:(lia) Nd ltac:(intros; apply Hnn; auto)). rewrite Ldr in ID. assert (Ed' := eq_trans (eq_sym ID) Ed). apply ok_inj in Ed'. subst dd.
  cbn [fst snd] in *.
  assert (CC : c_sptauliq cc = Fin (column false al d) /\ c_ptauliq cc = map Fin (layers false al d) /\
               c_sptauice cc = Fin (column false ai d) /\ c_ptauice cc = map Fin (layers false ai d)).
  { destruct Hcl as [(Hc & Hnew & -> & ->)|(Hc & di & dl & Hdens & Hca)].
    - rewrite (Hc0 Hc). rewrite (Hnew _ _ Hin1 Hin2). destruct (zero_layers d (o_nl o)) as [-> ->].
      assert (RZ : repeat (lit (a:=XA) 0) (o_nl o) = map Fin (repeat 0 (o_nl o))).
      { rewrite PropsSolverX.lit0_X. generalize (o_nl o). induction n as [|n IH]; [reflexivity|]. cbn. f_equal. exact IH. }
      cbn [zero_cell c_sptauliq c_ptauliq c_sptauice c_ptauice]. rewrite RZ, PropsSolverX.lit0_X. auto.
    - destruct (Hc1 Hc) as (dens & la & l & ic & D1 & D2 & D3 & D4 & D5 & D6 & D7 & D8).
      cbn [inputs_of i_dens] in D1. rewrite Hdens in D1. injection D1 as <-. cbn [fst snd] in D2.
      cbn [with_sat g_liq] in D2. rewrite (init_linelist_liq _ _ _ _ Eg) in D2. change (i_tk (inputs_of h o)) with (hget h (o_tk o)) in D2.
      rewrite Hca in D2. apply ok_inj in D2. subst la. cbn [fst snd] in D3, D4.
      assert (IL := integ_layers false al d ltac:(lia) Nl ltac:(intros; apply Hnn; auto)). rewrite Ll in IL. assert (D3' := eq_trans (eq_sym IL) D3). apply ok_inj in D3'. subst l.
      assert (II := integ_layers false ai d ltac:(lia) Ni ltac:(intros; apply Hnn; auto)). rewrite Li in II. assert (D4' := eq_trans (eq_sym II) D4). apply ok_inj in D4'. subst ic.
      auto. }
  destruct CC as (C1 & C2 & C3 & C4). rewrite C2, C4 in Epl. rewrite (add4_X aw ad ai al d (o_nl o)) in Epl by auto.
  change (i_tk (inputs_of h o)) with (hget h (o_tk o)) in Epl. rewrite Htk in Epl.
  assert (Lt : length ts = o_nl o) by (assert (L := wf_tk _ _ W); rewrite Htk, map_length in L; exact L).
  assert (Nt : ts <> []) by (intros ->; cbn in Lt; lia).
  assert (Lop : length ts = length (opacities aw ad ai al d)) by (unfold opacities; rewrite map_length, seq_length; lia).
  assert (Tau := total_opacities aw ad ai al d ltac:(lia) ltac:(lia) ltac:(lia)).
  assert (Op0 : forall v, In v (opacities aw ad ai al d) -> 0 <= v).
  { intros v Hv. unfold opacities in Hv. apply in_map_iff in Hv. destruct Hv as (i & <- & _).
    assert (A1 := layer_int_nonneg true aw d i ltac:(intros; apply Hnn; auto) Hd).
    assert (A2 := layer_int_nonneg true ad d i ltac:(intros; apply Hnn; auto) Hd).
    assert (A3 := layer_int_nonneg false ai d i ltac:(intros; apply Hnn; auto) Hd).
    assert (A4 := layer_int_nonneg false al d i ltac:(intros; apply Hnn; auto) Hd). lra. }
  split; [symmetry; exact Hrow|]. unfold spec_row. cbv zeta.
  assert (Hh := spec_hvk_pos f Hf0). set (hv := spec_hvk f) in *. set (tl := opacities aw ad ai al d) in *.
  destruct (C84_discretised_transfer (o_sat o) es f ts tl Hf0 Hts Lop Nt) as (po & Po & Ph & _ & _ & Pa & P1 & P2 & _ & P3).
  fold hv in Ph, Pa, P1, P2, P3. change (g_from_sat (with_sat g1 (o_sat o))) with (o_sat o) in Epl. rewrite Po in Epl. apply ok_inj in Epl. subst pl.
  destruct (emission_sign (o_sat o) hv ts tl Hh Hts Op0 Lop Nt) as [S1 S2].
  assert (T0 := total_tau_nonneg tl Op0).
  assert (B0 : 0 < background (o_sat o) es hv ts).
  { unfold background. destruct (o_sat o).
    - apply Rmult_lt_0_compat; [apply Hes0; reflexivity|]. apply planckB_pos; [exact Hh|]. apply Hts, nth_In. lia.
    - apply planckB_pos; lra. }
  rewrite Pa in Eal. replace (Z.of_nat (o_nl o) - 1)%Z with (Z.of_nat (o_nl o - 1)) in Eal by lia.
  rewrite (py_get_nat _ _ x0) in Eal by (rewrite !map_length, seq_length; lia).
  rewrite (nth_map_d Fin _ _ 0) in Eal by (rewrite map_length, seq_length; lia). rewrite (nth_map_d _ _ _ 0%nat) in Eal by (rewrite seq_length; lia).
  rewrite seq_nth in Eal by lia. cbn [Nat.add] in Eal. apply ok_inj in Eal. subst atl.
  rewrite R1, R2, R3, R4, R5, F1, F2, F3, F4, Q1, Q2, Q3, C1, C2, C3, C4, Ph.
  split; [reflexivity|]. split; [reflexivity|]. split; [reflexivity|]. split; [reflexivity|]. split; [reflexivity|]. split; [exact Tau|].
  split; [reflexivity|]. split; [reflexivity|]. split; [reflexivity|]. split; [reflexivity|].
  split.
  { intros HT. destruct (P1 HT) as [_ ->]. apply bright_X; [exact Hh|].
    assert (0 < background (o_sat o) es hv ts * exp (- total_tau tl)) by (apply Rmult_lt_0_compat; [exact B0|apply exp_pos]). lra. }
  split. { intros HT. destruct (P3 HT) as (_ & -> & _). apply bright_X; [exact Hh|]. apply S2. lra. }
  split.
  { intros HT. rewrite P2 by lra. apply bright_X; [exact Hh|]. assert (E := exp_neg_lt1 (total_tau tl) ltac:(lra)). apply Rdiv_lt_0_compat; [apply S2; lra|lra]. }
  split. { intros HT. destruct (P3 HT) as (_ & _ & ->). apply bright_X; [exact Hh|]. apply S2. lra. }
  split.
  - intros Hs HT. rewrite Hs in *. unfold spec_atm. rewrite <- Lt.
    change (path_atm (fun i => planckB hv (view_T false ts i)) (view_D false tl) (length ts - 1)) with (total_atm false hv ts tl). apply bright_X; [exact Hh|auto].
  - intros Hs. rewrite Hs in *. unfold spec_atm. rewrite Lt. replace (o_nl o - 1 - (o_nl o - 1))%nat with 0%nat by lia. cbn [path_atm]. unfold path_atm. cbn [rsum].
    apply bright_X0.
Qed.

(** Heights increasing with the level number. *)
Definition rising (zs : list R) : Prop := forall i, (S i < length zs)%nat -> nth i zs 0 < nth (S i) zs 0.

Lemma slant_nonneg zs a : rising zs -> 0 < a < 180 -> forall v, In v (slant_path zs a) -> 0 <= v.
Proof.
  intros Hz Ha v Hv. unfold slant_path in Hv. apply in_map_iff in Hv. destruct Hv as (i & <- & Hi). apply in_seq in Hi.
  destruct i as [|i]; [cbn; lra|]. cbn [slant]. assert (S := sin_deg_pos a Ha). assert (Z := Hz i ltac:(lia)). apply Rlt_le, Rdiv_lt_0_compat; lra.
Qed.

(** Every row of a run without ray tracing. *)
Theorem C110_plane_parallel db (g : globals XA) (h : heap XA) o fr full o' g' ts zs : wf h o -> execute db g h o = Ok (fr, full, o', g') ->
  o_ray o = false -> hget h (o_z o) = map Fin zs -> rising zs ->
  hget h (o_tk o) = map Fin ts -> (forall t, In t ts -> 0 < t) ->
  forall k j f a es aw ad al ai dr, (k < length (o_angles o))%nat -> (j < length (o_frq o))%nat ->
  nth j (o_frq o) x0 = Fin f -> 0 < f -> nth k (o_angles o) x0 = Fin a -> 0 < a < 180 -> nth j (hget h (o_es o)) x0 = Fin es -> (o_sat o = true -> 0 < es) ->
  let x := nth j (an_rows (nth k full angle0)) full0 in
  f_awet x = map Fin aw -> f_adry x = map Fin ad -> cloud_profiles h g o f al ai ->
  length aw = o_nl o -> length ad = o_nl o -> length al = o_nl o -> length ai = o_nl o ->
  (forall v, In v aw \/ In v ad \/ In v al \/ In v ai -> 0 <= v) ->
  nth (k * length (o_frq o) + j) fr dr = f_row x /\ spec_row (o_sat o) f es a ts (slant_path zs a) aw ad al ai x.
Proof.
  intros W H Hr Hz Hinc Htk Hts k j f a es aw ad al ai dr Hk Hj Hf Hf0 Ha Ha0 Hes Hes0 x Haw Had Hcl L1 L2 L3 L4 Hnn.
  assert (Sp := sin_deg_pos a Ha0).
  refine (row_general db g h o fr full o' g' ts W H Htk Hts k j f a es (slant_path zs a) aw ad al ai dr Hk Hj Hf Hf0 Ha Hes Hes0 _ _ Haw Had Hcl L1 L2 L3 L4 Hnn).
  - intros e rho dryn wetn refindx _ _. rewrite (path_ds_flat h o refindx a zs Hr Hz ltac:(lra)). rewrite slant_path_diffs; [reflexivity|].
    intros ->. assert (L := wf_z _ _ W). rewrite Hz in L. cbn in L. assert (N := wf_nl _ _ W). lia.
  - apply slant_nonneg; auto.
Qed.

(** Every row of a run with ray tracing, when the ray tracer returns finite non-negative path lengths. *)
Theorem C110_ray_traced db (g : globals XA) (h : heap XA) o fr full o' g' ts d : wf h o -> execute db g h o = Ok (fr, full, o', g') ->
  o_ray o = true -> hget h (o_tk o) = map Fin ts -> (forall t, In t ts -> 0 < t) ->
  forall k j f a es aw ad al ai dr, (k < length (o_angles o))%nat -> (j < length (o_frq o))%nat ->
  nth j (o_frq o) x0 = Fin f -> 0 < f -> nth k (o_angles o) x0 = Fin a -> nth j (hget h (o_es o)) x0 = Fin es -> (o_sat o = true -> 0 < es) ->
  (forall e rho dryn wetn refindx, vapor (hget h (o_tk o)) (hget h (o_rh o)) (o_ice o) = Ok (e, rho) ->
     refractivity (hget h (o_p o)) (hget h (o_tk o)) e = (dryn, wetn, refindx) ->
     ray_tracing (A:=XA) (hget h (o_z o)) refindx (Fin a) (o_z0 o) = Ok (Some (map Fin d))) ->
  (forall v, In v d -> 0 <= v) ->
  let x := nth j (an_rows (nth k full angle0)) full0 in
  f_awet x = map Fin aw -> f_adry x = map Fin ad -> cloud_profiles h g o f al ai ->
  length aw = o_nl o -> length ad = o_nl o -> length al = o_nl o -> length ai = o_nl o ->
  (forall v, In v aw \/ In v ad \/ In v al \/ In v ai -> 0 <= v) ->
  nth (k * length (o_frq o) + j) fr dr = f_row x /\ spec_row (o_sat o) f es a ts d aw ad al ai x.
Proof.
  intros W H Hr Htk Hts k j f a es aw ad al ai dr Hk Hj Hf Hf0 Ha Hes Hes0 HP Hd x Haw Had Hcl L1 L2 L3 L4 Hnn.
  refine (row_general db g h o fr full o' g' ts W H Htk Hts k j f a es d aw ad al ai dr Hk Hj Hf Hf0 Ha Hes Hes0 _ Hd Haw Had Hcl L1 L2 L3 L4 Hnn).
  intros e rho dryn wetn refindx Ev Er. unfold path_ds. cbn [inputs_of i_ray i_z i_z0]. rewrite Hr. rewrite (HP _ _ _ _ _ Ev Er). reflexivity.
Qed.

(** The three columns per angle of a run without ray tracing: integrals of the vapour density (g/m2 over 10: cm) and of the two refractivities along the slant path. *)
Theorem C110_columns db (g : globals XA) (h : heap XA) o fr full o' g' zs rho wetn dryn : wf h o -> execute db g h o = Ok (fr, full, o', g') ->
  o_ray o = false -> hget h (o_z o) = map Fin zs ->
  (forall e ro dr we re, vapor (hget h (o_tk o)) (hget h (o_rh o)) (o_ice o) = Ok (e, ro) -> refractivity (hget h (o_p o)) (hget h (o_tk o)) e = (dr, we, re) ->
     ro = map Fin rho /\ we = map Fin wetn /\ dr = map Fin dryn) ->
  (forall v, In v rho \/ In v wetn \/ In v dryn -> 0 <= v) -> length rho = o_nl o -> length wetn = o_nl o -> length dryn = o_nl o ->
  forall k a, (k < length (o_angles o))%nat -> nth k (o_angles o) x0 = Fin a -> 0 < a < 180 ->
  let y := nth k full angle0 in
  an_srho y = Fin (0.1 * column true rho (slant_path zs a)) /\
  an_swet y = Fin (0.1 * column true wetn (slant_path zs a)) /\
  an_sdry y = Fin (0.1 * column true dryn (slant_path zs a)).
Proof.
  intros W H Hr Hz HV Hnn Lr Lw Ld k a Hk Ha Ha0 y.
  destruct (execute_angle XA db g h o fr full o' g' x0 angle0 W H) as (g1 & e & ro & dr & we & re & _ & Ev & Er & HA).
  destruct (HV _ _ _ _ _ Ev Er) as (-> & -> & ->). destruct (HA k Hk) as (ds & sr & sw & sd & Ep & I1 & I2 & I3 & J1 & J2 & J3 & _). fold y in J1, J2, J3.
  assert (Sp := sin_deg_pos a Ha0). assert (N := wf_nl _ _ W). assert (Lz := wf_z _ _ W). rewrite Hz, map_length in Lz.
  rewrite Ha in Ep. rewrite (path_ds_flat h o re a zs Hr Hz ltac:(lra)) in Ep. rewrite slant_path_diffs in Ep by (intros ->; cbn in Lz; lia).
  apply ok_inj in Ep. subst ds.
  assert (LS : length (slant_path zs a) = o_nl o) by (unfold slant_path; rewrite map_length, seq_length; exact Lz).
  assert (S0 : nth 0 (slant_path zs a) 0 = 0) by (unfold slant_path; destruct zs; reflexivity).
  assert (T : lit (a:=XA) 0.1 = Fin 0.1) by reflexivity.
  assert (Q : forall (x : list R) r, length x = o_nl o -> (forall v, In v x -> 0 <= v) ->
     exponential_integration (A:=XA) true (map Fin x) (map Fin (slant_path zs a)) 0 (Z.of_nat (o_nl o)) (lit 0.1) = Ok r -> fst r = Fin (0.1 * column true x (slant_path zs a))).
  { intros x r Lx Hx E. destruct (integ_column true x (slant_path zs a) 0.1 ltac:(lia) ltac:(intros ->; cbn in Lx; lia) Hx S0) as (out & E').
    rewrite Lx in E'. assert (E2 := eq_trans (eq_sym E') E). apply ok_inj in E2. rewrite <- E2. reflexivity. }
  rewrite J1, J2, J3. split; [|split]; eapply Q; eauto.
Qed.
