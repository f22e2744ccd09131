(** Claim C89, positive part: the entries that do take part.  The line list a run uses holds exactly the values of the table (widths and shifts
    converted from MHz to GHz), and the run is the run without a table on that list. *)

From Coq Require Import ZArith Reals Lra List Bool String PeanoNat Lia.
Import ListNotations.
From Verif Require Import Arith PyBase Utils RTE Absorption Clear Spectrum Registry RealAux ListAux SolverGen PropsHistory Uncertainty PropsCopy PropsUnc PropsTables
  LineData Lineshape PropsClear PropsAmu.
Local Open Scope string_scope.

Section Applied.
Context {A : Arith}.
Notation num := (car A).
Notation store := (store A).

(** ** Specification *)

(** The value of the entry [k] is this array / this number. *)
Definition array_of (s : store) (d : pdict) (k : string) (a : list num) : Prop := value_of s d k = Some (CArr a).
Definition number_of (s : store) (d : pdict) (k : string) (x : num) : Prop :=
  value_of s d k = Some (CFloat x) \/ exists z, value_of s d k = Some (CInt z) /\ x = of_int z.

(** Water vapour models with pressure shifts of their own, and with a shift given as a ratio. *)
Definition shift_models := ["R18"; "R19"; "R19SD"; "R20"; "R20SD"; "R21SD"; "R22SD"; "R23SD"; "R24"; "R98"].
Definition ratio_models := ["R03"; "R16"; "R17"; "MWL24"].
Definition gigahertz (a : list num) : list num := map (fun x => div x (lit 1000.0%dec)) a.

(** ** Proofs *)

Lemma array_amu s d k a b : array_of s d k a -> amu_arr s d k = Ok b -> b = a.
Proof. unfold array_of, value_of, amu_arr, amu_value. destruct (entry s d k) as [[v u]|]; cbn; [|discriminate]. intros [= ->]. cbn. congruence. Qed.
Lemma number_amu s d k x y : number_of s d k x -> amu_num s d k = Ok y -> y = x.
Proof.
  unfold number_of, value_of, amu_num, amu_value. destruct (entry s d k) as [[v u]|]; cbn; [|intros [|(? & ? & _)]; discriminate].
  intros [[= ->]|(z & [= ->] & ->)]; cbn; congruence.
Qed.

Ltac split_binds E := repeat match goal with U : bind _ _ = Ok _ |- _ => unbind U end; injection E as <-;
  repeat match goal with U : Ok _ = Ok _ |- _ => injection U as U; subst end; cbn [bind h_lines h_cf h_cs h_xcf h_xcs h_reftcon h_reftline h_d2air h_d2self o_lines o_x o_wb300 z_lines z_reftline fst snd] in *.
Ltac member := repeat match goal with H : In _ _ |- _ => cbn [In] in H end;
  repeat match goal with H : _ \/ _ |- _ => destruct H as [H|H] | H : False |- _ => destruct H end.
Ltac arr := match goal with G : array_of ?s ?d ?k _, U : amu_arr ?s ?d ?k = Ok _ |- _ => pose proof (array_amu s d k _ _ G U); subst end.
Ltac nums := repeat match goal with G : number_of ?s ?d ?k _, U : amu_num ?s ?d ?k = Ok _ |- _ => pose proof (number_amu s d k _ _ G U); clear G; subst end.

(** What every override of the water-vapour list does. *)
Theorem C89_water_applied : forall s d m (ll ll' : h2o_ll A), h2o_override s d m ll = Ok ll' -> forall k f a, array_of s d k a ->
  (In (k, f) [("S", @h_s1 A); ("B2", @h_b2 A); ("n_a", @h_x A); ("n_w", @h_xs A); ("FL", @h_fl A)] -> map f (h_lines ll') = a) /\
  (In (k, f) [("gamma_a", @h_w0 A); ("gamma_w", @h_w0s A)] -> map f (h_lines ll') = gigahertz a) /\
  (In m shift_models -> In (k, f) [("delta_a", @h_sh A); ("delta_w", @h_shs A)] -> map f (h_lines ll') = gigahertz a) /\
  (In m shift_models -> In (k, f) [("n_da", @h_xh A); ("n_dw", @h_xhs A)] -> map f (h_lines ll') = a) /\
  (In m ratio_models -> (k, f) = ("SR", @h_sr A) -> map f (h_lines ll') = a).
Proof.
  intros s d m ll ll' E k f a G. unfold h2o_override in E.
  assert (MS : In m shift_models -> str_gtb m "R17" = true) by (intros Hm; unfold shift_models in Hm; member; subst; reflexivity).
  assert (MR : In m ratio_models -> str_gtb m "R17" = false) by (intros Hm; unfold ratio_models in Hm; member; subst; reflexivity).
  unfold gigahertz. fold (mil a). destruct (str_gtb m "R17"); split_binds E; repeat split; intros; try (apply MR in H; discriminate); try (apply MS in H; discriminate); clear MS MR;
    member; repeat match goal with Q : (_, _) = (_, _) |- _ => let Q1 := fresh in let Q2 := fresh in injection Q as Q1 Q2; subst end; arr; chain.
Qed.

(** The columns no entry names stay, and so does everything outside the lines except the continuum. *)
Theorem C89_water_kept : forall s d m (ll ll' : h2o_ll A), h2o_override s d m ll = Ok ll' ->
  (forall f, In f [@h_aair A; @h_aself A; @h_w2 A; @h_w2s A; @h_xw2 A; @h_xw2s A; @h_d2 A; @h_d2s A] -> map f (h_lines ll') = map f (h_lines ll)) /\
  (In m ratio_models -> forall f, In f [@h_sh A; @h_shs A; @h_xh A; @h_xhs A] -> map f (h_lines ll') = map f (h_lines ll)) /\
  (In m shift_models -> map (@h_sr A) (h_lines ll') = map (@h_sr A) (h_lines ll)) /\
  h_reftcon ll' = h_reftcon ll /\ h_reftline ll' = h_reftline ll /\ h_d2air ll' = h_d2air ll /\ h_d2self ll' = h_d2self ll.
Proof.
  intros s d m ll ll' E. unfold h2o_override in E.
  assert (MS : In m shift_models -> str_gtb m "R17" = true) by (intros Hm; unfold shift_models in Hm; member; subst; reflexivity).
  assert (MR : In m ratio_models -> str_gtb m "R17" = false) by (intros Hm; unfold ratio_models in Hm; member; subst; reflexivity).
  Ltac keeps := match goal with
    | H : per_line ?f ?l ?a = Ok ?r |- map ?g ?r = _ => rewrite (per_line_keep f g l a r (fun k x => eq_refl) H); keeps
    | |- _ = _ => reflexivity end.
  destruct (str_gtb m "R17"); split_binds E; repeat split; intros; try (apply MR in H; discriminate); try (apply MS in H; discriminate); clear MS MR;
    member; subst; keeps.
Qed.

(** The continuum: coefficients of the table, multiplied by the factors of the table for the models with a ratio. *)
Theorem C89_water_continuum : forall s d m (ll ll' : h2o_ll A) cf cs xf xs, h2o_override s d m ll = Ok ll' ->
  number_of s d "con_Cf" cf -> number_of s d "con_Cs" cs -> number_of s d "con_Xf" xf -> number_of s d "con_Xs" xs ->
  h_xcf ll' = xf /\ h_xcs ll' = xs /\
  (In m shift_models -> h_cf ll' = cf /\ h_cs ll' = cs) /\
  (In m ratio_models -> forall ff fs, number_of s d "con_Cf_factr" ff -> number_of s d "con_Cs_factr" fs -> h_cf ll' = mul cf ff /\ h_cs ll' = mul cs fs).
Proof.
  intros s d m ll ll' cf cs xf xs E G1 G2 G3 G4. unfold h2o_override in E.
  assert (MS : In m shift_models -> str_gtb m "R17" = true) by (intros Hm; unfold shift_models in Hm; member; subst; reflexivity).
  assert (MR : In m ratio_models -> str_gtb m "R17" = false) by (intros Hm; unfold ratio_models in Hm; member; subst; reflexivity).
  destruct (str_gtb m "R17"); split_binds E; nums; repeat split; intros; try (apply MR in H; discriminate); try (apply MS in H; discriminate); nums; auto.
Qed.

(** Oxygen.  Widths, mixing coefficients and their temperature coefficients come from two entries: the first 34 lines from the one, lines 34 to 48 from the other. *)
Definition joined (a b : list num) (i : nat) : option num := if (i <? 34)%nat then nth_error a i else nth_error b i.
Definition first_mixing := ["R03"; "R16"; "R17"; "R18"; "R19"].
Definition second_mixing := ["R19SD"; "R20"; "R20SD"; "R22"; "R23"; "R24"; "R98"].

Theorem C89_oxygen_applied : forall s d m (ll ll' : o2_ll A), o2_override s d m ll = Ok ll' -> List.length (o_lines ll) = 49%nat ->
  (forall k f a, array_of s d k a ->
    (In (k, f) [("O2FL", @o_f A); ("O2S", @o_s300 A); ("O2BE", @o_be A)] -> map f (o_lines ll') = a) /\
    (In m second_mixing -> In (k, f) [("y0", @o_y0 A); ("y1", @o_y1 A); ("dnu0", @o_dnu0 A); ("dnu1", @o_dnu1 A)] -> map f (o_lines ll') = a)) /\
  (forall a b, array_of s d "O2gamma" a -> array_of s d "O2gamma_NL" b -> List.length a = 49%nat -> List.length b = 49%nat ->
    forall i, (i < 49)%nat -> nth_error (map (@o_w300 A) (o_lines ll')) i = joined a b i) /\
  (In m first_mixing -> forall k kn f a b, In (k, kn, f) [("Y300", "Y300_NL", @o_y300 A); ("O2_V", "O2_V_NL", @o_v A)] -> array_of s d k a -> array_of s d kn b ->
    List.length a = 49%nat -> List.length b = 49%nat -> forall i, (i < 49)%nat -> nth_error (map f (o_lines ll')) i = joined a b i) /\
  (forall x, number_of s d "WB300" x -> o_wb300 ll' = x) /\ (forall x, number_of s d "X05" x -> o_x ll' = x).
Proof.
  intros s d m ll ll' E LN. unfold o2_override in E.
  assert (MS : In m second_mixing -> str_gtb m "R19" = true) by (intros Hm; unfold second_mixing in Hm; member; subst; reflexivity).
  assert (MR : In m first_mixing -> str_gtb m "R19" = false) by (intros Hm; unfold first_mixing in Hm; member; subst; reflexivity).
  assert (J2 : forall (y yn r : list num), slice_assign 34 49 y yn = Ok r -> List.length y = 49%nat -> List.length yn = 49%nat ->
     forall i, (i < 49)%nat -> nth_error r i = joined y yn i).
  { intros y yn r H L1 L2 i Hi. destruct (slice_assign_nth 34 49 y yn r ltac:(lia) ltac:(congruence) H) as [_ N]. rewrite N. unfold joined.
    destruct (Nat.ltb_spec i 34) as [H1|H1].
    - replace (Nat.leb 34 i) with false by (symmetry; apply Nat.leb_gt; lia). reflexivity.
    - replace (Nat.leb 34 i) with true by (symmetry; apply Nat.leb_le; lia). replace (Nat.ltb i 49) with true by (symmetry; apply Nat.ltb_lt; lia). reflexivity. }
  assert (J1 : forall (w g gn r r' : list num), slice_assign 0 38 w g = Ok r -> slice_assign 34 49 r gn = Ok r' -> List.length w = 49%nat -> List.length g = 49%nat -> List.length gn = 49%nat ->
     forall i, (i < 49)%nat -> nth_error r' i = joined g gn i).
  { intros w g gn r r' H1 H2 L1 L2 L3 i Hi. destruct (slice_assign_nth 0 38 w g r ltac:(lia) ltac:(congruence) H1) as [LR N].
    rewrite (J2 r gn r' H2 ltac:(congruence) L3 i Hi). unfold joined. destruct (Nat.ltb_spec i 34) as [Hl|Hl]; [|reflexivity].
    rewrite N. replace (Nat.leb 0 i) with true by (symmetry; apply Nat.leb_le; lia). replace (Nat.ltb i 38) with true by (symmetry; apply Nat.ltb_lt; lia). reflexivity. }
  assert (LW : List.length (map (@o_w300 A) (o_lines ll)) = 49%nat) by (rewrite map_length; exact LN).
  Ltac colmn := match goal with |- nth_error (map ?g ?r) ?i = _ => erewrite (_ : map g r = _); [|chain] end.
  destruct (str_gtb m "R19"); split_binds E; (split; [|split; [|split; [|split]]]); intros; try (split; intros); try (apply MR in H; discriminate); try (match goal with H : In m second_mixing |- _ => apply MS in H; discriminate end);
    clear MS MR; member; repeat match goal with Q : (_, _) = (_, _) |- _ => injection Q as <- <- | Q : (_, _, _) = (_, _, _) |- _ => injection Q as <- <- <- end;
    repeat match goal with G : array_of ?s ?d ?k _, U : amu_arr ?s ?d ?k = Ok _ |- _ => pose proof (array_amu s d k _ _ G U); clear G; subst end; nums;
    first [reflexivity | chain | idtac].
  all: match goal with |- nth_error (map ?g ?r) ?i = joined ?a ?b _ =>
     let c := fresh "c" in let E := fresh "E" in evar (c : list num); assert (E : map g r = c) by (unfold c; chain); rewrite E; unfold c; clear E c end.
  all: first [eapply J1; eassumption | eapply J2; eassumption].
Qed.

(** Ozone: every column. *)
Theorem C89_ozone_applied : forall s d (ll ll' : o3_ll A), o3_override s d ll = Ok ll' -> forall k f a, array_of s d k a ->
  In (k, f) [("O3_FL", @z_fl A); ("O3_S1", @z_s1 A); ("O3_B", @z_b A); ("O3_W", @z_w A); ("O3_X", @z_x A)] -> map f (z_lines ll') = a.
Proof.
  intros s d ll ll' E k f a G H. unfold o3_override in E. split_binds E. member; injection H as <- <-;
  repeat match goal with G : array_of ?s ?d ?k _, U : amu_arr ?s ?d ?k = Ok _ |- _ => pose proof (array_amu s d k _ _ G U); clear G; subst end; chain.
Qed.

(** A run with a table is the run without it on the class state holding the lists above. *)
Theorem C89_run : forall (g : globals A) s d mw wl wl' mo ol ol' p t e frq o3n,
  g_h2o g = Some mw -> g_h2oll g = Some wl -> g_o2 g = Some mo -> g_o2ll g = Some ol ->
  h2o_override s d mw wl = Ok wl' -> o2_override s d mo ol = Ok ol' ->
  (o3n = None -> clearsky_absorption g (Some (amu_of s d)) p t e frq o3n = clearsky_absorption (with_o2ll (with_h2oll g (Some wl')) (Some ol')) None p t e frq o3n) /\
  (forall zl zl', g_o3ll g = Some zl -> o3_override s d zl = Ok zl' ->
     clearsky_absorption g (Some (amu_of s d)) p t e frq o3n = clearsky_absorption (with_o3ll (with_o2ll (with_h2oll g (Some wl')) (Some ol')) (Some zl')) None p t e frq o3n).
Proof.
  intros g s d mw wl wl' mo ol ol' p t e frq o3n G1 G2 G3 G4 W O.
  split.
  - intros ->. unfold clearsky_absorption. f_equal. cbn [with_o3].
    assert (Hn : forall x, In x (combine p (combine t (combine e (repeat (@None num) (List.length p))))) -> snd (snd (snd x)) = None).
    { intros [p0 [t0 [e0 o]]] Hin. cbn. apply in_combine_r, in_combine_r, in_combine_r in Hin. apply repeat_spec in Hin. exact Hin. }
    revert Hn. generalize (combine p (combine t (combine e (repeat (@None num) (List.length p))))). intros l Hn.
    induction l as [|[p0 [t0 [e0 o]]] l IH]; [reflexivity|]. cbn [mapM]. rewrite IH by (intros; apply Hn; right; assumption).
    specialize (Hn _ (or_introl eq_refl)). cbn in Hn. subst o. unfold clearsky_level, h2o_call, o2_call, n2_call, o3_call.
    cbn [with_o2ll with_h2oll g_h2o g_h2oll g_o2 g_o2ll g_n2]. rewrite G1, G2, G3, G4. cbn [over amu_of amu_h2o amu_o2 mname]. rewrite W, O. reflexivity.
  - intros zl zl' G5 Z. unfold clearsky_absorption. f_equal. generalize (combine p (combine t (combine e (with_o3 (List.length p) o3n)))). intros l.
    induction l as [|[p0 [t0 [e0 o]]] l IH]; [reflexivity|]. cbn [mapM]. rewrite IH. unfold clearsky_level, h2o_call, o2_call, n2_call, o3_call.
    cbn [with_o3ll with_o2ll with_h2oll g_h2o g_h2oll g_o2 g_o2ll g_n2 g_o3 g_o3ll]. rewrite G1, G2, G3, G4, G5. cbn [over amu_of amu_h2o amu_o2 amu_o3 mname]. rewrite W, O, Z. reflexivity.
Qed.
End Applied.

(** A concrete case: the table of the package for R19, whose override succeeds on the list of the package. *)
Example C89_applied_example : exists (s : store RA) d ll ll', shipped_h2o (A:=RA) "R19" = Some ll /\ h2o_override s d "R19" ll = Ok ll' /\
  exists a, array_of s d "gamma_a" a /\ map (@h_w0 RA) (h_lines ll') = gigahertz a /\ (0 < List.length a)%nat.
Proof.
  destruct (shipped_h2o (A:=RA) "R19") as [ll|] eqn:E; [|vm_compute in E; discriminate].
  destruct (C62_water (@shipped RA) "R19" ll (mkU [] [] [] (mkStore [] [])) E ltac:(cbn; tauto)) as (d & u & _ & _ & _ & _ & S).
  assert (HH : holds (u_store u) d (water_spec "R19" ll)) by (intros k x Hk; rewrite S; exact Hk).
  assert (Q := C88_water (u_store u) d "R19" ll ltac:(cbn; tauto) HH).
  assert (V : array_of (u_store u) d "gamma_a" (map (fun k => mul (a:=RA) (h_w0 k) (lit (a:=RA) 1e3%dec)) (h_lines ll))).
  { unfold array_of, value_of. specialize (S "gamma_a"). rewrite S. reflexivity. }
  exists (u_store u), d, ll, (scaled "R19" ll). split; [reflexivity|]. split; [exact Q|]. eexists. split; [exact V|].
  destruct (C89_water_applied _ _ _ _ _ Q "gamma_a" (@h_w0 RA) _ V) as (_ & H & _). split; [apply H; cbn; tauto|].
  rewrite map_length. unfold shipped_h2o in E. cbn [String.eqb Ascii.eqb Bool.eqb] in E. injection E as <-. cbn. lia.
Qed.
