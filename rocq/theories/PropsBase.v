(** Claim C147: choosing the absorption model by [AbsModel.model = ...], as in the example on absorption profiles of the documentation. *)

From Coq Require Import ZArith Reals Lra Lia String List Bool.
Import ListNotations.
From Verif Require Import Arith PyBase Utils RTE Absorption Clear Spectrum Spec ListAux RealAux PlanckReal PlanckMaster PropsPlanck Integral
  SolverGen SolverRun Registry PropsRun PropsObject PropsModels PropsSolverX PropsRay PropsLiq LineData Lineshape PropsAbsN2 PropsClear PropsO2H2O PropsH2O PropsO2Data PropsO3
  PropsUtils PropsSelfCont FinTransfer FinGas FinSD PropsUtils3 FinClear PropsRow WeightingGen SolverExamples FinCloud PropsEnd PropsMixed ProfileData Profiles PropsProfiles PropsClimate BaseClass.
Local Open Scope string_scope.
Open Scope R_scope.

(** ** Specification *)

(** The model in force for a gas: the one assigned to its class, [m] otherwise. *)
Definition in_force (own : option string) (m : string) : string := match own with Some o => o | None => m end.

(** A process in which no gas class was assigned. *)
Definition untouched {A} (c : classes A) : Prop :=
  g_h2o (c_own c) = None /\ g_o2 (c_own c) = None /\ g_n2 (c_own c) = None /\ g_liq (c_own c) = None /\ g_o3 (c_own c) = None.

(** The two tables of the program, without the state it leaves. *)
Definition tables {A} (r : result (list (list (car A)) * list (list (car A)) * classes A)) : result (list (list (car A)) * list (list (car A))) :=
  match r with Ok (w, d, _) => Ok (w, d) | Err e => Err e end.

(** Rows [w] and [d] of the tables at the frequency [f], for the models [mw], [mo], [mn] and the atmosphere [k]. *)
Definition profile_row (k : nat) (mw mo mn : string) (f : R) (w d : list (car XA)) : Prop :=
  exists al pr de te ga rh oz aw ad, gl_atm (A:=RA) (Z.of_nat k) = Ok (al, pr, de, te, ga) /\ climate_arrays (A:=RA) (Z.of_nat k) = Ok (al, pr, te, rh, oz) /\
    mixed_absorption mw mo mn "" pr te rh None f aw ad /\ w = map Fin aw /\ d = map Fin ad /\ length aw = 50%nat /\ length ad = 50%nat /\ forall v, In v aw \/ In v ad -> 0 <= v.

(** ** Proofs *)

Lemma names_loaded mw mo mn : serves mw mo mn -> (exists ll, db_h2o (@shipped XA) mw = Some ll) /\ exists ll, db_o2 (@shipped XA) mo = Some ll.
Proof.
  intros (Sw & (So & _) & _).
  assert (Nw : In mw h2o_names) by (clear So; unfold std_models, sd_fin_models in Sw; cbn in *; tauto).
  assert (No : In mo o2_names) by (apply (fin_o2_loaded mo So)).
  destruct (C48_shipped_registered XA mw) as (R1 & _). destruct (C48_shipped_registered XA mo) as (_ & R2 & _). 
  apply (proj2 R1) in Nw. apply (proj2 R2) in No. clear R1 R2. split.
  - destruct (db_h2o (@shipped XA) mw) as [ll|]; [eauto|congruence].
  - destruct (db_o2 (@shipped XA) mo) as [ll|]; [eauto|congruence].
Qed.

Lemma mapM_rows {T} (F : T -> result (list (car XA) * list (car XA))) (P : R -> list (car XA) -> list (car XA) -> Prop) (g : R -> T) (fs : list R) :
  (forall f, In f fs -> exists w d, F (g f) = Ok (w, d) /\ P f w d) ->
  exists rows, mapM F (map g fs) = Ok rows /\ length rows = length fs /\ forall j, (j < length fs)%nat -> P (nth j fs 0) (fst (nth j rows ([], []))) (snd (nth j rows ([], []))).
Proof.
  induction fs as [|f fs IH]; intros H; [exists []; repeat split; cbn; lia|]. destruct (H f (or_introl eq_refl)) as (w & d & E & Pf).
  destruct IH as (rows & R1 & R2 & R3); [intros x Hx; apply H; right; exact Hx|]. exists ((w, d) :: rows). cbn [map mapM]. rewrite E. cbn [bind]. rewrite R1. cbn [bind length].
  split; [reflexivity|]. split; [congruence|]. intros [|j] Hj; [exact Pf|]. apply R3. cbn in Hj. lia.
Qed.

(** What the program computes, whatever was assigned before: each gas uses the model of its own class, and [m] only if it has none. *)
Theorem C147_program (k : nat) (c : classes XA) m (fs : list R) : (k < 6)%nat ->
  let mw := in_force (g_h2o (c_own c)) m in let mo := in_force (g_o2 (c_own c)) m in let mn := in_force (g_n2 (c_own c)) m in
  serves mw mo mn -> (forall f, In f fs -> covered mw f) ->
  exists w d c', wv_program (@shipped XA) c (Z.of_nat k) m (map Fin fs) = Ok (w, d, c') /\ length w = length fs /\ length d = length fs /\
    forall j, (j < length fs)%nat -> profile_row k mw mo mn (nth j fs 0) (nth j w []) (nth j d []).
Proof.
  intros Hk mw mo mn S Hf. destruct (gl_atm (A:=RA) (Z.of_nat k)) as [[[[[al pr] de] te] ga]|e] eqn:EG; [|rewrite (proj2 (C72_selection RA k Hk)) in EG; discriminate].
  destruct (C131_arrays k al pr de te ga Hk EG) as (rh & oz & CR & CX & SO & L3 & P3 & BT & BP & _). destruct (C98_physical k _ _ _ _ _ Hk EG) as [(La & _) _ _ _ _ _ _].
  destruct SO as [S1 S2 S3 S4 S5 S6 S7 S8]. destruct (vap_facts te rh ltac:(lia) S6 S7) as (V1 & V2 & V3).
  destruct (names_loaded mw mo mn S) as ((ll & Ell) & (ll2 & Ell2)).
  assert (GW : g_h2o (seen (set_base c m)) = Some mw) by (unfold seen, set_base, mw; cbn; destruct (g_h2o (c_own c)); reflexivity).
  set (c1 := mkClasses (A:=XA) (Some m) (with_h2oll (c_own c) (Some ll))).
  assert (I1 : import_h2o (@shipped XA) (set_base c m) = Ok c1) by (unfold import_h2o; rewrite GW, Ell; reflexivity).
  assert (GO : g_o2 (seen c1) = Some mo) by (unfold seen, c1, mo; cbn; destruct (g_o2 (c_own c)); reflexivity).
  set (c2 := mkClasses (A:=XA) (Some m) (with_o2ll (with_h2oll (c_own c) (Some ll)) (Some ll2))).
  assert (I2 : import_o2 (@shipped XA) c1 = Ok c2) by (unfold import_o2; rewrite GO, Ell2; reflexivity).
  assert (SEL : selected XA mw mo mn (seen c2)).
  { constructor; unfold seen, c2, mw, mo, mn; cbn [c_own c_base with_o2ll with_h2oll g_h2o g_o2 g_n2 g_h2oll g_o2ll inherit]; try (symmetry; assumption).
    - destruct (g_h2o (c_own c)); reflexivity. - destruct (g_o2 (c_own c)); reflexivity. - destruct (g_n2 (c_own c)); reflexivity. }
  destruct (mapM_rows (fun f => clearsky_absorption (seen c2) None (map Fin pr) (map Fin te) (map Fin (vap te rh)) f None)
              (profile_row k mw mo mn) Fin fs) as (rows & R1 & R2 & R3).
  { intros f Hin. destruct S as (Sw & (So & So') & Sn).
    assert (Mw : In mw std_models \/ (In mw sd_fin_models /\ (forall t, In t te -> 100 <= t <= 385) /\ forall p, In p pr -> p <= 1100)).
    { destruct Sw as [Sw|Sw]; [left; exact Sw|right]. split; [exact Sw|]. split; [intros x Hx; assert (X := BT x Hx); lra|intros x Hx; assert (X := BP x Hx); lra]. }
    destruct (clear_D mw mo mn (seen c2) (mixed mw mo mn "") f pr te (vap te rh) None (fun i Hi => covers_range mw pr te f i Mw (Hf f Hin) Hi ltac:(lia)) So So' Sn) as (aw & ad & C1 & C2 & C3 & C4 & C5); auto.
    - constructor; reflexivity.
    - apply (Hf f Hin).
    - lia.
    - intros i Hlt. rewrite V3 by exact Hlt. apply S8. lia.
    - exact I.
    - exists (map Fin aw), (map Fin ad). split; [exact C1|]. exists al, pr, de, te, ga, rh, oz, aw, ad. split; [exact EG|]. split; [exact CR|]. split; [exact C2|].
      split; [reflexivity|]. split; [reflexivity|]. split; [lia|]. split; [lia|exact C5]. }
  exists (map fst rows), (map snd rows), c2. split.
  - unfold wv_program. rewrite CX. cbn [bind]. rewrite (vapor_D te rh S6). cbn [bind fst]. rewrite I1. cbn [bind]. rewrite I2. cbn [bind].
    match goal with |- bind _ ?q = _ => etransitivity; [exact (f_equal (fun r => bind r q) R1)|] end. reflexivity.
  - rewrite !map_length. split; [exact R2|]. split; [exact R2|]. intros j Hj.
    rewrite (nth_map_d fst rows j ([], [])) by lia. rewrite (nth_map_d snd rows j ([], [])) by lia. apply R3, Hj.
Qed.

(** In a process where no gas class was assigned the name is in force for water vapour, oxygen and nitrogen. *)
Theorem C147_fresh (k : nat) (c : classes XA) m (fs : list R) : (k < 6)%nat -> untouched c -> serves m m m -> (forall f, In f fs -> covered m f) ->
  exists w d c', wv_program (@shipped XA) c (Z.of_nat k) m (map Fin fs) = Ok (w, d, c') /\ length w = length fs /\ length d = length fs /\
    forall j, (j < length fs)%nat -> profile_row k m m m (nth j fs 0) (nth j w []) (nth j d []).
Proof.
  intros Hk (U1 & U2 & U3 & _) S Hf. assert (X := C147_program k c m fs Hk). rewrite U1, U2, U3 in X. exact (X S Hf).
Qed.

(** After [init_absmdl m0] of any solver the assignment to the base class has no effect: the tables are those of [m0], whatever name is assigned. *)
Theorem C147_no_effect (A : Arith) (db : lldb A) (c : classes A) (c0 : classes A) k m m0 fs : untouched c0 ->
  tables (wv_program db (mkClasses (c_base c) (init_absmdl (c_own c) m0)) k m fs) = tables (wv_program db c0 k m0 fs).
Proof.
  intros (U1 & U2 & U3 & _). unfold wv_program. destruct (climate_arrays k) as [[[[[z p] t] rh] o]|e]; [|reflexivity]. cbn [bind].
  destruct (vapor t rh false) as [v|e]; [|reflexivity]. cbn [bind]. unfold import_h2o. cbn [set_base seen c_own c_base init_absmdl g_h2o inherit]. rewrite U1. cbn [inherit].
  destruct (db_h2o db m0) as [ll|]; [|reflexivity]. cbn [bind]. unfold import_o2. cbn [set_base seen c_own c_base init_absmdl with_h2oll g_o2 inherit]. rewrite U2. cbn [inherit].
  destruct (db_o2 db m0) as [ll2|]; [|reflexivity]. cbn [bind].
  match goal with |- tables (bind (mapM ?F fs) _) = tables (bind (mapM ?G fs) _) => assert (E : mapM F fs = mapM G fs) end.
  { assert (EC : forall g g' : globals A, g_h2o g = g_h2o g' -> g_o2 g = g_o2 g' -> g_n2 g = g_n2 g' -> g_h2oll g = g_h2oll g' -> g_o2ll g = g_o2ll g' ->
      forall f, clearsky_absorption g None p t (fst v) f None = clearsky_absorption g' None p t (fst v) f None).
    { intros g g' E1 E2 E3 E4 E5 f. unfold clearsky_absorption. set (L := combine p _).
      assert (HL : forall x, In x L -> snd (snd (snd x)) = None).
      { intros (p0 & t0 & e0 & o0) Hx. unfold L in Hx. apply in_combine_r in Hx. apply in_combine_r in Hx. apply in_combine_r in Hx. cbn [with_o3] in Hx. apply repeat_spec in Hx. exact Hx. }
      clearbody L. match goal with |- bind (mapM ?F L) _ = bind (mapM ?G L) _ => assert (EE : mapM F L = mapM G L) end.
      { induction L as [|(p0 & t0 & e0 & o0) L IH]; [reflexivity|]. assert (o0 = None) as -> by exact (HL _ (or_introl eq_refl)). cbn [mapM].
        unfold clearsky_level at 1 3. unfold h2o_call, o2_call, n2_call, o3_call. rewrite E1, E2, E3, E4, E5. rewrite IH; [reflexivity|]. intros x Hx. apply HL. right. exact Hx. }
      rewrite EE. reflexivity. }
    clear - EC U1 U2 U3. induction fs as [|f fs IH]; [reflexivity|]. cbn [mapM].
    match goal with |- bind ?a _ = bind ?b _ => assert (X : a = b) end.
    { apply EC; cbn [seen c_own c_base init_absmdl with_h2oll with_o2ll set_base g_h2o g_o2 g_n2 g_h2oll g_o2ll inherit]; rewrite ?U1, ?U2, ?U3; reflexivity. }
    rewrite X, IH. reflexivity. }
  rewrite E. match goal with |- context [bind ?x _] => destruct x end; reflexivity.
Qed.

(** "[AbsModel.model = m] selects the model": false after a solver chose R21SD - the program for R19SD stops with a KeyError, although R19SD is implemented
    and the same program returns the tables in a fresh process. *)
Theorem C147_selects_refuted (k : nat) (c : classes XA) (fs : list R) : (k < 6)%nat -> untouched c -> (forall f, In f fs -> 0 < f) ->
  wv_program (@shipped XA) (mkClasses (c_base c) (init_absmdl (c_own c) "R21SD")) (Z.of_nat k) "R19SD" (map Fin fs) = Err KeyError /\
  exists w d c', wv_program (@shipped XA) c (Z.of_nat k) "R19SD" (map Fin fs) = Ok (w, d, c').
Proof.
  intros Hk U Hf. split.
  - assert (E := C147_no_effect XA (@shipped XA) c c (Z.of_nat k) "R19SD" "R21SD" (map Fin fs) U).
    assert (X : wv_program (@shipped XA) c (Z.of_nat k) "R21SD" (map Fin fs) = Err KeyError).
    { unfold wv_program. rewrite (climate_rows (A:=XA) k Hk). cbn [bind]. unfold vapor. cbn [bind].
      destruct (C48_shipped_registered XA "R21SD") as (R1 & R2 & _). destruct U as (U1 & U2 & _).
      unfold import_h2o. cbn [seen set_base c_own c_base g_h2o]. rewrite U1. cbn [inherit].
      destruct (db_h2o (@shipped XA) "R21SD") as [ll|]; [|reflexivity]. cbn [bind]. unfold import_o2. cbn [seen c_own c_base with_h2oll g_o2]. rewrite U2. cbn [inherit].
      destruct (db_o2 (@shipped XA) "R21SD") as [ll2|] eqn:E2; [|reflexivity]. exfalso. assert (Y : In "R21SD" o2_names) by (apply R2; intros Q; congruence).
      unfold o2_names in Y. cbn [In] in Y. repeat (destruct Y as [Y|Y]; [discriminate Y|]). exact Y. }
    rewrite X in E. revert E. destruct (wv_program _ _ _ "R19SD" _) as [[[w d] c']|e]; cbn [tables]; intros E; [discriminate E|]. injection E as ->. reflexivity.
  - destruct (C147_fresh k c "R19SD" fs Hk U) as (w & d & c' & H & _); [| |eauto].
    + split; [right; cbn; tauto|]. split; [split; [cbn; tauto|discriminate]|cbn; tauto].
    + intros f Hin. split; [apply Hf, Hin|]. intros [X|[X|[X|[]]]]; discriminate.
Qed.

(** The base class also serves a solver that never called [init_absmdl] - in a fresh process. *)
Theorem C147_solver (c : classes XA) m (h : heap XA) z p t rh zs ps ts rhs (fs angs : list R) sat lo hi : untouched c -> covers m m m ps ts ->
  hget h z = map Fin zs -> hget h p = map Fin ps -> hget h t = map Fin ts -> hget h rh = map Fin rhs ->
  z <> p -> z <> t -> z <> rh -> sounding zs ps ts rhs ->
  (forall f, In f fs -> covered m f) -> (forall a, In a angs -> 0 < a < 180) -> 2.728 <= lo -> (forall t, In t ts -> lo <= t <= hi) ->
  exists h' o fr full o' g',
    tb_init (A:=XA) h z p t rh (map Fin fs) (map Fin angs) None None "" false sat false = (h', Ok o) /\
    execute (@shipped XA) (seen (set_base c m)) h' o = Ok (fr, full, o', g') /\ length fr = (length angs * length fs)%nat /\
    forall i j dr, (i < length angs)%nat -> (j < length fs)%nat ->
    let f := nth j fs 0 in let a := nth i angs 0 in
    exists aw ad x, mixed_absorption m m m "" ps ts rhs None f aw ad /\
      nth (i * length fs + j) fr dr = f_row x /\ spec_row sat f 1 a ts (slant_path zs a) aw ad (repeat 0 (length zs)) (repeat 0 (length zs)) x.
Proof.
  intros (U1 & U2 & U3 & U4 & U5) Hm Hz Hp Ht Hrh N1 N2 N3 SO Hf Ha Hlo Hts.
  destruct (C130_from_constructor (seen (set_base c m)) h z p t rh None m m m m "" zs ps ts rhs None fs angs sat lo hi) as (h' & o & fr & full & o' & g' & R1 & R2 & R3 & R4); auto.
  { unfold chosen, seen, set_base. cbn [c_own c_base g_h2o g_o2 g_n2 g_liq]. rewrite U1, U2, U3, U4. repeat split. }
  { exact I. }
  exists h', o, fr, full, o', g'. split; [exact R1|]. split; [exact R2|]. split; [exact R3|]. intros i j dr Hi Hj f a.
  destruct (R4 i j dr Hi Hj) as (aw & ad & x & T & X1 & _ & X3 & _ & _ & X6 & _). exists aw, ad, x. auto.
Qed.

(** The example of the documentation: the tropical atmosphere, R19SD, 20 to 22 GHz in a new process. *)
Example C147_example : let c := mkClasses (A:=XA) None (mkGlobals (A:=XA) None None None None None None None None false (Fin 1)) in
  exists w d c', wv_program (@shipped XA) c 0 "R19SD" (map Fin [20; 21; 22]) = Ok (w, d, c') /\ length w = 3%nat /\
    profile_row 0 "R19SD" "R19SD" "R19SD" 22 (nth 2 w []) (nth 2 d []).
Proof.
  intros c. destruct (C147_fresh 0 c "R19SD" [20; 21; 22] ltac:(lia)) as (w & d & c' & H & L & _ & P).
  - repeat split.
  - split; [right; cbn; tauto|]. split; [split; [cbn; tauto|discriminate]|cbn; tauto].
  - intros f [<-|[<-|[<-|[]]]]; (split; [lra|intros [X|[X|[X|[]]]]; discriminate]).
  - exists w, d, c'. split; [exact H|]. split; [exact L|]. exact (P 2%nat ltac:(cbn; lia)).
Qed.
