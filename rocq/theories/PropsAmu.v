(** Claims C59, C60 (on the tables of the package), C88 and C89: sharing inside the oxygen table, what a run does to the
    dictionary, and what the dictionary does to a run. *)

From Coq Require Import ZArith Reals Lra List Bool String PeanoNat Lia.
Import ListNotations.
From Verif Require Import Arith PyBase Utils RTE Absorption Clear Spectrum Registry RealAux ListAux SolverGen PropsHistory Uncertainty PropsCopy PropsUnc PropsTables
  LineData Lineshape PropsClear.
Local Open Scope string_scope.

(** ** Slices *)

Lemma skipn_twice {T} (l : list T) : forall m n, skipn n (skipn m l) = skipn (m + n) l.
Proof. induction l as [|x l IH]; intros [|m] n; cbn; auto. destruct n; reflexivity. Qed.
Lemma nth_error_firstn' {T} (l : list T) : forall n i, (i < n)%nat -> nth_error (firstn n l) i = nth_error l i.
Proof. induction l as [|x l IH]; intros [|n] [|i] H; cbn; auto; try lia. apply IH. lia. Qed.
Lemma nth_error_skipn' {T} (l : list T) : forall n i, nth_error (skipn n l) i = nth_error l (n + i).
Proof. induction l as [|x l IH]; intros [|n] i; cbn; auto. destruct i; reflexivity. Qed.

Lemma slice_same {T} a b (l : list T) : (firstn a l ++ slice a b l ++ skipn (a + List.length (slice a b l)) l)%list = l.
Proof.
  unfold slice. rewrite <- skipn_twice. set (r := skipn a l). transitivity (firstn a l ++ r)%list; [|apply firstn_skipn]. f_equal.
  transitivity (firstn (b - a) r ++ skipn (b - a) r)%list; [|apply firstn_skipn]. f_equal. rewrite firstn_length.
  destruct (Nat.le_gt_cases (b - a) (List.length r)) as [H|H].
  - rewrite Nat.min_l by lia. reflexivity.
  - rewrite Nat.min_r by lia. rewrite !skipn_all2 by lia. reflexivity.
Qed.

Section Amu.
Context {A : Arith}.
Notation num := (car A).
Notation store := (store A).

Lemma slice_assign_same a b (v : list num) : slice_assign a b v v = Ok v.
Proof. unfold slice_assign. rewrite Nat.eqb_refl. rewrite slice_same. reflexivity. Qed.

(** Elements of an assigned slice: inside the bounds they come from the source, outside they stay. *)
Lemma slice_assign_nth a b (v w r : list num) : (a <= b)%nat -> List.length v = List.length w -> slice_assign a b v w = Ok r ->
  List.length r = List.length v /\
  forall i, nth_error r i = (if (Nat.leb a i && Nat.ltb i b)%bool then nth_error w i else nth_error v i).
Proof.
  intros Hab HL E. assert (LS : List.length (slice a b w) = List.length (slice a b v)) by (unfold slice; rewrite !firstn_length, !skipn_length; lia).
  unfold slice_assign in E. rewrite LS, Nat.eqb_refl in E. injection E as <-.
  assert (LV : List.length (slice a b v) = (Nat.min (b - a) (List.length v - a))%nat) by (unfold slice; rewrite firstn_length, skipn_length; reflexivity).
  split.
  - rewrite !app_length, LS, firstn_length, skipn_length, LV. lia.
  - intros i. destruct (Nat.leb_spec a i) as [H1|H1]; cbn [andb].
    + destruct (Nat.le_gt_cases (List.length v) i) as [Hout|Hin].
      { transitivity (@None num); [apply nth_error_None; rewrite !app_length, LS, firstn_length, skipn_length, LV; lia|].
        symmetry. destruct (i <? b)%nat; apply nth_error_None; lia. }
      rewrite nth_error_app2 by (rewrite firstn_length; lia). rewrite firstn_length, Nat.min_l by lia.
      destruct (Nat.ltb_spec i b) as [H2|H2].
      * rewrite nth_error_app1 by (rewrite LS, LV; lia). unfold slice.
        rewrite nth_error_firstn' by lia. rewrite nth_error_skipn'. f_equal. lia.
      * rewrite nth_error_app2 by (rewrite LS, LV; lia). rewrite LS, nth_error_skipn', LV. f_equal. lia.
    + destruct (Nat.le_gt_cases (List.length v) i) as [Hout|Hin].
      { transitivity (@None num); [apply nth_error_None; rewrite !app_length, LS, firstn_length, skipn_length, LV; lia|].
        symmetry. apply nth_error_None. lia. }
      rewrite nth_error_app1 by (rewrite firstn_length; lia). rewrite nth_error_firstn' by lia. reflexivity.
Qed.

Lemma per_line_same {T} (f : T -> num -> T) (g : T -> num) (lines : list T) : (forall l, f l (g l) = l) ->
  per_line f lines (map g lines) = Ok lines.
Proof.
  intros H. unfold per_line. rewrite map_length, Nat.eqb_refl. f_equal. induction lines as [|x l IH]; cbn; [reflexivity|]. rewrite H, IH. reflexivity.
Qed.

(** ** Claim C88: the unperturbed table changes nothing *)

(** The dictionary holds at least these entries. *)
Definition holds (s : store) (d : pdict) (spec : list (string * (pcon A * pcon A))) : Prop :=
  forall k x, assoc k spec = Some x -> entry s d k = Some x.

Lemma holds_num s d spec k x u : holds s d spec -> assoc k spec = Some (CFloat x, u) -> amu_num s d k = Ok x.
Proof. intros H E. unfold amu_num, amu_value. rewrite (H _ _ E). reflexivity. Qed.
Lemma holds_int s d spec k x u : holds s d spec -> assoc k spec = Some (CInt x, u) -> amu_num s d k = Ok (of_int x).
Proof. intros H E. unfold amu_num, amu_value. rewrite (H _ _ E). reflexivity. Qed.
Lemma holds_arr s d spec k x u : holds s d spec -> assoc k spec = Some (CArr x, u) -> amu_arr s d k = Ok x.
Proof. intros H E. unfold amu_arr, amu_value. rewrite (H _ _ E). reflexivity. Qed.
Lemma holds_value s d spec k x u : holds s d spec -> assoc k spec = Some (x, u) -> amu_value s d k = Ok x.
Proof. intros H E. unfold amu_value. rewrite (H _ _ E). reflexivity. Qed.

Theorem C88_oxygen : forall s d m ll, In m oxygen_ok -> holds s d (oxygen_spec m ll) -> o2_override s d m ll = Ok ll.
Proof.
  intros s d m ll Hm H. unfold oxygen_ok in Hm. cbn [In] in Hm.
  repeat (destruct Hm as [<-|Hm]; [|]); try destruct Hm;
  unfold o2_override;
  (match goal with |- context [str_gtb ?a ?b] => let v := eval vm_compute in (str_gtb a b) in change (str_gtb a b) with v end; cbv iota);
  repeat (match goal with
          | |- context [amu_value s d ?k] => erewrite (holds_value _ _ _ k _ _ H) by reflexivity
          | |- context [amu_num s d ?k] => erewrite (holds_num _ _ _ k _ _ H) by reflexivity
          | |- context [amu_arr s d ?k] => erewrite (holds_arr _ _ _ k _ _ H) by reflexivity
          end; cbn [bind]);
  rewrite !slice_assign_same; cbn [bind]; rewrite !slice_assign_same; cbn [bind];
  repeat (rewrite per_line_same by (intros []; reflexivity); cbn [bind]); destruct ll; reflexivity.
Qed.

Theorem C88_ozone : forall s d sr ll, holds s d (ozone_spec sr ll) -> o3_override s d ll = Ok ll.
Proof.
  intros s d sr ll H. unfold o3_override.
  repeat (match goal with
          | |- context [amu_value s d ?k] => erewrite (holds_value _ _ _ k _ _ H) by reflexivity
          | |- context [amu_arr s d ?k] => erewrite (holds_arr _ _ _ k _ _ H) by reflexivity
          end; cbn [bind]).
  repeat (rewrite per_line_same by (intros []; reflexivity); cbn [bind]); destruct ll; reflexivity.
Qed.

End Amu.

(** The water vapour table stores widths and shifts multiplied by 1000, so the round trip is exact only in exact arithmetic. *)
Open Scope R_scope.
Lemma mil_1000 {T} (g : T -> car RA) (l : list T) : mil (A:=RA) (map (fun k => mul (a:=RA) (g k) (lit (a:=RA) 1e3%dec)) l) = map g l.
Proof. unfold mil. rewrite map_map. apply map_ext. intros k. ra. field. Qed.

(** The continuum coefficients actually used: of the models up to R17 they are scaled. *)
Definition scaled (m : string) (ll : h2o_ll RA) : h2o_ll RA :=
  if str_in m ["R03"; "R16"; "R17"] then
    mkH2OLL (h_reftcon ll) (h_reftline ll) (h_cf ll * (111/100)) (h_xcf ll) (h_cs ll * (79/100)) (h_xcs ll) (h_d2air ll) (h_d2self ll) (h_lines ll)
  else ll.

Theorem C88_water : forall (s : store RA) d m (ll : h2o_ll RA), In m water_ok -> holds s d (water_spec m ll) ->
  h2o_override s d m ll = Ok (scaled m ll).
Proof.
  intros s d m ll Hm H. unfold water_ok in Hm. cbn [In] in Hm.
  repeat (destruct Hm as [<-|Hm]; [|]); try destruct Hm;
  unfold h2o_override;
  (match goal with |- context [str_gtb ?a ?b] => let v := eval vm_compute in (str_gtb a b) in change (str_gtb a b) with v end; cbv iota);
  repeat (match goal with
          | |- context [amu_num s d ?k] => first [erewrite (holds_num _ _ _ k _ _ H) by reflexivity | erewrite (holds_int _ _ _ k _ _ H) by reflexivity]
          | |- context [amu_arr s d ?k] => erewrite (holds_arr _ _ _ k _ _ H) by reflexivity
          end; cbn [bind]);
  rewrite ?mil_1000; cbn [bind];
  repeat (rewrite per_line_same by (intros []; reflexivity); cbn [bind]); destruct ll; unfold scaled; cbn [str_in existsb String.eqb Ascii.eqb Bool.eqb orb];
  first [reflexivity | apply f_equal; f_equal; ra; lra].
Qed.

(** What a continuum of the old model R03 reads: its coefficients are written in the code. *)
Lemma scaled_inert_R03 (ll : h2o_ll RA) pd v e f : h2o_absorption "R03" (scaled "R03" ll) pd v e f = h2o_absorption "R03" ll pd v e f.
Proof. reflexivity. Qed.

(** Claim C88: a run with the unperturbed tables is the run without them, for every profile and frequency. *)
Theorem C88_absorption : forall (g : globals RA) (s : store RA) d mw wl mo ol p t e frq o3n,
  g_h2o g = Some mw -> g_h2oll g = Some wl -> g_o2 g = Some mo -> g_o2ll g = Some ol ->
  In mw water_ok -> mw <> "R16" -> mw <> "R17" -> In mo oxygen_ok ->
  holds s d (water_spec mw wl) -> holds s d (oxygen_spec mo ol) ->
  (o3n = None \/ exists zl sr, g_o3ll g = Some zl /\ holds s d (ozone_spec sr zl)) ->
  clearsky_absorption g (Some (amu_of s d)) p t e frq o3n = clearsky_absorption g None p t e frq o3n.
Proof.
  intros g s d mw wl mo ol p t e frq o3n G1 G2 G3 G4 Hw N1 N2 Ho HW HO HZ.
  assert (EW : forall pd v e0 f, h2o_call g (Some (amu_of s d)) pd v e0 f = h2o_call g None pd v e0 f).
  { intros. unfold h2o_call. rewrite G1, G2. cbn [over amu_of amu_h2o]. rewrite (C88_water s d mw wl Hw HW).
    unfold water_ok in Hw. cbn [In] in Hw. repeat (destruct Hw as [<-|Hw]; [|]); try contradiction; try reflexivity; try congruence. }
  assert (EO : forall pd v e0 f, o2_call g (Some (amu_of s d)) pd v e0 f = o2_call g None pd v e0 f).
  { intros. unfold o2_call. rewrite G3, G4. cbn [over amu_of amu_o2 mname]. rewrite (C88_oxygen s d mo ol Ho HO). reflexivity. }
  unfold clearsky_absorption. f_equal. destruct HZ as [->|(zl & sr & G5 & HZ)].
  - cbn [with_o3].
    assert (Hn : forall x, In x (combine p (combine t (combine e (repeat (@None (car RA)) (List.length p))))) -> snd (snd (snd x)) = None).
    { intros [p0 [t0 [e0 o]]] Hin. cbn. apply in_combine_r, in_combine_r, in_combine_r in Hin. apply repeat_spec in Hin. exact Hin. }
    revert Hn. generalize (combine p (combine t (combine e (repeat (@None (car RA)) (List.length p))))). intros l Hn.
    induction l as [|[p0 [t0 [e0 o]]] l IH]; [reflexivity|]. cbn [mapM]. rewrite IH by (intros; apply Hn; right; assumption).
    specialize (Hn _ (or_introl eq_refl)). cbn in Hn. subst o. unfold clearsky_level. rewrite EW.
    destruct (h2o_call _ _ _ _ _ _); cbn [bind]; [|reflexivity]. rewrite EO. reflexivity.
  - generalize (combine p (combine t (combine e (with_o3 (List.length p) o3n)))). intros l.
    induction l as [|[p0 [t0 [e0 o]]] l IH]; [reflexivity|]. cbn [mapM]. rewrite IH. unfold clearsky_level. rewrite EW.
    destruct (h2o_call _ _ _ _ _ _); cbn [bind]; [|reflexivity]. rewrite EO.
    destruct (o2_call _ _ _ _ _ _); cbn [bind]; [|reflexivity]. destruct (n2_call _ _ _ _); cbn [bind]; [|reflexivity].
    assert (E3 : o3_call g (Some (amu_of s d)) t0 p0 frq o = o3_call g None t0 p0 frq o).
    { unfold o3_call. rewrite G5. cbn [over amu_of amu_o3]. rewrite (C88_ozone s d sr zl HZ). reflexivity. }
    rewrite E3. reflexivity.
Qed.

(** The same from the calls that make the tables: [{**water_parameters(mw), **oxygen_parameters(mo)}]. *)
Definition water_names := ["con_Cf"; "con_Cs"; "con_Xf"; "con_Xs"; "FL"; "S"; "B2"; "gamma_a"; "gamma_w"; "n_a"; "n_w"; "wv_nS"; "SR";
  "con_Cf_factr"; "con_Cs_factr"; "n_da"; "n_dw"; "delta_a"; "delta_w"].
Lemma water_names_ok m (ll : h2o_ll RA) k x : assoc k (water_spec m ll) = Some x -> In k water_names.
Proof.
  intros H. apply assoc_In in H. apply (in_map fst) in H. revert H. unfold water_spec. destruct (str_in m _); cbn; intuition.
Qed.
Lemma oxygen_disjoint m (ll : o2_ll RA) k x : assoc k (oxygen_spec m ll) = Some x -> ~ In k water_names.
Proof.
  intros H. apply assoc_In in H. apply (in_map fst) in H. revert H. unfold oxygen_spec.
  destruct (str_in m _); cbn; intros H1 H2; repeat (destruct H1 as [<-|H1]; [intuition discriminate|]); destruct H1.
Qed.

Theorem C88_defaults : forall (db : lldb RA) g u mw wl mo ol dw dd u1 u2 p t e frq,
  db_h2o db mw = Some wl -> db_o2 db mo = Some ol ->
  g_h2o g = Some mw -> g_h2oll g = Some wl -> g_o2 g = Some mo -> g_o2ll g = Some ol ->
  In mw water_ok -> mw <> "R16" -> mw <> "R17" -> In mo oxygen_ok ->
  water_parameters db mw u = (Ok dw, u1) -> oxygen_parameters db mo u1 = (Ok dd, u2) ->
  clearsky_absorption g (Some (amu_of (u_store u2) (dw ++ dd)%list)) p t e frq None = clearsky_absorption g None p t e frq None.
Proof.
  intros db g u mw wl mo ol dw dd u1 u2 p t e frq D1 D2 G1 G2 G3 G4 Hw N1 N2 Ho T1 T2.
  destruct (C62_water db mw wl u D1 Hw) as (d1 & v1 & E1 & K1 & X1 & W1 & S1). rewrite T1 in E1. injection E1 as <- <-.
  destruct (C62_oxygen db mo ol u1 D2 Ho) as (d2 & v2 & E2 & K2 & X2 & W2 & S2). rewrite T2 in E2. injection E2 as <- <-.
  eapply C88_absorption; eauto.
  - intros k x Hk. unfold entry. rewrite assoc_app. pose proof (entry_extends _ _ dw k W1 X2) as EE. rewrite S1, Hk in EE.
    unfold entry in EE. destruct (assoc k dw); [exact EE|discriminate].
  - intros k x Hk. unfold entry. rewrite assoc_app. pose proof (oxygen_disjoint _ _ _ _ Hk) as ND.
    destruct (assoc k dw) as [o|] eqn:Ea; [|specialize (S2 k); rewrite Hk in S2; exact S2].
    exfalso. apply assoc_In in Ea. apply (in_map fst) in Ea. rewrite K1 in Ea. cbn [fst] in Ea. clear - Ea ND.
    apply ND. revert Ea. unfold water_spec. destruct (str_in mw _); cbn; intuition.
Qed.

(** The claim is false for R16 and R17: the factors 1.11 and 0.79 listed as defaults multiply coefficients that already
    contain them, so the mere presence of the unperturbed table changes the water vapour continuum. *)
Lemma div_lt x y z : x < y -> 0 < z -> x / z < y / z.
Proof. intros H1 H2. apply Rmult_lt_compat_r; [apply Rinv_0_lt_compat; exact H2|exact H1]. Qed.

Lemma scaled_continuum m (ll : h2o_ll RA) frq : In m ["R16"; "R17"] -> shipped_h2o m = Some ll -> 0 < frq ->
  exists n c1 c2, h2o_absorption m (scaled m ll) 100 1 1 frq = Ok (n, c1) /\ h2o_absorption m ll 100 1 1 frq = Ok (n, c2) /\ c2 < c1.
Proof.
  intros Hm Hl Hf.
  set (e := h2o_env_of (A:=RA) m 100 1 1).
  assert (E1 : e_t e = 300) by (unfold e, h2o_env_of; cbn [e_t]; ra; lra).
  assert (E2 : e_rho e <> 0) by (unfold e, h2o_env_of; cbn [e_rho]; ra; lra).
  assert (E3 : e_pvap e = 10 / ((1/100 * (831451/100000)) / (1801528/100000)) / 217).
  { cbn [In] in Hm. destruct Hm as [<-|[<-|[]]]; unfold e, h2o_env_of; cbn [e_pvap str_in existsb String.eqb Ascii.eqb Bool.eqb orb]; ra; field. }
  assert (E4 : e_pda e = 1010 - e_pvap e) by (unfold e, h2o_env_of; cbn [e_pda e_pvap]; ra; lra).
  assert (B : 998/100 < e_pvap e < 999/100) by (rewrite E3; lra).
  assert (L : exists L, ll = mkH2OLL (A:=RA) 300 296 (596/1000000000000) 3 (142/10000000000) (15/2) 0 0 L).
  { cbn [In] in Hm. destruct Hm as [<-|[<-|[]]]; unfold shipped_h2o in Hl; cbn [String.eqb Ascii.eqb Bool.eqb] in Hl; injection Hl as <-;
      eexists; unfold h2o_load; f_equal; cbn; lra. }
  destruct L as [L ->].
  assert (S : exists q, h2o_summ m (scaled m (mkH2OLL (A:=RA) 300 296 (596/1000000000000) 3 (142/10000000000) (15/2) 0 0 L)) e frq = Some q /\
     h2o_summ m (mkH2OLL (A:=RA) 300 296 (596/1000000000000) 3 (142/10000000000) (15/2) 0 0 L) e frq = Some q).
  { clearbody e. cbn [In] in Hm. destruct Hm as [<-|[<-|[]]]; (eexists; split; reflexivity). }
  destruct S as (q & S1 & S2).
  assert (C : forall l, h2o_con2 m l e 1 frq = Ok (h2o_con1 m l e 1 frq))
    by (intros l; clearbody e; cbn [In] in Hm; destruct Hm as [<-|[<-|[]]]; reflexivity).
  unfold h2o_absorption. fold e. replace (eqb (a:=RA) (e_rho e) (lit (a:=RA) 0%dec)) with false by (symmetry; apply Reqb_false; ra; lra).
  rewrite S1, S2, !C. cbn [bind]. eexists; eexists; eexists. split; [reflexivity|]. split; [reflexivity|].
  assert (P1 : Rpowf (300 / e_t e) 3 = 1 /\ Rpowf (300 / e_t e) (15/2) = 1).
  { rewrite E1. replace (300/300) with 1 by field. rewrite !Rpowf_pos by lra. unfold Rpower. rewrite ln_1, !Rmult_0_r, exp_0. auto. }
  destruct P1 as [P1 P2].
  assert (D : 0 < db2np (A:=RA)) by apply db2np_pos.
  apply div_lt; [|ra; lra]. apply div_lt; [|exact D].
  cbn [In] in Hm. destruct Hm as [<-|[<-|[]]]; unfold h2o_con1, scaled; cbn [str_in existsb String.eqb Ascii.eqb Bool.eqb orb h_cf h_cs h_xcf h_xcs h_reftcon]; ra; rewrite ?P1, ?P2, E4;
    set (v := e_pvap e) in *; clearbody v; (apply Rmult_lt_compat_r; [exact Hf|]); (apply Rmult_lt_compat_r; [exact Hf|]); (apply Rmult_lt_compat_r; [lra|]); lra.
Qed.

Theorem C88_refuted : forall (s : store RA) d mo m ll ol g frq w a,
  In m ["R16"; "R17"] -> shipped_h2o m = Some ll -> 0 < frq ->
  g_h2o g = Some m -> g_h2oll g = Some ll -> g_o2 g = Some mo -> g_o2ll g = Some ol -> In mo oxygen_ok ->
  holds s d (water_spec m ll) -> holds s d (oxygen_spec mo ol) ->
  clearsky_absorption g None [1010] [300] [10] frq None = Ok ([w], a) ->
  exists w', clearsky_absorption g (Some (amu_of s d)) [1010] [300] [10] frq None = Ok ([w'], a) /\ w < w'.
Proof.
  intros s d mo m ll ol g frq w a Hm Hl Hf G1 G2 G3 G4 Ho HW HO E.
  destruct (scaled_continuum m ll frq Hm Hl Hf) as (n & c1 & c2 & H1 & H2 & H3).
  unfold clearsky_absorption in *. cbn [List.length with_o3 repeat combine mapM] in *. unfold clearsky_level in *.
  replace (div (a:=RA) (lit (a:=RA) 300.0%dec) 300) with 1 in * by (ra; lra).
  replace (div (a:=RA) 10 (lit (a:=RA) 10.0%dec)) with 1 in * by (ra; lra).
  replace (sub (a:=RA) (div (a:=RA) 1010 (lit (a:=RA) 10.0%dec)) 1) with 100 in * by (ra; lra).
  unfold h2o_call in *. rewrite G1, G2 in *. cbn [over amu_of amu_h2o] in *.
  rewrite (C88_water s d m ll) by (auto; cbn [In] in *; unfold water_ok; cbn [In]; intuition).
  change (h2o_absorption (A:=RA) m ll 100 1 1 frq) with (h2o_absorption (A:=RA) m ll 100 1 1 frq) in E.
  rewrite H2 in E. rewrite H1. cbn [bind fst snd] in *.
  unfold o2_call in *. rewrite G3, G4 in *. cbn [over amu_of amu_o2 mname bind] in *. rewrite (C88_oxygen s d mo ol Ho HO).
  destruct (n2_call g 300 _ frq) as [x|]; cbn [bind] in *; [|discriminate]. cbn [o3_call bind map fst snd] in *.
  injection E as <- <-. eexists. split; [reflexivity|]. ra.
  pose proof db2np_pos. apply Rmult_lt_compat_r; [assumption|]. apply Rmult_lt_compat_l; [lra|]. lra.
Qed.
Close Scope R_scope.

(** ** Claim C89: which entries take part *)

Section Inert.
Context {A : Arith}.
Notation num := (car A).
Notation store := (store A).

Definition value_of (s : store) (d : pdict) (k : string) : option (pcon A) := option_map fst (entry s d k).

(** The two dictionaries have the same values except under the names in [l], where both have an entry. *)
Definition agree_but (l : list string) (s : store) (d : pdict) (s' : store) (d' : pdict) : Prop :=
  (forall k, ~ In k l -> value_of s d k = value_of s' d' k) /\
  (forall k, In k l -> value_of s d k <> None /\ value_of s' d' k <> None).

Lemma value_agree l s d s' d' k : agree_but l s d s' d' -> str_in k l = false -> amu_value s d k = amu_value s' d' k.
Proof.
  intros [H _] Hk. assert (N : ~ In k l).
  { intros Hin. unfold str_in in Hk. rewrite <- Bool.not_true_iff_false in Hk. apply Hk. apply existsb_exists. exists k. split; [exact Hin|apply String.eqb_refl]. }
  specialize (H k N). unfold amu_value, value_of in *. destruct (entry s d k) as [[? ?]|], (entry s' d' k) as [[? ?]|]; cbn in H; congruence.
Qed.
Lemma value_there l s d s' d' k : agree_but l s d s' d' -> In k l -> exists x y, amu_value s d k = Ok x /\ amu_value s' d' k = Ok y.
Proof.
  intros [_ H] Hk. destruct (H k Hk) as [H1 H2]. unfold amu_value, value_of in *.
  destruct (entry s d k) as [[? ?]|], (entry s' d' k) as [[? ?]|]; cbn in *; try congruence. eauto.
Qed.
Lemma num_agree l s d s' d' k : agree_but l s d s' d' -> str_in k l = false -> amu_num s d k = amu_num s' d' k.
Proof. intros H Hk. unfold amu_num. rewrite (value_agree _ _ _ _ _ _ H Hk). reflexivity. Qed.
Lemma arr_agree l s d s' d' k : agree_but l s d s' d' -> str_in k l = false -> amu_arr s d k = amu_arr s' d' k.
Proof. intros H Hk. unfold amu_arr. rewrite (value_agree _ _ _ _ _ _ H Hk). reflexivity. Qed.

Definition o2_inert := ["Snr"; "w2a"; "X11"; "X16"; "O2_nS"].
Definition h2o_inert (m : string) := if str_gtb m "R17" then ["wv_nS"; "con_Cf_factr"; "con_Cs_factr"] else ["wv_nS"].

(** Claim C89 is false: the following listed entries must be present but their values change nothing. *)
Theorem C89_oxygen_inert_refuted : forall s d s' d' m (ll : o2_ll A), agree_but o2_inert s d s' d' -> o2_override s d m ll = o2_override s' d' m ll.
Proof.
  intros s d s' d' m ll H. unfold o2_override.
  rewrite (arr_agree _ _ _ _ _ "O2gamma" H eq_refl), (arr_agree _ _ _ _ _ "O2gamma_NL" H eq_refl), (arr_agree _ _ _ _ _ "O2FL" H eq_refl),
    (arr_agree _ _ _ _ _ "O2S" H eq_refl), (arr_agree _ _ _ _ _ "O2BE" H eq_refl), (arr_agree _ _ _ _ _ "y0" H eq_refl),
    (arr_agree _ _ _ _ _ "y1" H eq_refl), (arr_agree _ _ _ _ _ "dnu0" H eq_refl), (arr_agree _ _ _ _ _ "dnu1" H eq_refl),
    (arr_agree _ _ _ _ _ "Y300" H eq_refl), (arr_agree _ _ _ _ _ "Y300_NL" H eq_refl), (arr_agree _ _ _ _ _ "O2_V" H eq_refl),
    (arr_agree _ _ _ _ _ "O2_V_NL" H eq_refl), (num_agree _ _ _ _ _ "WB300" H eq_refl), (num_agree _ _ _ _ _ "X05" H eq_refl).
  destruct (value_there _ _ _ _ _ "Snr" H) as (? & ? & -> & ->); [cbn; intuition|].
  destruct (value_there _ _ _ _ _ "w2a" H) as (? & ? & -> & ->); [cbn; intuition|].
  destruct (value_there _ _ _ _ _ "X11" H) as (? & ? & -> & ->); [cbn; intuition|].
  destruct (value_there _ _ _ _ _ "X16" H) as (? & ? & -> & ->); [cbn; intuition|].
  destruct (value_there _ _ _ _ _ "O2_nS" H) as (? & ? & -> & ->); [cbn; intuition|].
  reflexivity.
Qed.

Theorem C89_water_inert_refuted : forall s d s' d' m (ll : h2o_ll A), agree_but (h2o_inert m) s d s' d' -> h2o_override s d m ll = h2o_override s' d' m ll.
Proof.
  intros s d s' d' m ll H. unfold h2o_override, h2o_inert in *. destruct (str_gtb m "R17").
  - rewrite (arr_agree _ _ _ _ _ "S" H eq_refl), (arr_agree _ _ _ _ _ "B2" H eq_refl), (arr_agree _ _ _ _ _ "gamma_a" H eq_refl),
      (arr_agree _ _ _ _ _ "gamma_w" H eq_refl), (arr_agree _ _ _ _ _ "n_a" H eq_refl), (arr_agree _ _ _ _ _ "n_w" H eq_refl),
      (arr_agree _ _ _ _ _ "delta_a" H eq_refl), (arr_agree _ _ _ _ _ "delta_w" H eq_refl), (arr_agree _ _ _ _ _ "n_da" H eq_refl),
      (arr_agree _ _ _ _ _ "n_dw" H eq_refl), (arr_agree _ _ _ _ _ "FL" H eq_refl), (num_agree _ _ _ _ _ "con_Cf" H eq_refl),
      (num_agree _ _ _ _ _ "con_Cs" H eq_refl), (num_agree _ _ _ _ _ "con_Xf" H eq_refl), (num_agree _ _ _ _ _ "con_Xs" H eq_refl).
    reflexivity.
  - rewrite (arr_agree _ _ _ _ _ "S" H eq_refl), (arr_agree _ _ _ _ _ "B2" H eq_refl), (arr_agree _ _ _ _ _ "gamma_a" H eq_refl),
      (arr_agree _ _ _ _ _ "gamma_w" H eq_refl), (arr_agree _ _ _ _ _ "n_a" H eq_refl), (arr_agree _ _ _ _ _ "n_w" H eq_refl),
      (arr_agree _ _ _ _ _ "SR" H eq_refl), (arr_agree _ _ _ _ _ "FL" H eq_refl), (num_agree _ _ _ _ _ "con_Cf" H eq_refl),
      (num_agree _ _ _ _ _ "con_Cs" H eq_refl), (num_agree _ _ _ _ _ "con_Xf" H eq_refl), (num_agree _ _ _ _ _ "con_Xs" H eq_refl),
      (num_agree _ _ _ _ _ "con_Cf_factr" H eq_refl), (num_agree _ _ _ _ _ "con_Cs_factr" H eq_refl).
    reflexivity.
Qed.

(** Positive part: the absorption depends on the dictionary only through the values; uncertainties, units and references
    never enter. *)
Theorem C89_values_only : forall s d s' d', (forall k, value_of s d k = value_of s' d' k) ->
  forall (g : globals A) p t e frq o3n,
    clearsky_absorption g (Some (amu_of s d)) p t e frq o3n = clearsky_absorption g (Some (amu_of s' d')) p t e frq o3n.
Proof.
  intros s d s' d' H g p t e frq o3n.
  assert (V : forall k, amu_value s d k = amu_value s' d' k).
  { intros k. specialize (H k). unfold value_of, amu_value in *. destruct (entry s d k) as [[? ?]|], (entry s' d' k) as [[? ?]|]; cbn in H; congruence. }
  assert (VN : forall k, amu_num s d k = amu_num s' d' k) by (intros k; unfold amu_num; rewrite V; reflexivity).
  assert (VA : forall k, amu_arr s d k = amu_arr s' d' k) by (intros k; unfold amu_arr; rewrite V; reflexivity).
  assert (OW : forall m ll, h2o_override s d m ll = h2o_override s' d' m ll) by (intros; unfold h2o_override; rewrite !VN, !VA; reflexivity).
  assert (OO : forall m ll, o2_override s d m ll = o2_override s' d' m ll) by (intros; unfold o2_override; rewrite !VN, !VA, !V; reflexivity).
  assert (OZ : forall ll, o3_override s d ll = o3_override s' d' ll) by (intros; unfold o3_override; rewrite !VA, !V; reflexivity).
  assert (L : forall pp tt ee oo, clearsky_level g (Some (amu_of s d)) frq pp tt ee oo = clearsky_level g (Some (amu_of s' d')) frq pp tt ee oo).
  { intros. unfold clearsky_level, h2o_call, o2_call, o3_call. cbn [over amu_of amu_h2o amu_o2 amu_o3].
    destruct (g_h2o g) as [mw|], (g_h2oll g) as [wl|]; rewrite ?OW; try reflexivity.
    destruct (h2o_absorption _ _ _ _ _ _); cbn [bind]; [|reflexivity]. destruct (g_o2ll g) as [ol|]; [|reflexivity]. rewrite OO. cbn [bind].
    destruct (n2_call _ _ _ _); cbn [bind]; [|reflexivity]. destruct oo as [n|]; [|reflexivity]. destruct (str_in _ _); [|reflexivity].
    destruct (g_o3ll g) as [zl|]; [|reflexivity]. rewrite OZ. reflexivity. }
  unfold clearsky_absorption. f_equal. generalize (combine p (combine t (combine e (with_o3 (List.length p) o3n)))). intros l.
  induction l as [|[p0 [t0 [e0 o]]] l IH]; [reflexivity|]. cbn [mapM]. rewrite L, IH. reflexivity.
Qed.

(** ** The overrides are idempotent: every level of a run, and every later run, applies them again to the line list they
    already changed.  This is what lets Clear.v apply them to the loaded list at each level. *)

Lemma per_line_get {T} (f : T -> num -> T) (g : T -> num) lines (a : list num) r : (forall k x, g (f k x) = x) -> per_line f lines a = Ok r -> map g r = a.
Proof.
  intros H. unfold per_line. destruct (Nat.eqb_spec (List.length a) (List.length lines)) as [E|]; [|discriminate]. intros [= <-].
  revert a E. induction lines as [|k l IH]; intros [|x a] E; cbn in *; try discriminate; [reflexivity|]. rewrite H, IH by congruence. reflexivity.
Qed.
Lemma per_line_keep {T} (f : T -> num -> T) (g : T -> num) lines (a : list num) r : (forall k x, g (f k x) = g k) -> per_line f lines a = Ok r -> map g r = map g lines.
Proof.
  intros H. unfold per_line. destruct (Nat.eqb_spec (List.length a) (List.length lines)) as [E|]; [|discriminate]. intros [= <-].
  revert a E. induction lines as [|k l IH]; intros [|x a] E; cbn in *; try discriminate; [reflexivity|]. rewrite H, IH by congruence. reflexivity.
Qed.
Lemma per_line_again {T} (f : T -> num -> T) (g : T -> num) lines a : (forall k, f k (g k) = k) -> map g lines = a -> per_line f lines a = Ok lines.
Proof. intros H <-. apply per_line_same. exact H. Qed.
End Inert.

(** Follow the column [g] of the last list of lines back to the assignment that set it. *)
Ltac chain :=
  match goal with
  | H : per_line ?f ?l ?a = Ok ?r |- map ?g ?r = _ =>
      first [ exact (per_line_get f g l a r (fun k x => eq_refl) H)
            | rewrite (per_line_keep f g l a r (fun k x => eq_refl) H); chain ]
  end.
Ltac unbind E :=
  repeat match type of E with
  | (do x <- ?a; _) = Ok _ => let H := fresh "U" in destruct a eqn:H; cbn [bind] in E; [|discriminate E]
  end.

Ltac again f g := rewrite (per_line_again f g) by (first [intros []; reflexivity | chain]); cbn [bind].
Ltac reads s d :=
  repeat match goal with
    | U : amu_num s d ?k = Ok _ |- _ => rewrite U; clear U; cbn [bind]
    | U : amu_value s d ?k = Ok _ |- _ => rewrite U; clear U; cbn [bind]
    | U : amu_arr s d ?k = Ok _ |- _ => rewrite U; clear U; cbn [bind] end.

Section Idem.
Context {A : Arith}.
Notation num := (car A).
Notation store := (store A).

Theorem h2o_override_idempotent : forall (s : store) d m (ll ll' : h2o_ll A), h2o_override s d m ll = Ok ll' -> h2o_override s d m ll' = Ok ll'.
Proof.
  intros s d m ll ll' E. unfold h2o_override in *. destruct (str_gtb m "R17").
  - repeat match goal with U : bind _ _ = Ok _ |- _ => unbind U end. injection E as <-.
    repeat match goal with U : Ok _ = Ok _ |- _ => injection U as U; subst end. cbn [bind h_lines h_reftcon h_reftline h_d2air h_d2self fst snd] in *.
    reads s d. again (@with_s1 A) (@h_s1 A). again (@with_b2 A) (@h_b2 A). again (@with_w0 A) (@h_w0 A). again (@with_w0s A) (@h_w0s A).
    again (@with_x A) (@h_x A). again (@with_xs A) (@h_xs A). again (@with_sh A) (@h_sh A). again (@with_shs A) (@h_shs A).
    again (@with_xh A) (@h_xh A). again (@with_xhs A) (@h_xhs A). again (@with_fl A) (@h_fl A). reflexivity.
  - repeat match goal with U : bind _ _ = Ok _ |- _ => unbind U end. injection E as <-.
    repeat match goal with U : Ok _ = Ok _ |- _ => injection U as U; subst end. cbn [bind h_lines h_reftcon h_reftline h_d2air h_d2self fst snd] in *.
    reads s d. again (@with_s1 A) (@h_s1 A). again (@with_b2 A) (@h_b2 A). again (@with_w0 A) (@h_w0 A). again (@with_w0s A) (@h_w0s A).
    again (@with_x A) (@h_x A). again (@with_xs A) (@h_xs A). again (@with_sr A) (@h_sr A). again (@with_fl A) (@h_fl A). reflexivity.
Qed.

(** An assigned slice, element by element, whatever the lengths. *)
Definition patch (a : nat) (x v : list num) : list num := (firstn a v ++ x ++ skipn (a + List.length x) v)%list.
Lemma slice_len {T} a b (v : list T) : List.length (slice a b v) = Nat.min (b - a) (List.length v - a).
Proof. unfold slice. rewrite firstn_length, skipn_length. reflexivity. Qed.
Lemma slice_assign_patch a b (v w r : list num) : slice_assign a b v w = Ok r ->
  exists x, r = patch a x v /\ List.length x = List.length (slice a b v) /\
    forall v', List.length v' = List.length v -> slice_assign a b v' w = Ok (patch a x v').
Proof.
  unfold slice_assign, patch. destruct (Nat.eqb_spec (List.length (slice a b w)) (List.length (slice a b v))) as [E|E].
  - intros [= <-]. exists (slice a b w). split; [rewrite E; reflexivity|]. split; [exact E|]. intros v' Hv.
    assert (L : List.length (slice a b v') = List.length (slice a b w)) by (rewrite E, !slice_len, Hv; reflexivity).
    rewrite L, Nat.eqb_refl. reflexivity.
  - destruct (slice a b w) as [|x [|y l]] eqn:Ew; try discriminate. intros [= <-].
    exists (repeat x (List.length (slice a b v))). rewrite repeat_length. split; [reflexivity|]. split; [reflexivity|]. intros v' Hv.
    assert (L : List.length (slice a b v') = List.length (slice a b v)) by (rewrite !slice_len, Hv; reflexivity).
    rewrite L. destruct (Nat.eqb_spec (List.length [x]) (List.length (slice a b v))); [contradiction|]. reflexivity.
Qed.
Lemma patch_len a (x v : list num) : (List.length x <= List.length v - a)%nat -> List.length (patch a x v) = List.length v.
Proof. intros H. unfold patch. rewrite !app_length, firstn_length, skipn_length. lia. Qed.
Lemma patch_nth a (x v : list num) (i : nat) : (List.length x <= List.length v - a)%nat ->
  nth_error (patch a x v) i = if ((a <=? i)%nat && (i <? a + List.length x)%nat)%bool then nth_error x (i - a) else nth_error v i.
Proof.
  intros H. destruct (Nat.le_gt_cases (List.length v) a) as [Ha|Ha].
  - assert (x = []) by (destruct x; [reflexivity|cbn in H; lia]). subst x. unfold patch. cbn [app List.length]. rewrite Nat.add_0_r, firstn_skipn.
    destruct (Nat.leb_spec a i), (Nat.ltb_spec i a); cbn [andb]; auto. lia.
  - unfold patch. destruct (Nat.leb_spec a i) as [G1|G1]; cbn [andb].
    + rewrite nth_error_app2 by (rewrite firstn_length; lia). rewrite firstn_length, Nat.min_l by lia.
      destruct (Nat.ltb_spec i (a + List.length x)) as [G2|G2].
      * rewrite nth_error_app1 by lia. reflexivity.
      * rewrite nth_error_app2 by lia. rewrite nth_error_skipn'. f_equal. lia.
    + rewrite nth_error_app1 by (rewrite firstn_length; lia). apply nth_error_firstn'. exact G1.
Qed.
Lemma nth_error_ext {T} (l1 : list T) : forall l2, (forall i, nth_error l1 i = nth_error l2 i) -> l1 = l2.
Proof.
  induction l1 as [|x l IH]; intros [|y l2] H; [reflexivity|discriminate (H 0%nat)|discriminate (H 0%nat)|].
  pose proof (H 0%nat) as H0. cbn in H0. injection H0 as <-. f_equal. apply IH. intros i. exact (H (S i)).
Qed.
Lemma slice_assign_twice a b (v w r : list num) : slice_assign a b v w = Ok r -> slice_assign a b r w = Ok r.
Proof.
  intros E. destruct (slice_assign_patch _ _ _ _ _ E) as (x & -> & L & F). rewrite slice_len in L.
  rewrite F by (apply patch_len; lia). f_equal. apply nth_error_ext. intros i. rewrite patch_nth by (rewrite patch_len; lia).
  rewrite patch_nth by lia. destruct (_ && _)%bool; reflexivity.
Qed.

(** Two slices written one after the other, then again. *)
Lemma slices_twice a b a' b' (v w w' r r' : list num) : slice_assign a b v w = Ok r -> slice_assign a' b' r w' = Ok r' ->
  exists q, slice_assign a b r' w = Ok q /\ slice_assign a' b' q w' = Ok r'.
Proof.
  intros E E'. destruct (slice_assign_patch _ _ _ _ _ E) as (x & -> & L & F). destruct (slice_assign_patch _ _ _ _ _ E') as (x' & -> & L' & F').
  rewrite slice_len in L, L'. rewrite patch_len in L' by lia.
  assert (P : List.length (patch a' x' (patch a x v)) = List.length v) by (rewrite !patch_len; rewrite ?patch_len; lia).
  exists (patch a x (patch a' x' (patch a x v))). split; [apply F; exact P|]. rewrite F' by (rewrite !patch_len; rewrite ?patch_len; try lia; rewrite ?patch_len; lia). f_equal.
  apply nth_error_ext. intros i.
  rewrite !patch_nth by (repeat (rewrite ?patch_len by lia); lia).
  destruct ((a' <=? i)%nat && _)%bool; [reflexivity|]. destruct ((a <=? i)%nat && _)%bool; reflexivity.
Qed.

Theorem o2_override_idempotent : forall (s : store) d m (ll ll' : o2_ll A), o2_override s d m ll = Ok ll' -> o2_override s d m ll' = Ok ll'.
Proof.
  intros s d m ll ll' E. unfold o2_override in *. destruct (str_gtb m "R19").
  - repeat match goal with U : bind _ _ = Ok _ |- _ => unbind U end. injection E as <-. cbn [bind o_lines] in *.
    destruct (slices_twice _ _ _ _ _ _ _ _ _ U1 U3) as (q & Q1 & Q2).
    assert (W : map (@o_w300 A) x17 = x3) by chain. rewrite W.
    reads s d. rewrite Q1. cbn [bind]. rewrite Q2. cbn [bind].
    again (@with_w300 A) (@o_w300 A). again (@with_f A) (@o_f A). again (@with_s300 A) (@o_s300 A). again (@with_be A) (@o_be A).
    again (@with_y0 A) (@o_y0 A). again (@with_y1 A) (@o_y1 A). again (@with_dnu0 A) (@o_dnu0 A). again (@with_dnu1 A) (@o_dnu1 A). reflexivity.
  - repeat match goal with U : bind _ _ = Ok _ |- _ => unbind U end. injection E as <-. cbn [bind o_lines] in *.
    destruct (slices_twice _ _ _ _ _ _ _ _ _ U1 U3) as (q & Q1 & Q2).
    assert (W : map (@o_w300 A) x17 = x3) by chain. rewrite W.
    reads s d. rewrite Q1. cbn [bind]. rewrite Q2. cbn [bind].
    again (@with_w300 A) (@o_w300 A). again (@with_f A) (@o_f A). again (@with_s300 A) (@o_s300 A). again (@with_be A) (@o_be A).
    match goal with U : slice_assign 34 49 ?a ?b = Ok ?c |- context [slice_assign 34 49 ?a ?b] => rewrite U; cbn [bind] end. again (@with_y300 A) (@o_y300 A).
    match goal with U : slice_assign 34 49 ?a ?b = Ok ?c |- context [slice_assign 34 49 ?a ?b] => rewrite U; cbn [bind] end. again (@with_v A) (@o_v A). reflexivity.
Qed.

Theorem o3_override_idempotent : forall (s : store) d (ll ll' : o3_ll A), o3_override s d ll = Ok ll' -> o3_override s d ll' = Ok ll'.
Proof.
  intros s d ll ll' E. unfold o3_override in *.
  repeat match goal with U : bind _ _ = Ok _ |- _ => unbind U end. injection E as <-. cbn [bind z_lines z_reftline] in *.
  reads s d. again (fun (k : o3_line A) (v : num) => mkO3Line v (z_s1 k) (z_b k) (z_w k) (z_x k)) (@z_fl A).
  again (fun (k : o3_line A) (v : num) => mkO3Line (z_fl k) v (z_b k) (z_w k) (z_x k)) (@z_s1 A).
  again (fun (k : o3_line A) (v : num) => mkO3Line (z_fl k) (z_s1 k) v (z_w k) (z_x k)) (@z_b A).
  again (fun (k : o3_line A) (v : num) => mkO3Line (z_fl k) (z_s1 k) (z_b k) v (z_x k)) (@z_w A).
  again (fun (k : o3_line A) (v : num) => mkO3Line (z_fl k) (z_s1 k) (z_b k) (z_w k) v) (@z_x A). reflexivity.
Qed.
End Idem.
