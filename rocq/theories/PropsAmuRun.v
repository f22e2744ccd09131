(** Claim C59 (what a run does to the caller's dictionary) and the sharing inside the default oxygen table (claim C60). *)

From Coq Require Import ZArith Reals Lra List Bool String PeanoNat Lia.
Import ListNotations.
From Verif Require Import Arith PyBase Utils RTE Absorption Clear Spectrum Registry RealAux ListAux SolverGen PropsHistory Uncertainty PropsCopy PropsUnc PropsTables
  LineData Lineshape PropsAmu.
Local Open Scope string_scope.
Local Open Scope arith_scope.

Section Run.
Context {A : Arith}.
Notation num := (car A).
Notation store := (store A).

Lemma write_slice_frame a b (s : store) dst src s' : write_slice a b s dst src = Ok s' ->
  st_objs s' = st_objs s /\ List.length (st_arrs s') = List.length (st_arrs s) /\
  (forall l, l <> dst -> nth_error (st_arrs s') l = nth_error (st_arrs s) l) /\
  exists v v', nth_error (st_arrs s) dst = Some v /\ slice_assign a b v src = Ok v' /\ nth_error (st_arrs s') dst = Some v'.
Proof.
  unfold write_slice. destruct (nth_error (st_arrs s) dst) as [v|] eqn:E; [|discriminate].
  destruct (slice_assign a b v src) as [v'|] eqn:E'; cbn [bind]; [|discriminate]. intros [= <-]. cbn.
  split; [reflexivity|]. split; [apply length_upd|]. split; [intros l Hl; apply nth_error_upd_ne; auto|].
  exists v, v'. split; [reflexivity|]. split; [exact E'|]. eapply nth_error_upd_eq; eauto.
Qed.

Lemma amu_loc_objs (s s' : store) d k : st_objs s' = st_objs s -> amu_loc s' d k = amu_loc s d k.
Proof. intros H. unfold amu_loc. rewrite H. reflexivity. Qed.

(** Every array the run may write. *)
Theorem C59_frame : forall (s : store) d m w s', o2_amu_effect s d m w = Ok s' ->
  st_objs s' = st_objs s /\ List.length (st_arrs s') = List.length (st_arrs s) /\
  forall l, l <> w -> (str_gtb m "R19" = false -> amu_loc s d "Y300" <> Ok l /\ amu_loc s d "O2_V" <> Ok l) ->
    nth_error (st_arrs s') l = nth_error (st_arrs s) l.
Proof.
  intros s d m w s' E. unfold o2_amu_effect in E. unbind E.
  destruct (write_slice_frame _ _ _ _ _ _ U0) as (O1 & L1 & F1 & _). destruct (write_slice_frame _ _ _ _ _ _ U2) as (O2 & L2 & F2 & _).
  destruct (str_gtb m "R19").
  - injection E as <-. split; [congruence|]. split; [congruence|]. intros l Hl _. rewrite F2, F1 by assumption. reflexivity.
  - unbind E. destruct (write_slice_frame _ _ _ _ _ _ U5) as (O3 & L3 & F3 & _). destruct (write_slice_frame _ _ _ _ _ _ E) as (O4 & L4 & F4 & _).
    rewrite (amu_loc_objs s) in U3 by congruence. rewrite (amu_loc_objs s) in U6 by congruence.
    split; [congruence|]. split; [congruence|]. intros l Hl Hn. destruct (Hn eq_refl) as [N1 N2].
    rewrite F4, F3, F2, F1 by congruence. reflexivity.
Qed.

(** The array at [l] is not reached from the dictionary, except as the value under the names [ks]. *)
Definition only_under (ks : list string) (s : store) (d : pdict) (l : nat) : Prop :=
  forall k o p, assoc k d = Some o -> nth_error (st_objs s) o = Some p ->
    sp_uncer p <> PArr l /\ (sp_value p = PArr l -> In k ks).

Lemma nth_of_error {T} (l l' : list T) i d : nth_error l' i = nth_error l i -> nth i l' d = nth i l d.
Proof.
  intros H. rewrite <- (nth_default_eq i l' d), <- (nth_default_eq i l d). unfold nth_default. rewrite H. reflexivity.
Qed.

Lemma entry_kept (s s' : store) d k : st_objs s' = st_objs s ->
  (forall o p l, assoc k d = Some o -> nth_error (st_objs s) o = Some p -> sp_value p = PArr l \/ sp_uncer p = PArr l ->
     nth_error (st_arrs s') l = nth_error (st_arrs s) l) -> entry s' d k = entry s d k.
Proof.
  intros O H. unfold entry. rewrite O. destruct (assoc k d) as [o|] eqn:Ea; [|reflexivity]. destruct (nth_error (st_objs s) o) as [p|] eqn:Ep; [|reflexivity].
  assert (C : forall v, sp_value p = v \/ sp_uncer p = v -> content s' v = content s v).
  { intros [x|z|l] Hv; cbn; [reflexivity|reflexivity|]. f_equal. apply nth_of_error. eapply H; eauto. }
  rewrite !C by auto. reflexivity.
Qed.

(** Claim C59 for the models after R19: the dictionary is unchanged by the run. *)
Theorem C59_new_models : forall (s : store) d m w s', str_gtb m "R19" = true -> only_under [] s d w ->
  o2_amu_effect s d m w = Ok s' -> forall k, entry s' d k = entry s d k.
Proof.
  intros s d m w s' Hm Hw E k. destruct (C59_frame _ _ _ _ _ E) as (O & _ & F). apply entry_kept; [exact O|].
  intros o p l Ha Hp Hl. apply F; [|congruence]. intros ->. destruct (Hw k o p Ha Hp) as [H1 H2]. destruct Hl as [Hl|Hl]; [destruct (H2 Hl)|contradiction].
Qed.

(** Claim C59 for the models up to R19, exactly: the entries Y300 and O2_V receive the high-rotational part (lines 34 to 48)
    of Y300_NL and O2_V_NL; every other entry is unchanged. *)
Lemma amu_loc_entry (s : store) d k l : amu_loc s d k = Ok l -> exists o p, assoc k d = Some o /\ nth_error (st_objs s) o = Some p /\ sp_value p = PArr l.
Proof.
  unfold amu_loc. destruct (assoc k d) as [o|]; [|discriminate]. destruct (nth_error (st_objs s) o) as [p|] eqn:Ep; [|discriminate].
  destruct (sp_value p) as [?|?|l'] eqn:E; try discriminate. intros [= <-]. exists o, p. auto.
Qed.

Theorem C59_old_models : forall (s : store) d m w y v s', str_gtb m "R19" = false ->
  amu_loc s d "Y300" = Ok y -> amu_loc s d "O2_V" = Ok v -> y <> v -> y <> w -> v <> w ->
  only_under [] s d w -> only_under ["Y300"; "Y300_NL"] s d y -> only_under ["O2_V"; "O2_V_NL"] s d v ->
  o2_amu_effect s d m w = Ok s' ->
  (forall k, k <> "Y300" -> k <> "O2_V" -> entry s' d k = entry s d k) /\
  forall k kn, (k, kn) = ("Y300", "Y300_NL") \/ (k, kn) = ("O2_V", "O2_V_NL") -> exists a u an a',
    entry s d k = Some (CArr a, u) /\ amu_arr s d kn = Ok an /\ entry s' d k = Some (CArr a', u) /\ slice_assign 34 49 a an = Ok a'.
Proof.
  intros s d m w y v s' Hm Hy Hv Nyv Nyw Nvw Ow Oy Ov E.
  assert (E0 := E). unfold o2_amu_effect in E0. rewrite Hm in E0. unbind E0.
  destruct (write_slice_frame _ _ _ _ _ _ U0) as (O1 & L1 & F1 & _). destruct (write_slice_frame _ _ _ _ _ _ U2) as (O2 & L2 & F2 & _).
  destruct (write_slice_frame _ _ _ _ _ _ U5) as (O3 & L3 & F3 & ay & ay' & Y1 & Y2 & Y3).
  destruct (write_slice_frame _ _ _ _ _ _ E0) as (O4 & L4 & F4 & av & av' & V1 & V2 & V3).
  rewrite (amu_loc_objs s) in U3 by congruence. rewrite Hy in U3. injection U3 as <-.
  rewrite (amu_loc_objs s) in U6 by congruence. rewrite Hv in U6. injection U6 as <-.
  rewrite F2, F1 in Y1 by congruence. rewrite F3, F2, F1 in V1 by congruence. rewrite <- F4 in Y3 by congruence.
  (* the sources are read unchanged *)
  assert (SK : forall k (t : store), st_objs t = st_objs s -> (forall l, l <> w -> l <> y -> nth_error (st_arrs t) l = nth_error (st_arrs s) l) ->
     k <> "Y300" -> k <> "Y300_NL" -> entry t d k = entry s d k).
  { intros k t Ot Ft K1 K2. apply entry_kept; [exact Ot|]. intros o p l Ha Hp Hl. apply Ft.
    - intros ->. destruct (Ow k o p Ha Hp) as [H1 H2]. destruct Hl as [Hl|Hl]; [destruct (H2 Hl)|contradiction].
    - intros ->. destruct (Oy k o p Ha Hp) as [H1 H2]. destruct Hl as [Hl|Hl]; [destruct (H2 Hl) as [<-|[<-|[]]]; congruence|contradiction]. }
  assert (SY : amu_arr x2 d "Y300_NL" = amu_arr s d "Y300_NL").
  { unfold amu_arr, amu_value. assert (EE : entry x2 d "Y300_NL" = entry s d "Y300_NL"); [|rewrite EE; reflexivity].
    apply entry_kept; [congruence|]. intros o p l Ha Hp Hl. assert (l <> w).
    { intros ->. destruct (Ow _ o p Ha Hp) as [H1 H2]. destruct Hl as [Hl|Hl]; [destruct (H2 Hl)|contradiction]. }
    rewrite F2, F1 by assumption. reflexivity. }
  rewrite SY in U4.
  assert (SV : amu_arr x5 d "O2_V_NL" = amu_arr s d "O2_V_NL").
  { unfold amu_arr, amu_value. rewrite (SK "O2_V_NL" x5); try congruence; try discriminate. intros l N1 N2. rewrite F3, F2, F1 by assumption. reflexivity. }
  rewrite SV in U7.
  destruct (amu_loc_entry _ _ _ _ Hy) as (oy & py & Ay & Py & Vy). destruct (amu_loc_entry _ _ _ _ Hv) as (ov & pv & Av & Pv & Vv).
  assert (O5 : st_objs s' = st_objs s) by congruence.
  assert (FA : forall l, l <> w -> l <> y -> l <> v -> nth_error (st_arrs s') l = nth_error (st_arrs s) l).
  { intros l N1 N2 N3. rewrite F4, F3, F2, F1 by assumption. reflexivity. }
  assert (NW : forall k o p l, assoc k d = Some o -> nth_error (st_objs s) o = Some p -> sp_value p = PArr l \/ sp_uncer p = PArr l -> l <> w).
  { intros k o p l Ha Hp Hl ->. destruct (Ow k o p Ha Hp) as [H1 H2]. destruct Hl as [Hl|Hl]; [destruct (H2 Hl)|contradiction]. }
  (* an _NL entry that shares the array keeps its contents *)
  assert (same : forall (a r : list num), slice_assign 34 49 a a = Ok r -> r = a).
  { intros a r Hr. rewrite slice_assign_same in Hr. congruence. }
  split.
  - intros k K1 K2. apply entry_kept; [exact O5|]. intros o p l Ha Hp Hl.
    destruct (Nat.eq_dec l y) as [->|Ny].
    + destruct (Oy k o p Ha Hp) as [H1 H2]. destruct Hl as [Hl|Hl]; [|contradiction]. destruct (H2 Hl) as [<-|[<-|[]]]; [congruence|].
      rewrite Y3, Y1. f_equal.
      assert (X : amu_arr s d "Y300_NL" = Ok ay) by (unfold amu_arr, amu_value, entry; rewrite Ha, Hp, Hl; cbn; f_equal; apply nth_error_nth; exact Y1).
      rewrite X in U4. injection U4 as <-. apply same. exact Y2.
    + destruct (Nat.eq_dec l v) as [->|Nv]; [|apply FA; eauto].
      destruct (Ov k o p Ha Hp) as [H1 H2]. destruct Hl as [Hl|Hl]; [|contradiction]. destruct (H2 Hl) as [<-|[<-|[]]]; [congruence|].
      rewrite V3, V1. f_equal.
      assert (X : amu_arr s d "O2_V_NL" = Ok av) by (unfold amu_arr, amu_value, entry; rewrite Ha, Hp, Hl; cbn; f_equal; apply nth_error_nth; exact V1).
      rewrite X in U7. injection U7 as <-. apply same. exact V2.
  - assert (UK : forall k o p, assoc k d = Some o -> nth_error (st_objs s) o = Some p -> content s' (sp_uncer p) = content s (sp_uncer p)).
    { intros k o p Ha Hp. destruct (sp_uncer p) as [?|?|l] eqn:Eu; cbn; [reflexivity|reflexivity|]. f_equal. apply nth_of_error. apply FA.
      - eapply NW; eauto.
      - intros ->. destruct (Oy k o p Ha Hp) as [H1 _]. congruence.
      - intros ->. destruct (Ov k o p Ha Hp) as [H1 _]. congruence. }
    intros k kn [[= -> ->]|[= -> ->]].
    + exists ay, (content s (sp_uncer py)), x4, ay'. unfold entry. rewrite O5, Ay, Py, Vy, (UK _ _ _ Ay Py). cbn [content].
      rewrite (nth_error_nth _ _ _ Y1), (nth_error_nth _ _ _ Y3). repeat split; auto.
    + exists av, (content s (sp_uncer pv)), x7, av'. unfold entry. rewrite O5, Av, Pv, Vv, (UK _ _ _ Av Pv). cbn [content].
      rewrite (nth_error_nth _ _ _ V1), (nth_error_nth _ _ _ V3). repeat split; auto.
Qed.

(** ... so the dictionary is unchanged when the two halves agree, as in a dictionary whose Y300 and O2_V entries (and their
    _NL partners) are unperturbed. *)
Theorem C59_unperturbed : forall (s : store) d m w y v s', str_gtb m "R19" = false ->
  amu_loc s d "Y300" = Ok y -> amu_loc s d "O2_V" = Ok v -> y <> v -> y <> w -> v <> w ->
  only_under [] s d w -> only_under ["Y300"; "Y300_NL"] s d y -> only_under ["O2_V"; "O2_V_NL"] s d v ->
  amu_arr s d "Y300_NL" = amu_arr s d "Y300" -> amu_arr s d "O2_V_NL" = amu_arr s d "O2_V" ->
  o2_amu_effect s d m w = Ok s' -> forall k, entry s' d k = entry s d k.
Proof.
  intros s d m w y v s' Hm Hy Hv N1 N2 N3 Ow Oy Ov EY EV E k.
  destruct (C59_old_models s d m w y v s' Hm Hy Hv N1 N2 N3 Ow Oy Ov E) as [F G].
  destruct (String.eqb_spec k "Y300") as [->|K1]; [|destruct (String.eqb_spec k "O2_V") as [->|K2]; [|auto]].
  - destruct (G _ _ (or_introl eq_refl)) as (a & u & an & a' & H1 & H2 & H3 & H4). rewrite EY in H2. unfold amu_arr, amu_value in H2. rewrite H1 in H2.
    cbn in H2. injection H2 as <-. rewrite slice_assign_same in H4. injection H4 as <-. congruence.
  - destruct (G _ _ (or_intror eq_refl)) as (a & u & an & a' & H1 & H2 & H3 & H4). rewrite EV in H2. unfold amu_arr, amu_value in H2. rewrite H1 in H2.
    cbn in H2. injection H2 as <-. rewrite slice_assign_same in H4. injection H4 as <-. congruence.
Qed.

(** ** A session: the default oxygen table of R17, one uncertainty given by the user, a perturbation, a run *)

Definition line0 (y : num) : o2_line A := mkO2Line #1 #1 #1 #1 y #1 #1 #1 #1 #1 #1 #1.
Definition lines35 (y : num) : o2_ll A := mkO2LL #1 #1 (repeat (line0 y) 35).
Definition db35 (y : num) : lldb A := mkDB (fun _ => None) (fun _ => Some (lines35 y)) (fun _ => None).
Definition fresh_process : ustate A := mkU [] [] [] (mkStore [] []).

(** [p = oxygen_parameters('R17'); p[name].uncer = u; set_parameters(p); amu = parameters_perturbation([name], 'max', index)] *)
Definition perturbed (y : num) (name : string) (u : pval A) (extra : list (list num)) (idx : option Z) : result (pdict * store) :=
  let '(r, us) := oxygen_parameters (db35 y) "R17" fresh_process in
  do d <- r;
  let s := mkStore (st_objs (u_store us)) (st_arrs (u_store us) ++ extra)%list in
  match assoc name d with
  | None => Err KeyError
  | Some o => parameters_perturbation (Some d) [name] "max" idx (set_uncer s o u)
  end.

(** [TbCloudRTE(..., amu=amu)] with R17: the line list is loaded and the block runs (at the first level). *)
Definition loaded_run (y : num) (d : pdict) (s : store) : result store :=
  let '(ns, s) := load_module (o2_module "R17" (lines35 y)) [] s in
  do w <- getattr ns "w300";
  match w with PArr w => o2_amu_effect s d "R17" w | _ => Err TypeError end.

Lemma session (y u : num) : exists d s s', perturbed y "Y300_NL" (PFloat u) [] None = Ok (d, s) /\ loaded_run y d s = Ok s' /\
  value_of s d "Y300" = Some (CArr (repeat y 35)) /\ value_of s' d "Y300" = Some (CArr (repeat y 34 ++ [y + u])%list).
Proof.
  eexists; eexists; eexists. split; [vm_compute; reflexivity|]. split; [vm_compute; reflexivity|]. split; vm_compute; reflexivity.
Qed.

Lemma session_table (y : num) : exists d us, oxygen_parameters (db35 y) "R17" fresh_process = (Ok d, us) /\
  value_of (u_store us) d "O2gamma_NL" = Some (CArr (repeat #1 35)).
Proof. eexists; eexists. split; [vm_compute; reflexivity|]. vm_compute; reflexivity. Qed.

Lemma session_shared (y u : num) : exists d s, perturbed y "O2gamma" (PArr 10) [u :: repeat #0 34] (Some 0%Z) = Ok (d, s) /\
  value_of s d "O2gamma_NL" = Some (CArr (#1 + u :: repeat #1 34)).
Proof. eexists; eexists. split; [vm_compute; reflexivity|]. vm_compute; reflexivity. Qed.

(** Case for C60_exact: the entry X05 of the same table (a number with the uncertainty the user gave). *)
Example C60_exact_case (y0 u0 : num) : exists d s, perturbed y0 "X05" (PFloat u0) [] None = Ok (d, s) /\
  value_of s d "X05" = Some (CFloat (add (#1) u0)) /\ value_of s d "O2gamma" = Some (CArr (repeat (#1) 35)).
Proof. eexists; eexists. split; [vm_compute; reflexivity|]. split; vm_compute; reflexivity. Qed.

(** Case for C59_old_models and C59_unperturbed: the unperturbed copy of the table ('non'), then the run. *)
Example C59_unperturbed_case (y0 : num) : exists d us d' s' ns s1 w y v s2, oxygen_parameters (db35 y0) "R17" fresh_process = (Ok d, us) /\
  parameters_perturbation (Some d) ["O2S"] "non" None (u_store us) = Ok (d', s') /\
  load_module (o2_module "R17" (lines35 y0)) [] s' = (ns, s1) /\ getattr ns "w300" = Ok (PArr w) /\
  amu_loc s1 d' "Y300" = Ok y /\ amu_loc s1 d' "O2_V" = Ok v /\ (y <> v /\ y <> w /\ v <> w)%nat /\
  only_under [] s1 d' w /\ only_under ["Y300"; "Y300_NL"] s1 d' y /\ only_under ["O2_V"; "O2_V_NL"] s1 d' v /\
  amu_arr s1 d' "Y300_NL" = amu_arr s1 d' "Y300" /\ amu_arr s1 d' "O2_V_NL" = amu_arr s1 d' "O2_V" /\ o2_amu_effect s1 d' "R17" w = Ok s2.
Proof.
  eexists; eexists; eexists; eexists; eexists; eexists; eexists; eexists; eexists; eexists.
  split; [vm_compute; reflexivity|]. split; [vm_compute; reflexivity|]. split; [vm_compute; reflexivity|]. split; [vm_compute; reflexivity|].
  split; [vm_compute; reflexivity|]. split; [vm_compute; reflexivity|]. split; [split; [|split]; discriminate|].
  assert (B : forall (ks : list string) (s : store) d l, forallb (fun '(k, o) => match nth_error (st_objs s) o with
     | Some p => negb (match sp_uncer p with PArr x => Nat.eqb x l | _ => false end) && (negb (match sp_value p with PArr x => Nat.eqb x l | _ => false end) || str_in k ks)
     | None => true end)%bool d = true -> only_under ks s d l).
  { intros ks s d l F k o p Ha Hp. rewrite forallb_forall in F. specialize (F _ (assoc_In _ _ _ Ha)). cbn in F. rewrite Hp in F.
    apply andb_prop in F. destruct F as [F1 F2]. split.
    - intros E. rewrite E, Nat.eqb_refl in F1. discriminate.
    - intros E. rewrite E, Nat.eqb_refl in F2. cbn in F2. unfold str_in in F2. apply existsb_exists in F2. destruct F2 as (x & Hx & Ex).
      apply String.eqb_eq in Ex. subst. exact Hx. }
  split; [apply B; vm_compute; reflexivity|]. split; [apply B; vm_compute; reflexivity|]. split; [apply B; vm_compute; reflexivity|].
  split; [vm_compute; reflexivity|]. split; [vm_compute; reflexivity|]. vm_compute. reflexivity.
Qed.
End Run.

(** Claim C59 is false: after perturbing Y300_NL a run rewrites the caller's Y300 entry. *)
Theorem C59_refuted : exists (y u : car RA) d s s', perturbed y "Y300_NL" (PFloat u) [] None = Ok (d, s) /\ loaded_run y d s = Ok s' /\
  entry s' d "Y300" <> entry s d "Y300".
Proof.
  exists 0%R, 1%R. destruct (session (A:=RA) 0%R 1%R) as (d & s & s' & H1 & H2 & H3 & H4). exists d, s, s'. split; [exact H1|]. split; [exact H2|].
  intros E. unfold value_of in *. rewrite E, H3 in H4. injection H4 as H4. cbn in H4. lra.
Qed.

(** Claim C60 is false on the default oxygen table: O2gamma and O2gamma_NL are one array, deepcopy keeps it so, and
    perturbing one element of O2gamma also changes the entry O2gamma_NL that was not selected. *)
Theorem C60_shared_refuted : exists (y u : car RA) d0 us d s,
  oxygen_parameters (db35 y) "R17" fresh_process = (Ok d0, us) /\
  perturbed y "O2gamma" (PArr 10) [u :: repeat (lit (a:=RA) 0%dec) 34] (Some 0%Z) = Ok (d, s) /\
  value_of s d "O2gamma_NL" <> value_of (u_store us) d0 "O2gamma_NL".
Proof.
  exists 0%R, 1%R. destruct (session_shared (A:=RA) 0%R 1%R) as (d & s & H1 & H2). destruct (session_table (A:=RA) 0%R) as (d0 & us & H3 & H4).
  exists d0, us, d, s. split; [exact H3|]. split; [exact H1|]. rewrite H2, H4. intros E. injection E as E. cbn in E. lra.
Qed.


(** Cases for C62_water, C62_oxygen and C88_defaults: the shipped line lists of R19 and R18, in a fresh process. *)
Example C62_case (A : Arith) : exists wl ol, db_h2o (shipped (A:=A)) "R19" = Some wl /\ db_o2 (shipped (A:=A)) "R18" = Some ol /\
  List.length (h_lines wl) = 16%nat /\ List.length (o_lines ol) = 49%nat.
Proof. eexists; eexists. split; [reflexivity|]. split; [reflexivity|]. split; reflexivity. Qed.

Example C88_case : exists wl ol dw dd u1 u2 g, db_h2o (shipped (A:=RA)) "R19" = Some wl /\ db_o2 (shipped (A:=RA)) "R18" = Some ol /\
  water_parameters (A:=RA) shipped "R19" fresh_process = (Ok dw, u1) /\ oxygen_parameters (A:=RA) shipped "R18" u1 = (Ok dd, u2) /\
  g_h2o g = Some "R19" /\ g_h2oll g = Some wl /\ g_o2 g = Some "R18" /\ g_o2ll g = Some ol /\ In "R19" water_ok /\ In "R18" oxygen_ok.
Proof.
  destruct (C62_case RA) as (wl & ol & H1 & H2 & _). exists wl, ol.
  destruct (C62_water (A:=RA) shipped "R19" wl fresh_process H1) as (dw & u1 & E1 & _); [unfold water_ok; cbn; intuition|].
  destruct (C62_oxygen (A:=RA) shipped "R18" ol u1 H2) as (dd & u2 & E2 & _); [unfold oxygen_ok; cbn; intuition|].
  exists dw, dd, u1, u2, (mkGlobals (Some "R19") (Some "R18") None None None (Some wl) (Some ol) None false (1%R : car RA)).
  repeat (split; [first [assumption|reflexivity|unfold water_ok; cbn; intuition]|]). unfold oxygen_ok; cbn; intuition.
Qed.
