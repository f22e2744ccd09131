(** deepcopy of a parameter dictionary: the copy has the same contents, is disjoint from everything that existed before, and
    shares exactly where the original shared.  Used by claims C59 and C60. *)

From Coq Require Import ZArith List Bool String PeanoNat Lia.
Import ListNotations.
From Verif Require Import Arith PyBase Utils Absorption Clear Spectrum ListAux Uncertainty.
Local Open Scope string_scope.

Section Copy.
Context {A : Arith}.
Notation num := (car A).
Notation store := (store A).

(** ** Specification vocabulary *)

(** Addresses in range. *)
Definition wf_val (s : store) (v : pval A) : Prop :=
  match v with PArr l => (l < List.length (st_arrs s))%nat | _ => True end.
Definition wf_dict (s : store) (d : pdict) : Prop :=
  forall k o, In (k, o) d -> exists p, nth_error (st_objs s) o = Some p /\ wf_val s (sp_value p) /\ wf_val s (sp_uncer p).

(** [s'] contains everything of [s] unchanged. *)
Definition extends (s s' : store) : Prop :=
  (exists os, st_objs s' = st_objs s ++ os)%list /\ (exists ars, st_arrs s' = st_arrs s ++ ars)%list.

Lemma extends_refl s : extends s s.
Proof. split; exists []; rewrite app_nil_r; reflexivity. Qed.
Lemma extends_trans s t u : extends s t -> extends t u -> extends s u.
Proof.
  intros [[o1 H1] [a1 H2]] [[o2 H3] [a2 H4]]. split; [exists (o1 ++ o2)%list|exists (a1 ++ a2)%list].
  - rewrite H3, H1, app_assoc. reflexivity.
  - rewrite H4, H2, app_assoc. reflexivity.
Qed.
Lemma extends_arr s t l : extends s t -> (l < List.length (st_arrs s))%nat -> nth l (st_arrs t) [] = nth l (st_arrs s) [].
Proof. intros [_ [ars H]] Hl. rewrite H, app_nth1; auto. Qed.
Lemma extends_obj s t o p : extends s t -> nth_error (st_objs s) o = Some p -> nth_error (st_objs t) o = Some p.
Proof. intros [[os H] _] Ho. rewrite H, nth_error_app1; auto. apply nth_error_Some. congruence. Qed.
Lemma extends_len s t : extends s t -> (List.length (st_arrs s) <= List.length (st_arrs t))%nat /\ (List.length (st_objs s) <= List.length (st_objs t))%nat.
Proof. intros [[os H] [ars H']]. rewrite H, H', !app_length. lia. Qed.

(** ** Invariant of the copying loop *)

Definition copy_of (ma : memo) (v v' : pval A) : Prop :=
  match v, v' with
  | PArr l, PArr l' => mlookup l ma = Some l'
  | PFloat x, PFloat y => x = y
  | PInt x, PInt y => x = y
  | _, _ => False
  end.

Record copying (s0 s : store) (mo ma : memo) : Prop := {
  cp_ext : extends s0 s;
  cp_arr : forall l l', mlookup l ma = Some l' ->
    (l < List.length (st_arrs s0) <= l')%nat /\ (l' < List.length (st_arrs s))%nat /\ nth l' (st_arrs s) [] = nth l (st_arrs s0) [];
  cp_arr_inj : forall l1 l2 l', mlookup l1 ma = Some l' -> mlookup l2 ma = Some l' -> l1 = l2;
  cp_obj : forall o o', mlookup o mo = Some o' ->
    (List.length (st_objs s0) <= o' < List.length (st_objs s))%nat /\
    exists p p', nth_error (st_objs s0) o = Some p /\ nth_error (st_objs s) o' = Some p' /\
      copy_of ma (sp_value p) (sp_value p') /\ copy_of ma (sp_uncer p) (sp_uncer p') /\ sp_text p' = sp_text p;
  cp_obj_inj : forall o1 o2 o', mlookup o1 mo = Some o' -> mlookup o2 mo = Some o' -> o1 = o2 }.

Definition grows (m m' : memo) : Prop := forall l l', mlookup l m = Some l' -> mlookup l m' = Some l'.

Lemma copy_of_grows ma ma' v v' : grows ma ma' -> copy_of ma v v' -> copy_of ma' v v'.
Proof. intros G. destruct v, v'; cbn; auto. Qed.

Lemma copy_val_ok s0 s mo ma v : copying s0 s mo ma -> wf_val s0 v ->
  forall v' s' ma', copy_val s ma v = (v', s', ma') ->
  copying s0 s' mo ma' /\ copy_of ma' v v' /\ grows ma ma' /\ st_objs s' = st_objs s.
Proof.
  intros C W v' s' ma' E. destruct v as [x|z|l]; cbn in E.
  - injection E as <- <- <-. split; [exact C|]. split; [cbn; auto|]. split; [intros ? ?; auto|reflexivity].
  - injection E as <- <- <-. split; [exact C|]. split; [cbn; auto|]. split; [intros ? ?; auto|reflexivity].
  - destruct (mlookup l ma) as [l'|] eqn:El.
    + injection E as <- <- <-. split; [exact C|]. split; [cbn; auto|]. split; [intros ? ?; auto|reflexivity].
    + injection E as <- <- <-. cbn in W. destruct C as [Ce Ca Ci Co Coi]. split; [|split; [|split]].
      * assert (X : extends s (mkStore (st_objs s) (st_arrs s ++ [nth l (st_arrs s) []])%list)).
        { split; [exists []; cbn; rewrite app_nil_r; auto|eexists; reflexivity]. }
        pose proof (extends_len _ _ Ce) as [L1 L2].
        constructor.
        -- eapply extends_trans; eauto.
        -- intros k k' Hk. cbn in Hk |- *. rewrite app_length. cbn. destruct (Nat.eqb_spec k l) as [->|Hn].
           ++ injection Hk as <-. repeat split; try lia. rewrite app_nth2, Nat.sub_diag by lia. cbn.
              apply extends_arr; auto.
           ++ destruct (Ca _ _ Hk) as (H1 & H2 & H3). repeat split; try lia. rewrite app_nth1 by lia. exact H3.
        -- intros k1 k2 k' H1 H2. cbn in H1, H2. destruct (Nat.eqb_spec k1 l), (Nat.eqb_spec k2 l); try congruence.
           ++ injection H1 as <-. destruct (Ca _ _ H2) as (_ & H3 & _). lia.
           ++ injection H2 as <-. destruct (Ca _ _ H1) as (_ & H3 & _). lia.
           ++ eauto.
        -- intros o o' Ho. cbn. destruct (Co _ _ Ho) as (H1 & p & p' & H2 & H3 & H4 & H5 & H6). split; [auto|].
           exists p, p'. repeat split; auto; eapply copy_of_grows; eauto; intros a b Hab; cbn;
             (destruct (Nat.eqb_spec a l) as [->|]; [congruence|auto]).
        -- auto.
      * cbn. rewrite Nat.eqb_refl. reflexivity.
      * intros a b Hab. cbn. destruct (Nat.eqb_spec a l) as [->|]; [congruence|auto].
      * reflexivity.
Qed.

Lemma copy_obj_ok s0 s mo ma o p : copying s0 s mo ma -> nth_error (st_objs s0) o = Some p ->
  wf_val s0 (sp_value p) -> wf_val s0 (sp_uncer p) ->
  forall o' s' mo' ma', copy_obj s mo ma o = (o', s', mo', ma') ->
  copying s0 s' mo' ma' /\ mlookup o mo' = Some o' /\ grows mo mo' /\ grows ma ma'.
Proof.
  intros C Hp W1 W2 o' s' mo' ma' E. unfold copy_obj in E. destruct (mlookup o mo) as [x|] eqn:Eo.
  - injection E as <- <- <- <-. split; [exact C|]. split; [exact Eo|]. split; intros ? ?; auto.
  - rewrite (extends_obj _ _ _ _ (cp_ext _ _ _ _ C) Hp) in E.
    destruct (copy_val s ma (sp_value p)) as [[v1 s1] ma1] eqn:E1.
    destruct (copy_val_ok _ _ _ _ _ C W1 _ _ _ E1) as (C1 & V1 & G1 & O1).
    destruct (copy_val s1 ma1 (sp_uncer p)) as [[v2 s2] ma2] eqn:E2.
    destruct (copy_val_ok _ _ _ _ _ C1 W2 _ _ _ E2) as (C2 & V2 & G2 & O2).
    injection E as <- <- <- <-.
    split; [|split; [|split]].
    + destruct C2 as [Ce Ca Ci Co Coi]. pose proof (extends_len _ _ Ce) as [L1 L2].
      assert (X : extends s2 (mkStore (st_objs s2 ++ [mkSP v1 v2 (sp_text p)])%list (st_arrs s2))).
      { split; [eexists; reflexivity|exists []; cbn; rewrite app_nil_r; auto]. }
      constructor; cbn.
      * eapply extends_trans; eauto.
      * exact Ca.
      * exact Ci.
      * intros k k' Hk. rewrite app_length. cbn. destruct (Nat.eqb_spec k o) as [->|Hn].
        -- injection Hk as <-. split; [lia|]. exists p, (mkSP v1 v2 (sp_text p)). rewrite nth_error_app2, Nat.sub_diag by lia.
           cbn. repeat split; auto. eapply copy_of_grows; eauto.
        -- destruct (Co _ _ Hk) as (H1 & q & q' & H2 & H3 & H4). split; [lia|]. exists q, q'. rewrite nth_error_app1 by lia. auto.
      * intros k1 k2 k' H1 H2. destruct (Nat.eqb_spec k1 o), (Nat.eqb_spec k2 o); try congruence.
        -- injection H1 as <-. destruct (Co _ _ H2) as (H3 & _). lia.
        -- injection H2 as <-. destruct (Co _ _ H1) as (H3 & _). lia.
        -- eauto.
    + cbn. rewrite Nat.eqb_refl. reflexivity.
    + intros a b Hab. cbn. destruct (Nat.eqb_spec a o) as [->|]; [congruence|auto].
    + intros a b Hab. auto.
Qed.

Lemma copy_entries_ok s0 d : wf_dict s0 d -> forall s mo ma d' s',
  copying s0 s mo ma -> copy_entries s mo ma d = (d', s') ->
  exists mo' ma', copying s0 s' mo' ma' /\ grows mo mo' /\
    Forall2 (fun e e' => fst e = fst e' /\ mlookup (snd e) mo' = Some (snd e')) d d'.
Proof.
  induction d as [|[k o] d IH]; intros W s mo ma d' s' C E.
  - injection E as <- <-. exists mo, ma. split; [exact C|]. split; [intros ? ?; auto|constructor].
  - cbn in E. destruct (W k o (or_introl eq_refl)) as (p & Hp & W1 & W2).
    destruct (copy_obj s mo ma o) as [[[o' s1] mo1] ma1] eqn:E1.
    destruct (copy_obj_ok _ _ _ _ _ _ C Hp W1 W2 _ _ _ _ E1) as (C1 & M1 & G1 & _).
    destruct (copy_entries s1 mo1 ma1 d) as [d1 s2] eqn:E2. injection E as <- <-.
    destruct (IH (fun k o H => W k o (or_intror H)) _ _ _ _ _ C1 E2) as (mo2 & ma2 & C2 & G2 & F).
    exists mo2, ma2. split; [exact C2|]. split; [intros a b Hab; auto|]. constructor; auto.
Qed.

(** ** What a deep copy is *)

Lemma copying_start s0 : copying s0 s0 [] [].
Proof. constructor; try discriminate. apply extends_refl. Qed.

Theorem deepcopy_spec s d d' s' : wf_dict s d -> deepcopy s d = (d', s') ->
  exists mo ma, copying s s' mo ma /\
    Forall2 (fun e e' => fst e = fst e' /\ mlookup (snd e) mo = Some (snd e')) d d'.
Proof.
  intros W E. destruct (copy_entries_ok s d W _ _ _ _ _ (copying_start s) E) as (mo & ma & C & _ & F). eauto.
Qed.

Lemma assoc_In {T} k (d : list (string * T)) v : assoc k d = Some v -> In (k, v) d.
Proof.
  induction d as [|[k' v'] d IH]; cbn; [discriminate|]. destruct (String.eqb_spec k k') as [->|]; [intros [= <-]; auto|auto].
Qed.

Lemma copied_assoc mo (d d' : pdict) k :
  Forall2 (fun e e' => fst e = fst e' /\ mlookup (snd e) mo = Some (snd e')) d d' ->
  match assoc k d, assoc k d' with
  | Some o, Some o' => mlookup o mo = Some o'
  | None, None => True
  | _, _ => False
  end.
Proof.
  induction 1 as [|[k1 o1] [k2 o2] d d' [H1 H2] F IH]; cbn in *; [exact I|]. subst k2.
  destruct (String.eqb_spec k k1) as [->|]; auto.
Qed.

Lemma copied_keys mo (d d' : pdict) :
  Forall2 (fun e e' => fst e = fst e' /\ mlookup (snd e) mo = Some (snd e')) d d' -> map fst d' = map fst d.
Proof. induction 1 as [|e e' d d' [H _] F IH]; cbn; congruence. Qed.

Lemma copied_content s s' mo ma v v' : copying s s' mo ma -> copy_of ma v v' -> content s' v' = content s v.
Proof.
  intros C H. destruct v, v'; cbn in *; try contradiction; try congruence. destruct (cp_arr _ _ _ _ C _ _ H) as (_ & _ & ->). reflexivity.
Qed.

(** The contents are the same under every name. *)
Theorem deepcopy_entries s d d' s' : wf_dict s d -> deepcopy s d = (d', s') -> forall k, entry s' d' k = entry s d k.
Proof.
  intros W E k. destruct (deepcopy_spec _ _ _ _ W E) as (mo & ma & C & F). pose proof (copied_assoc mo d d' k F) as HA.
  unfold entry. destruct (assoc k d) as [o|], (assoc k d') as [o'|]; try contradiction; [|reflexivity].
  destruct (cp_obj _ _ _ _ C _ _ HA) as (_ & p & p' & -> & -> & H1 & H2 & _).
  rewrite (copied_content _ _ _ _ _ _ C H1), (copied_content _ _ _ _ _ _ C H2). reflexivity.
Qed.

(** The dictionary lives above the given addresses. *)
Definition above (no na : nat) (s : store) (d : pdict) : Prop :=
  forall k o, In (k, o) d -> (no <= o)%nat /\ exists p, nth_error (st_objs s) o = Some p /\
    (forall l, sp_value p = PArr l \/ sp_uncer p = PArr l -> (na <= l < List.length (st_arrs s))%nat).

Theorem deepcopy_above s d d' s' : wf_dict s d -> deepcopy s d = (d', s') ->
  above (List.length (st_objs s)) (List.length (st_arrs s)) s' d'.
Proof.
  intros W E k o' Hin. destruct (deepcopy_spec _ _ _ _ W E) as (mo & ma & C & F).
  assert (exists o, mlookup o mo = Some o') as [o Ho].
  { clear - F Hin. induction F as [|e e' d d' [H1 H2] F IH]; [destruct Hin|]. destruct Hin as [->|Hin]; [eauto|auto]. }
  destruct (cp_obj _ _ _ _ C _ _ Ho) as (H1 & p & p' & H2 & H3 & H4 & H5 & _). split; [lia|]. exists p'. split; [exact H3|].
  intros l [Hl|Hl]; rewrite Hl in *.
  - destruct (sp_value p); cbn in H4; try contradiction. destruct (cp_arr _ _ _ _ C _ _ H4). lia.
  - destruct (sp_uncer p); cbn in H5; try contradiction. destruct (cp_arr _ _ _ _ C _ _ H5). lia.
Qed.

Lemma above_wf no na s d : above no na s d -> wf_dict s d.
Proof.
  intros H k o Hin. destruct (H k o Hin) as (_ & p & Hp & Hl). exists p. split; [exact Hp|].
  split; unfold wf_val; [destruct (sp_value p) eqn:Ev|destruct (sp_uncer p) eqn:Ev]; auto; apply Hl; auto.
Qed.

Theorem deepcopy_extends s d d' s' : wf_dict s d -> deepcopy s d = (d', s') -> extends s s'.
Proof. intros W E. destruct (deepcopy_spec _ _ _ _ W E) as (mo & ma & C & F). apply C. Qed.

(** A dictionary is read in the same way in a larger store. *)
Lemma entry_extends s s' d k : wf_dict s d -> extends s s' -> entry s' d k = entry s d k.
Proof.
  intros W X. unfold entry. destruct (assoc k d) as [o|] eqn:Ea; [|reflexivity].
  destruct (W k o (assoc_In _ _ _ Ea)) as (p & Hp & W1 & W2). rewrite (extends_obj _ _ _ _ X Hp), Hp.
  assert (HC : forall v, wf_val s v -> content s' v = content s v).
  { intros [?|?|l] Hv; cbn in *; auto. rewrite (extends_arr _ _ _ X); auto. }
  rewrite !HC by auto. reflexivity.
Qed.

End Copy.
