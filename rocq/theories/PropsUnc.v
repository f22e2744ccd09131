(** Claim C60: [parameters_perturbation]. *)

From Coq Require Import ZArith List Bool String PeanoNat Lia.
Import ListNotations.
From Verif Require Import Arith PyBase Utils Absorption Clear Spectrum ListAux SolverGen PropsHistory Uncertainty PropsCopy.
Local Open Scope string_scope.

Section Unc.
Context {A : Arith}.
Notation num := (car A).
Notation store := (store A).

(** ** Specification *)

(** Does the index argument select position [k] of an array of [n] elements? *)
Definition selects (idx : option Z) (n k : nat) : Prop :=
  match idx with
  | None => (k < n)%nat
  | Some i => Z.of_nat k = (if i <? 0 then i + Z.of_nat n else i)%Z
  end.

(** [w] is the value [v] moved by the uncertainty [u], where [op] is addition or subtraction of numbers. *)
Definition moved (op : num -> num -> num) (idx : option Z) (v u w : pcon A) : Prop :=
  match v, u, w with
  | CFloat x, CFloat y, CFloat z => z = op x y
  | CFloat x, CInt y, CFloat z => z = op x (of_int y)
  | CInt x, CFloat y, CFloat z => z = op (of_int x) y
  | CFloat x, CArr ys, CArr zs => List.length zs = List.length ys /\
      forall k y, nth_error ys k = Some y -> nth_error zs k = Some (op x y)
  | CArr xs, CFloat y, CArr zs => List.length zs = List.length xs /\
      forall k x, nth_error xs k = Some x -> nth_error zs k = Some (op x y)
  | CArr xs, CArr ys, CArr zs => List.length zs = List.length xs /\
      forall k x y, nth_error xs k = Some x -> nth_error ys k = Some y ->
        (selects idx (List.length xs) k -> nth_error zs k = Some (op x y)) /\
        (~ selects idx (List.length xs) k -> nth_error zs k = Some x)
  | _, _, _ => False
  end.

(** The shapes of value and uncertainty agree and the index lies in the array. *)
Definition perturbable (idx : option Z) (v u : pcon A) : Prop :=
  match v, u with
  | CFloat _, _ | _, CFloat _ => True
  | CArr xs, CArr ys => List.length xs = List.length ys /\
      match idx with None => True | Some i => (- Z.of_nat (List.length xs) <= i < Z.of_nat (List.length xs))%Z end
  | _, _ => False
  end.

(** No other name leads to the object of [n] or, when [n] is modified in place, to its array. *)
Definition private (s : store) (d : pdict) (n : string) : Prop :=
  forall o p, assoc n d = Some o -> nth_error (st_objs s) o = Some p ->
    (forall k, k <> n -> assoc k d <> Some o) /\
    forall l l', sp_value p = PArr l -> sp_uncer p = PArr l' -> l <> l' /\
      forall k o' p', k <> n -> assoc k d = Some o' -> nth_error (st_objs s) o' = Some p' ->
        sp_value p' <> PArr l /\ sp_uncer p' <> PArr l.

(** ** One step *)

Lemma py_pos_selects n i : (- Z.of_nat n <= i < Z.of_nat n)%Z ->
  exists k, py_pos n i = Some k /\ (k < n)%nat /\ forall k', selects (Some i) n k' <-> k' = k.
Proof.
  intros H. unfold py_pos, selects. destruct (Z.ltb_spec i 0) as [Hi|Hi].
  - exists (Z.to_nat (Z.of_nat n + i)). replace (0 <=? i)%Z with false by (symmetry; apply Z.leb_gt; lia).
    replace (- Z.of_nat n <=? i)%Z with true by (symmetry; apply Z.leb_le; lia). cbn. split; [reflexivity|]. split; [lia|]. intros k'. lia.
  - exists (Z.to_nat i). replace (0 <=? i)%Z with true by (symmetry; apply Z.leb_le; lia).
    replace (i <? Z.of_nat n)%Z with true by (symmetry; apply Z.ltb_lt; lia). cbn. split; [reflexivity|]. split; [lia|]. intros k'. lia.
Qed.

Lemma nth_error_combine {X Y} (a : list X) : forall (b : list Y) k x y, nth_error a k = Some x -> nth_error b k = Some y ->
  nth_error (combine a b) k = Some (x, y).
Proof. induction a as [|a0 a IH]; intros [|b0 b] [|k] x y; cbn; try discriminate; [congruence|apply IH]. Qed.

Lemma bump_at_ok md idx xs ys : perturbable idx (CArr xs) (CArr ys) ->
  exists zs, bump_at md idx xs ys = Ok zs /\ moved (bump md) idx (CArr xs) (CArr ys) (CArr zs).
Proof.
  intros [HL Hi]. unfold bump_at. destruct idx as [i|].
  - destruct (py_pos_selects _ _ Hi) as (k & Hk & Hlt & Hs). unfold py_get, py_set. rewrite <- HL, Hk.
    destruct (nth_error xs k) as [x|] eqn:Ex; [|apply nth_error_None in Ex; lia].
    destruct (nth_error ys k) as [y|] eqn:Ey; [|apply nth_error_None in Ey; lia]. cbn.
    eexists; split; [reflexivity|]. cbn. rewrite length_upd. split; [reflexivity|]. intros k' x' y' Hx Hy. split; intros HS.
    + apply (proj1 (Hs k')) in HS. subst k'. erewrite nth_error_upd_eq by eauto. congruence.
    + assert (k' <> k) by (intros ->; apply HS, Hs; reflexivity). rewrite nth_error_upd_ne by auto. exact Hx.
  - rewrite HL, Nat.eqb_refl. eexists; split; [reflexivity|]. cbn. rewrite map_length, combine_length. split; [lia|].
    intros k x y Hx Hy. split; [intros _|].
    + rewrite nth_error_map, (nth_error_combine _ _ _ _ _ Hx Hy). reflexivity.
    + intros HN. exfalso. apply HN. apply nth_error_Some. congruence.
Qed.

Lemma nth_error_nth_d {T} (l : list T) i d : (i < List.length l)%nat -> nth_error l i = Some (nth i l d).
Proof. intros H. apply nth_error_nth'. exact H. Qed.

(** Effect of the loop body on one object, whatever is shared. *)
Lemma perturb_entry_ok md idx s o p : nth_error (st_objs s) o = Some p ->
  wf_val s (sp_value p) -> wf_val s (sp_uncer p) ->
  perturbable idx (content s (sp_value p)) (content s (sp_uncer p)) ->
  exists s', perturb_entry md idx s o = Ok s' /\
    ((exists v', st_objs s' = upd (st_objs s) o (mkSP v' (sp_uncer p) (sp_text p)) /\
       extends (mkStore [] (st_arrs s)) (mkStore [] (st_arrs s')) /\ wf_val s' v' /\
       (forall l, v' = PArr l -> (List.length (st_arrs s) <= l)%nat) /\
       moved (bump md) idx (content s (sp_value p)) (content s (sp_uncer p)) (content s' v') /\
       ~ (exists l l', sp_value p = PArr l /\ sp_uncer p = PArr l')) \/
     (exists l l' a, sp_value p = PArr l /\ sp_uncer p = PArr l' /\ st_objs s' = st_objs s /\ st_arrs s' = upd (st_arrs s) l a /\
        moved (bump md) idx (content s (sp_value p)) (content s (sp_uncer p)) (CArr a))).
Proof.
  intros Hp W1 W2 HP. unfold perturb_entry. rewrite Hp.
  destruct (sp_value p) as [x|x|l] eqn:Ev, (sp_uncer p) as [y|y|l'] eqn:Eu; cbn [content perturbable] in HP; try contradiction; cbn [bump_whole bind fst snd new_arr].
  - eexists; split; [reflexivity|]. left. exists (PFloat (bump md x y)). unfold set_value. rewrite Hp, Eu. cbn.
    repeat split; auto; try discriminate; try (exists []; rewrite ?app_nil_r; reflexivity). intros (l & l' & H & _); discriminate.
  - eexists; split; [reflexivity|]. left. eexists. unfold set_value. rewrite Hp, Eu. cbn.
    split; [reflexivity|]. repeat split; auto; try discriminate; try (exists []; rewrite ?app_nil_r; reflexivity). intros (l & l' & H & _); discriminate.
  - eexists; split; [reflexivity|]. left. eexists. unfold set_value. cbn. rewrite Hp, Eu. cbn.
    split; [reflexivity|]. split; [split; [exists []; reflexivity|eexists; reflexivity]|]. cbn. rewrite app_length. cbn. split; [lia|].
    split; [intros ? [= <-]; lia|]. rewrite app_nth2, Nat.sub_diag by lia. cbn. rewrite map_length. split; [|intros (a & b & H & _); discriminate].
    split; [reflexivity|]. intros k z Hz. rewrite nth_error_map, Hz. reflexivity.
  - eexists; split; [reflexivity|]. left. eexists. unfold set_value. rewrite Hp, Eu. cbn.
    split; [reflexivity|]. repeat split; auto; try discriminate; try (exists []; rewrite ?app_nil_r; reflexivity). intros (l & l' & H & _); discriminate.
  - eexists; split; [reflexivity|]. left. eexists. unfold set_value. cbn. rewrite Hp, Eu. cbn.
    split; [reflexivity|]. split; [split; [exists []; reflexivity|eexists; reflexivity]|]. cbn. rewrite app_length. cbn. split; [lia|].
    split; [intros ? [= <-]; lia|]. rewrite app_nth2, Nat.sub_diag by lia. cbn. rewrite map_length. split; [|intros (a & b & _ & H); discriminate].
    split; [reflexivity|]. intros k z Hz. rewrite nth_error_map, Hz. reflexivity.
  - destruct (bump_at_ok md idx _ _ HP) as (zs & -> & HM). cbn [bind]. eexists; split; [reflexivity|]. right.
    exists l, l', zs. split; [reflexivity|]. split; [reflexivity|]. split; [reflexivity|]. split; [reflexivity|exact HM].
Qed.

Lemma content_ext (s s' : store) (v : pval A) : extends (mkStore [] (st_arrs s)) (mkStore [] (st_arrs s')) -> wf_val s v -> content s' v = content s v.
Proof. intros [_ [ars H]] W. cbn in H. destruct v; cbn in *; auto. rewrite H, app_nth1; auto. Qed.

Lemma wf_ext (s s' : store) (v : pval A) : extends (mkStore [] (st_arrs s)) (mkStore [] (st_arrs s')) -> wf_val s v -> wf_val s' v.
Proof. intros [_ [ars H]] W. cbn in H. destruct v; cbn in *; auto. rewrite H, app_length. lia. Qed.

(** One step on a private name: that entry moves, the others stay, and the conditions are kept for the other names. *)
Lemma step_ok md idx s d n o : wf_dict s d -> assoc n d = Some o -> private s d n ->
  (forall v u, entry s d n = Some (v, u) -> perturbable idx v u) ->
  exists s', perturb_entry md idx s o = Ok s' /\ wf_dict s' d /\
    (exists v u w, entry s d n = Some (v, u) /\ entry s' d n = Some (w, u) /\ moved (bump md) idx v u w) /\
    (forall k, k <> n -> entry s' d k = entry s d k) /\
    (forall k, k <> n -> private s d k -> private s' d k).
Proof.
  intros W Ha HP Hper. destruct (W n o (assoc_In _ _ _ Ha)) as (p & Hp & W1 & W2). destruct (HP o p Ha Hp) as [HO HL].
  assert (En : entry s d n = Some (content s (sp_value p), content s (sp_uncer p))) by (unfold entry; rewrite Ha, Hp; reflexivity).
  destruct (perturb_entry_ok md idx s o p Hp W1 W2 (Hper _ _ En)) as (s' & E & [H|H]).
  - destruct H as (v' & Ho & X & Wv & Hf & HM & Hnot). exists s'. split; [exact E|].
    assert (Hoo : nth_error (st_objs s') o = Some (mkSP v' (sp_uncer p) (sp_text p))) by (rewrite Ho; eapply nth_error_upd_eq; eauto).
    assert (Hoe : forall o', o' <> o -> nth_error (st_objs s') o' = nth_error (st_objs s) o') by (intros; rewrite Ho; apply nth_error_upd_ne; auto).
    split; [|split; [|split]].
    + intros k o' Hin. destruct (Nat.eq_dec o' o) as [->|Hne].
      * eexists; split; [exact Hoo|]. cbn. split; [exact Wv|]. eapply wf_ext; eauto.
      * destruct (W k o' Hin) as (q & Hq & Q1 & Q2). exists q. rewrite Hoe by auto. split; [exact Hq|]. split; eapply wf_ext; eauto.
    + exists (content s (sp_value p)), (content s (sp_uncer p)), (content s' v'). split; [exact En|]. split; [|exact HM].
      unfold entry. rewrite Ha, Hoo. cbn [sp_value sp_uncer]. rewrite (content_ext s s' (sp_uncer p) X W2). reflexivity.
    + intros k Hk. unfold entry. destruct (assoc k d) as [o'|] eqn:Ek; [|reflexivity].
      assert (o' <> o) by (intros ->; apply (HO k Hk); exact Ek). rewrite Hoe by auto.
      destruct (W k o' (assoc_In _ _ _ Ek)) as (q & Hq & Q1 & Q2). rewrite Hq. rewrite (content_ext s s' _ X Q1), (content_ext s s' _ X Q2). reflexivity.
    + intros k Hk Pk ok pk Hak Hpk. assert (Hne : ok <> o) by (intros ->; apply (HO k Hk); exact Hak). rewrite Hoe in Hpk by auto.
      destruct (Pk ok pk Hak Hpk) as [P1 P2]. split; [exact P1|]. intros l l' Hl Hl'. destruct (P2 l l' Hl Hl') as [P3 P4]. split; [exact P3|].
      intros j oj pj Hj Haj Hpj. destruct (Nat.eq_dec oj o) as [->|Hnj].
      * rewrite Hoo in Hpj. injection Hpj as <-. cbn. destruct (P4 j o p Hj Haj Hp) as [_ P5]. split; [|exact P5].
        intros Hv. specialize (Hf _ Hv). destruct (W k ok (assoc_In _ _ _ Hak)) as (q & Hq & Q1 & _). rewrite Hpk in Hq. injection Hq as <-.
        rewrite Hl in Q1. cbn in Q1. lia.
      * rewrite Hoe in Hpj by auto. eapply P4; eauto.
  - destruct H as (l & l' & a & Ev & Eu & Ho & Har & HM). exists s'. split; [exact E|]. destruct (HL l l' Ev Eu) as [Hll HK].
    assert (Hlt : (l < List.length (st_arrs s))%nat) by (rewrite Ev in W1; exact W1).
    assert (Wk : forall v, wf_val s v -> wf_val s' v) by (intros [?|?|q]; cbn; auto; rewrite Har, length_upd; auto).
    assert (Ce : forall v, v <> PArr l -> content s' v = content s v).
    { intros [?|?|q] Hv; cbn; auto. rewrite Har, nth_upd_ne by congruence. reflexivity. }
    split; [|split; [|split]].
    + intros k o' Hin. destruct (W k o' Hin) as (q & Hq & Q1 & Q2). exists q. rewrite Ho. auto.
    + exists (content s (sp_value p)), (content s (sp_uncer p)), (CArr a). split; [exact En|]. split; [|exact HM].
      unfold entry. rewrite Ha, Ho, Hp. rewrite (Ce (sp_uncer p)) by (rewrite Eu; congruence). rewrite Ev. cbn. rewrite Har, nth_upd_eq by auto. reflexivity.
    + intros k Hk. unfold entry. rewrite Ho. destruct (assoc k d) as [o'|] eqn:Ek; [|reflexivity].
      destruct (nth_error (st_objs s) o') as [q|] eqn:Hq; [|reflexivity]. destruct (HK k o' q Hk Ek Hq) as [K1 K2]. rewrite !Ce by auto. reflexivity.
    + intros k Hk Pk ok pk Hak Hpk. rewrite Ho in Hpk. destruct (Pk ok pk Hak Hpk) as [P1 P2]. split; [exact P1|].
      intros q q' Hq Hq'. destruct (P2 q q' Hq Hq') as [P3 P4]. split; [exact P3|]. intros j oj pj Hj Haj Hpj. rewrite Ho in Hpj. eapply P4; eauto.
Qed.

Lemma mode_step mode md idx d (s : store) n o : (mode = "max" /\ md = PMax) \/ (mode = "min" /\ md = PMin) -> assoc n d = Some o ->
  perturb_step mode idx d s n = perturb_entry md idx s o.
Proof. intros [[-> ->]|[-> ->]] Ha; unfold perturb_step; rewrite Ha; reflexivity. Qed.

Lemma entry_known (s : store) d n : entry s d n <> None -> exists o, assoc n d = Some o.
Proof. unfold entry. destruct (assoc n d); eauto. congruence. Qed.

Lemma loop_ok mode md idx d : (mode = "max" /\ md = PMax) \/ (mode = "min" /\ md = PMin) ->
  forall names (s : store), wf_dict s d -> NoDup names ->
  (forall n, In n names -> private s d n) ->
  (forall n, In n names -> exists v u, entry s d n = Some (v, u) /\ perturbable idx v u) ->
  exists s', perturb_loop mode idx d s names = Ok s' /\
    (forall n, In n names -> exists v u w, entry s d n = Some (v, u) /\ entry s' d n = Some (w, u) /\ moved (bump md) idx v u w) /\
    (forall k, ~ In k names -> entry s' d k = entry s d k).
Proof.
  intros Hm. induction names as [|n names IH]; intros s W ND HP HE.
  - exists s. split; [reflexivity|]. split; [intros ? []|auto].
  - inversion ND as [|? ? Hn ND']; subst. cbn [perturb_loop].
    destruct (HE n (or_introl eq_refl)) as (v0 & u0 & En & Pn).
    destruct (entry_known s d n) as [o Ha]; [congruence|]. rewrite (mode_step mode md idx d s n o Hm Ha).
    destruct (step_ok md idx s d n o W Ha (HP n (or_introl eq_refl))) as (s1 & E1 & W1 & M1 & F1 & P1).
    { intros v u Evu. rewrite En in Evu. injection Evu as <- <-. exact Pn. }
    rewrite E1. cbn [bind].
    destruct (IH s1 W1 ND') as (s2 & E2 & M2 & F2).
    { intros k Hk. apply P1; [intros ->; auto|apply HP; right; auto]. }
    { intros k Hk. rewrite F1 by (intros ->; auto). apply HE. right; auto. }
    exists s2. split; [exact E2|]. split.
    + intros k [<-|Hk].
      * rewrite F2 by auto. exact M1.
      * destruct (M2 k Hk) as (v & u & w & H1 & H2 & H3). rewrite F1 in H1 by (intros ->; auto). eauto 8.
    + intros k Hk. rewrite F2 by (intros H; apply Hk; right; auto). apply F1. intros ->. apply Hk. left; auto.
Qed.

(** Privacy survives a deep copy. *)
Lemma private_copied s d d' s' n : wf_dict s d -> deepcopy s d = (d', s') -> private s d n -> private s' d' n.
Proof.
  intros W E P. destruct (deepcopy_spec _ _ _ _ W E) as (mo & ma & C & F). intros o' p' Ha' Hp'.
  assert (K : forall k o', assoc k d' = Some o' -> exists o p q, assoc k d = Some o /\ mlookup o mo = Some o' /\ nth_error (st_objs s) o = Some p /\
             nth_error (st_objs s') o' = Some q /\ copy_of ma (sp_value p) (sp_value q) /\ copy_of ma (sp_uncer p) (sp_uncer q)).
  { intros k x Hx. pose proof (copied_assoc mo d d' k F) as HA. rewrite Hx in HA. destruct (assoc k d) as [o|] eqn:Eo; [|contradiction].
    destruct (cp_obj _ _ _ _ C _ _ HA) as (_ & p & q & H1 & H2 & H3 & H4 & _). eauto 10. }
  assert (V : forall (v v' : pval A) l, copy_of ma v v' -> v' = PArr l -> exists l0, v = PArr l0 /\ mlookup l0 ma = Some l).
  { intros v v' l HC ->. destruct v; cbn in HC; try contradiction. eauto. }
  destruct (K n o' Ha') as (o & p & q & Ha & Hm & Hp & Hq & Cv & Cu). rewrite Hp' in Hq. injection Hq as <-.
  destruct (P o p Ha Hp) as [P1 P2]. split.
  - intros k Hk Hx. destruct (K k o' Hx) as (o2 & p2 & q2 & Ha2 & Hm2 & _). rewrite (cp_obj_inj _ _ _ _ C _ _ _ Hm2 Hm) in Ha2. exact (P1 k Hk Ha2).
  - intros l l' Hl Hl'. destruct (V _ _ _ Cv Hl) as (l0 & E0 & M0). destruct (V _ _ _ Cu Hl') as (l0' & E0' & M0').
    destruct (P2 l0 l0' E0 E0') as [P3 P4]. split.
    { intros ->. apply P3. eapply cp_arr_inj; eauto. }
    intros k ok pk Hk Hak Hpk. destruct (K k ok Hak) as (o2 & p2 & q2 & Ha2 & Hm2 & Hp2 & Hq2 & Cv2 & Cu2). rewrite Hpk in Hq2. injection Hq2 as <-.
    destruct (P4 k o2 p2 Hk Ha2 Hp2) as [P5 P6]. split; intros Hx.
    + destruct (V _ _ _ Cv2 Hx) as (m0 & Em & Mm). apply P5. rewrite Em. f_equal. eapply cp_arr_inj; eauto.
    + destruct (V _ _ _ Cu2 Hx) as (m0 & Em & Mm). apply P6. rewrite Em. f_equal. eapply cp_arr_inj; eauto.
Qed.

(** ** The theorems *)

Definition chosen (what : list string) (d : pdict) : list string := match what with [] => map fst d | _ => what end.

(** Claim C60: with private, well-shaped entries, exactly the selected elements of the chosen entries move by their
    uncertainty and every other entry is as in the stored dictionary. *)
Theorem C60_exact : forall s d what mode op idx,
  (mode = "max" /\ op = add) \/ (mode = "min" /\ op = sub) ->
  wf_dict s d -> NoDup (chosen what d) ->
  (forall n, In n (chosen what d) -> private s d n) ->
  (forall n, In n (chosen what d) -> exists v u, entry s d n = Some (v, u) /\ perturbable idx v u) ->
  exists d' (s' : store), parameters_perturbation (Some d) what mode idx s = Ok (d', s') /\ map fst d' = map fst d /\
    (forall n, In n (chosen what d) -> exists v u w, entry s d n = Some (v, u) /\ entry s' d' n = Some (w, u) /\ moved op idx v u w) /\
    (forall k, ~ In k (chosen what d) -> entry s' d' k = entry s d k).
Proof.
  intros s d what mode op idx Hm W ND HP HE. unfold parameters_perturbation. destruct (deepcopy s d) as [d' s1] eqn:E.
  assert (Hmd : exists md, ((mode = "max" /\ md = PMax) \/ (mode = "min" /\ md = PMin)) /\ bump md = op).
  { destruct Hm as [[-> ->]|[-> ->]]; [exists PMax|exists PMin]; split; auto. }
  destruct Hmd as (md & Hmd & Hop). destruct (deepcopy_spec _ _ _ _ W E) as (mo & ma & C & F).
  pose proof (copied_keys _ _ _ F) as HK. pose proof (deepcopy_entries _ _ _ _ W E) as HEn.
  assert (Hn : (match what with [] => map fst d' | _ => what end) = chosen what d) by (unfold chosen; destruct what; auto). rewrite Hn.
  destruct (loop_ok mode md idx d' Hmd (chosen what d) s1) as (s2 & E2 & M & Fr).
  - eapply above_wf, deepcopy_above; eauto.
  - exact ND.
  - intros n Hin. eapply private_copied; eauto.
  - intros n Hin. rewrite HEn. auto.
  - rewrite E2. cbn [bind]. exists d', s2. split; [reflexivity|]. split; [exact HK|]. split.
    + intros n Hin. destruct (M n Hin) as (v & u & w & H1 & H2 & H3). rewrite HEn in H1. rewrite Hop in H3. eauto 8.
    + intros k Hk. rewrite Fr by auto. apply HEn.
Qed.

(** Frame of the loop, whatever is shared and whatever the shapes. *)
Definition same_below (no na : nat) (s s' : store) : Prop :=
  (forall i, (i < no)%nat -> nth_error (st_objs s') i = nth_error (st_objs s) i) /\
  (forall i, (i < na)%nat -> nth_error (st_arrs s') i = nth_error (st_arrs s) i).

Lemma entry_frame no na md idx s d k o s' : above no na s d -> (na <= List.length (st_arrs s))%nat -> In (k, o) d ->
  perturb_entry md idx s o = Ok s' ->
  same_below no na s s' /\ above no na s' d /\ (na <= List.length (st_arrs s'))%nat.
Proof.
  intros HA Hna Hin E. destruct (HA k o Hin) as (Ho & p & Hp & Hl). unfold perturb_entry in E. rewrite Hp in E.
  assert (G : forall v ars, s' = mkStore (upd (st_objs s) o (mkSP v (sp_uncer p) (sp_text p))) (st_arrs s ++ ars)%list ->
      (forall l, v = PArr l -> (na <= l < List.length (st_arrs s ++ ars))%nat) ->
      same_below no na s s' /\ above no na s' d /\ (na <= List.length (st_arrs s'))%nat).
  { intros v ars -> Hv. cbn. split; [|split].
    - split; cbn; intros i Hi; [apply nth_error_upd_ne; lia|apply nth_error_app1; lia].
    - intros k' o' Hin'. destruct (HA k' o' Hin') as (Ho' & q & Hq & Hq'). split; [exact Ho'|]. cbn. destruct (Nat.eq_dec o' o) as [->|Hne].
      + eexists. split; [eapply nth_error_upd_eq; eauto|]. cbn. intros l [H|H]; [auto|]. rewrite app_length. assert (na <= l < List.length (st_arrs s))%nat by auto. lia.
      + exists q. rewrite nth_error_upd_ne by auto. split; [exact Hq|]. intros l H. rewrite app_length. specialize (Hq' l H). lia.
    - rewrite app_length. lia. }
  destruct (sp_value p) as [x|x|l] eqn:Ev, (sp_uncer p) as [y|y|l'] eqn:Eu; cbn in E; try discriminate; unfold set_value in E; cbn in E; rewrite ?Hp in E.
  - injection E as <-. eapply (G (PFloat (bump md x y)) []); rewrite ?app_nil_r, ?Eu; try reflexivity; discriminate.
  - injection E as <-. eapply (G (PFloat (bump md x (of_int y))) []); rewrite ?app_nil_r, ?Eu; try reflexivity; discriminate.
  - injection E as <-. eapply G; rewrite ?Eu; [reflexivity|]. intros q [= <-]. rewrite app_length. cbn. lia.
  - injection E as <-. eapply (G (PFloat (bump md (of_int x) y)) []); rewrite ?app_nil_r, ?Eu; try reflexivity; discriminate.
  - injection E as <-. eapply G; rewrite ?Eu; [reflexivity|]. intros q [= <-]. rewrite app_length. cbn. lia.
  - destruct (bump_at md idx (nth l (st_arrs s) []) (nth l' (st_arrs s) [])) as [a|]; [|discriminate]. injection E as <-. unfold set_arr. cbn.
    split; [|split].
    + split; cbn; intros i Hi; [reflexivity|]. apply nth_error_upd_ne. specialize (Hl l (or_introl eq_refl)). lia.
    + intros k' o' Hin'. destruct (HA k' o' Hin') as (Ho' & q & Hq & Hq'). split; [exact Ho'|]. cbn. exists q. split; [exact Hq|]. intros. rewrite length_upd. auto.
    + rewrite length_upd. exact Hna.
Qed.

Lemma loop_frame no na mode idx d : forall names s s', above no na s d -> (na <= List.length (st_arrs s))%nat ->
  perturb_loop mode idx d s names = Ok s' -> same_below no na s s'.
Proof.
  induction names as [|n names IH]; intros s s' HA Hna E; cbn in E.
  - injection E as <-. split; auto.
  - destruct (perturb_step mode idx d s n) as [s1|] eqn:E1; [|discriminate]. cbn in E. unfold perturb_step in E1.
    destruct (assoc n d) as [o|] eqn:Ea; [|discriminate]. apply assoc_In in Ea.
    assert (G : same_below no na s s1 /\ above no na s1 d /\ (na <= List.length (st_arrs s1))%nat).
    { destruct (String.eqb mode "max"); [eapply entry_frame; eauto|]. destruct (String.eqb mode "min"); [eapply entry_frame; eauto|].
      destruct (String.eqb mode "non"); [injection E1 as <-; split; [split; auto|auto]|]. destruct (String.eqb mode "ran"); discriminate. }
    destruct G as ((G1 & G2) & G3 & G4). destruct (IH s1 s' G3 G4 E) as [H1 H2]. split; intros i Hi; [rewrite H1 by auto; auto|rewrite H2 by auto; auto].
Qed.

(** Claim C60: every call that returns leaves all objects and arrays that existed before it as they were; in particular the
    stored dictionary reads the same under every name. *)
Theorem C60_defaults_kept : forall s d what mode idx d' s', wf_dict s d ->
  parameters_perturbation (Some d) what mode idx s = Ok (d', s') ->
  same_below (List.length (st_objs s)) (List.length (st_arrs s)) s s' /\ (forall k, entry s' d k = entry s d k).
Proof.
  intros s d what mode idx d' s' W E. unfold parameters_perturbation in E. destruct (deepcopy s d) as [d1 s1] eqn:E1.
  set (names := match what with [] => map fst d1 | _ => what end) in E. destruct (perturb_loop mode idx d1 s1 names) as [s2|] eqn:E2; [|discriminate].
  injection E as <- <-. pose proof (deepcopy_extends _ _ _ _ W E1) as X. destruct (extends_len _ _ X) as [L1 L2].
  destruct (loop_frame _ _ _ _ _ _ _ _ (deepcopy_above _ _ _ _ W E1) L1 E2) as [F1 F2].
  assert (SB : same_below (List.length (st_objs s)) (List.length (st_arrs s)) s s2).
  { destruct X as [[os Xo] [ars Xa]]. split; intros i Hi.
    - rewrite F1 by auto. rewrite Xo. apply nth_error_app1. auto.
    - rewrite F2 by auto. rewrite Xa. apply nth_error_app1. auto. }
  split; [exact SB|]. intros k. unfold entry. destruct (assoc k d) as [o|] eqn:Ea; [|reflexivity].
  destruct (W k o (assoc_In _ _ _ Ea)) as (p & Hp & W1 & W2). destruct SB as [S1 S2].
  rewrite S1 by (apply nth_error_Some; congruence). rewrite Hp.
  assert (HC : forall v, wf_val s v -> content s2 v = content s v).
  { intros [?|?|l] Hv; cbn in *; auto. specialize (S2 l Hv). f_equal. rewrite (nth_error_nth_d (st_arrs s) l []) in S2 by auto.
    apply nth_error_nth with (d := []) in S2. exact S2. }
  rewrite !HC by auto. reflexivity.
Qed.

(** Claim C60: mode 'non' copies the dictionary. *)
Theorem C60_non : forall (s : store) d what idx, wf_dict s d -> (forall n, In n what -> In n (map fst d)) ->
  exists d' (s' : store), parameters_perturbation (Some d) what "non" idx s = Ok (d', s') /\ map fst d' = map fst d /\ forall k, entry s' d' k = entry s d k.
Proof.
  intros s d what idx W HI. unfold parameters_perturbation. destruct (deepcopy s d) as [d1 s1] eqn:E1.
  destruct (deepcopy_spec _ _ _ _ W E1) as (mo & ma & C & F). pose proof (copied_keys _ _ _ F) as HK.
  assert (HL : forall names, (forall n, In n names -> In n (map fst d1)) -> perturb_loop "non" idx d1 s1 names = Ok s1).
  { induction names as [|n names IH]; intros H; [reflexivity|]. cbn. unfold perturb_step.
    assert (exists o, assoc n d1 = Some o) as [o ->].
    { specialize (H n (or_introl eq_refl)). clear - H. induction d1 as [|[k o] d IH]; [destruct H|]. cbn. destruct (String.eqb_spec n k); eauto.
      destruct H as [H|H]; [cbn in H; congruence|auto]. }
    cbn. apply IH. intros m Hm. apply H. right; auto. }
  rewrite HL. 2:{ destruct what; [auto|rewrite HK; auto]. }
  cbn. exists d1, s1. split; [reflexivity|]. split; [exact HK|]. apply deepcopy_entries; auto.
Qed.

(** Claim C60: errors. *)
Lemma loop_unknown mode idx d : forall names (s : store), (exists n, In n names /\ assoc n d = None) -> exists e, perturb_loop mode idx d s names = Err e.
Proof.
  induction names as [|n names IH]; intros s (x & Hx & Ha); [destruct Hx|]. cbn. destruct (perturb_step mode idx d s n) as [s1|e] eqn:E; cbn; [|eauto].
  destruct Hx as [<-|Hx]; [unfold perturb_step in E; rewrite Ha in E; discriminate|]. apply IH. eauto.
Qed.

Lemma assoc_keys {T} n (d : list (string * T)) : ~ In n (map fst d) -> assoc n d = None.
Proof. induction d as [|[k v] d IH]; cbn; auto. intros H. destruct (String.eqb_spec n k) as [->|]; [exfalso; auto|auto]. Qed.

Theorem C60_unknown_name : forall (s : store) d what mode idx n, wf_dict s d -> In n what -> ~ In n (map fst d) ->
  exists e, parameters_perturbation (Some d) what mode idx s = Err e.
Proof.
  intros s d what mode idx n W Hin Hn. unfold parameters_perturbation. destruct (deepcopy s d) as [d1 s1] eqn:E1.
  destruct (deepcopy_spec _ _ _ _ W E1) as (mo & ma & C & F). pose proof (copied_keys _ _ _ F) as HK.
  assert (HU : exists x, In x (match what with [] => map fst d1 | _ => what end) /\ assoc x d1 = None).
  2:{ destruct (loop_unknown mode idx d1 _ s1 HU) as [e ->]. exists e. reflexivity. }
  exists n. split; [destruct what; [destruct Hin|exact Hin]|]. apply assoc_keys. rewrite HK. exact Hn.
Qed.

Theorem C60_unknown_mode : forall (s : store) d what mode idx n rest, wf_dict s d ->
  mode <> "max" -> mode <> "min" -> mode <> "non" -> chosen what d = n :: rest -> In n (map fst d) ->
  parameters_perturbation (Some d) what mode idx s = Err (if String.eqb mode "ran" then NotImplementedError else ValueError).
Proof.
  intros s d what mode idx n rest W M1 M2 M3 Hc Hn. unfold parameters_perturbation. destruct (deepcopy s d) as [d1 s1] eqn:E1.
  destruct (deepcopy_spec _ _ _ _ W E1) as (mo & ma & C & F). pose proof (copied_keys _ _ _ F) as HK.
  replace (match what with [] => map fst d1 | _ => what end) with (n :: rest) by (rewrite <- Hc; unfold chosen; destruct what; auto).
  cbn. unfold perturb_step. assert (exists o, assoc n d1 = Some o) as [o ->].
  { rewrite <- HK in Hn. clear - Hn. induction d1 as [|[k o] d IH]; [destruct Hn|]. cbn. destruct (String.eqb_spec n k); eauto.
    destruct Hn as [H|H]; [cbn in H; congruence|auto]. }
  apply String.eqb_neq in M1, M2, M3. rewrite M1, M2, M3. destruct (String.eqb mode "ran"); reflexivity.
Qed.

Theorem C60_unset : forall what mode idx (s : store), parameters_perturbation None what mode idx s = Err AttributeError.
Proof. reflexivity. Qed.

(** The mode is looked at only inside the loop: with an empty dictionary every mode is accepted. *)
Theorem C60_mode_check_refuted : forall mode idx (s : store), parameters_perturbation (Some []) [] mode idx s = Ok ([], s).
Proof. reflexivity. Qed.

(** An index outside the array raises. *)
Theorem C60_index_error : forall (s : store) d mode i n l l' o p, wf_dict s d -> mode = "max" \/ mode = "min" -> assoc n d = Some o ->
  nth_error (st_objs s) o = Some p -> sp_value p = PArr l -> sp_uncer p = PArr l' ->
  (i < - Z.of_nat (List.length (nth l (st_arrs s) [])) \/ Z.of_nat (List.length (nth l (st_arrs s) [])) <= i)%Z ->
  parameters_perturbation (Some d) [n] mode (Some i) s = Err IndexError.
Proof.
  intros s d mode i n l l' o p W Hm Ha Hp Hl Hl' Hi. unfold parameters_perturbation. destruct (deepcopy s d) as [d1 s1] eqn:E1.
  destruct (deepcopy_spec _ _ _ _ W E1) as (mo & ma & C & F). pose proof (copied_assoc mo d d1 n F) as HA. rewrite Ha in HA.
  destruct (assoc n d1) as [o1|] eqn:Ea1; [|contradiction]. destruct (cp_obj _ _ _ _ C _ _ HA) as (_ & q & q' & H1 & H2 & H3 & H4 & _).
  rewrite Hp in H1. injection H1 as <-. rewrite Hl in H3. rewrite Hl' in H4. destruct (sp_value q') as [| |m] eqn:Eq; cbn in H3; try contradiction.
  destruct (sp_uncer q') as [| |m'] eqn:Eq'; cbn in H4; try contradiction. destruct (cp_arr _ _ _ _ C _ _ H3) as (_ & _ & N).
  cbn. assert (G : forall md, perturb_entry md (Some i) s1 o1 = Err IndexError).
  { intros md. unfold perturb_entry. rewrite H2, Eq, Eq'. rewrite N. unfold bump_at, py_get, py_pos.
    replace ((0 <=? i)%Z && (i <? Z.of_nat (List.length (nth l (st_arrs s) [])))%Z) with false.
    2:{ symmetry. destruct (Z.leb_spec 0 i), (Z.ltb_spec i (Z.of_nat (List.length (nth l (st_arrs s) [])))); cbn; auto; lia. }
    replace ((- Z.of_nat (List.length (nth l (st_arrs s) [])) <=? i)%Z && (i <? 0)%Z) with false; [reflexivity|].
    symmetry. destruct (Z.leb_spec (- Z.of_nat (List.length (nth l (st_arrs s) []))) i), (Z.ltb_spec i 0); cbn; auto; lia. }
  destruct Hm as [-> | ->]; unfold perturb_step; rewrite Ea1; cbn [String.eqb Ascii.eqb Bool.eqb]; rewrite G; reflexivity.
Qed.

End Unc.
