(** Claims C44-C47: the solver object, its constructor and its setters. *)

From Coq Require Import ZArith Reals Lra Lia String List Bool.
Import ListNotations.
From Verif Require Import Arith PyBase Utils RTE Absorption Clear Spectrum ListAux RealAux SolverGen SolverRun Registry.
Open Scope R_scope.

(** ** C44: the constructor's order check *)

(** Adjacent heights differ. *)
Definition no_repeat (zs : list R) : Prop := forall i, (S i < length zs)%nat -> nth i zs 0 <> nth (S i) zs 0.
Definition increasing (zs : list R) : Prop := forall i, (S i < length zs)%nat -> nth i zs 0 < nth (S i) zs 0.
Definition decreasing (zs : list R) : Prop := forall i, (S i < length zs)%nat -> nth (S i) zs 0 < nth i zs 0.

Lemma diffs_X (zs : list R) : diffs (A:=XA) (map Fin zs) = map Fin (diffs (A:=RA) zs).
Proof.
  induction zs as [|x [|y zs] IH]; [reflexivity|reflexivity|].
  change (diffs (A:=XA) (map Fin (x :: y :: zs))) with (Fin (y - x) :: diffs (A:=XA) (map Fin (y :: zs))).
  rewrite IH. reflexivity.
Qed.

Lemma truthy_X (zs : list R) : all_truthy (A:=XA) (diffs (A:=XA) (map Fin zs)) = true <-> no_repeat zs.
Proof.
  induction zs as [|x [|y zs] IH].
  - split; [intros _ i Hi; simpl in Hi; lia|reflexivity].
  - split; [intros _ i Hi; simpl in Hi; lia|reflexivity].
  - change (diffs (A:=XA) (map Fin (x :: y :: zs))) with (Fin (y - x) :: diffs (A:=XA) (map Fin (y :: zs))).
    change (all_truthy (A:=XA) (Fin (y - x) :: diffs (A:=XA) (map Fin (y :: zs))))
      with (negb (eqb (a:=XA) (Fin (y - x)) (Fin (0 / 1))) && all_truthy (A:=XA) (diffs (A:=XA) (map Fin (y :: zs))))%bool.
    rewrite andb_true_iff, IH. cbn [eqb XA xeqb]. rewrite negb_true_iff.
    assert (E : Reqb (y - x) (0 / 1) = false <-> x <> y).
    { destruct (Reqb_spec (y - x) (0 / 1)) as [H|H]; split; intros; try congruence; try lra. }
    rewrite E. split.
    + intros [H1 H2] [|i] Hi; simpl; auto. apply (H2 i). simpl in *. lia.
    + intros H. split; [apply (H 0%nat); simpl; lia|]. intros i Hi. apply (H (S i)). simpl in *. lia.
Qed.

Section Ctor.
Variables (h : heap XA) (z p t rh : addr) (frq angles : list ext) (o3n : option addr) (amu : option (amu_over XA))
          (ray sat cl : bool).
Let ctor (m : string) := tb_init (A:=XA) h z p t rh frq angles o3n amu m ray sat cl.

(** What the constructor really does: it accepts every profile without two equal adjacent heights, keeps
    the caller's arrays (never reversed) and exits otherwise. *)
Theorem C44_exact (zs : list R) : hget h z = map Fin zs -> zs <> [] ->
  (no_repeat zs -> exists o, snd (ctor "") = Ok o /\ o_z o = z /\ o_p o = p /\ o_tk o = t /\ o_rh o = rh /\
      hget (fst (ctor "")) z = map Fin (map (fun x => x - nth 0 zs 0) zs)) /\
  (~ no_repeat zs -> ctor "" = (h, Err SystemExit)).
Proof.
  intros Hz Hne. split; intros H; unfold ctor, tb_init; rewrite Hz.
  - rewrite (proj2 (truthy_X zs) H). unfold bool_gt0. rewrite Hz. destruct zs as [|z0 zs]; [congruence|].
    cbn [map]. cbn [halloc]. cbn [String.eqb]. eexists. split; [reflexivity|]. repeat split.
    cbn [fst]. rewrite hget_set_eq.
    + assert (Hv : (z < length h)%nat) by (apply hget_valid; rewrite Hz; discriminate).
      rewrite hget_app_old by auto. rewrite Hz. cbn [map nth]. f_equal. rewrite !map_map. reflexivity.
    + rewrite app_length. assert (Hv : (z < length h)%nat) by (apply hget_valid; rewrite Hz; discriminate). lia.
  - destruct (all_truthy (A:=XA) (diffs (A:=XA) (map Fin zs))) eqn:E; [apply truthy_X in E; contradiction|reflexivity].
Qed.

(** The documented behaviour is not what happens: strictly decreasing profiles are accepted as they are, so
    the object's heights run downwards from 0. *)
Theorem C44_profile_order_refuted (zs : list R) : hget h z = map Fin zs -> (2 <= length zs)%nat -> decreasing zs ->
  exists o, snd (ctor "") = Ok o /\ o_z o = z /\
    exists zs', hget (fst (ctor "")) z = map Fin zs' /\ length zs' = length zs /\ decreasing zs' /\ nth 0 zs' 0 = 0 /\
                (forall i, (0 < i < length zs')%nat -> nth i zs' 0 < 0).
Proof.
  intros Hz Hl Hd. destruct (C44_exact zs Hz) as [H _]; [destruct zs; [simpl in Hl; lia|discriminate]|].
  destruct H as (o & Ho & Hoz & _ & _ & _ & Hh).
  { intros i Hi E. assert (H := Hd i Hi). lra. }
  exists o. split; [exact Ho|split; [exact Hoz|]].
  exists (map (fun x => x - nth 0 zs 0) zs). split; [exact Hh|]. split; [apply map_length|].
  assert (Hn : forall i, (i < length zs)%nat -> nth i (map (fun x => x - nth 0 zs 0) zs) 0 = nth i zs 0 - nth 0 zs 0).
  { intros i Hi. apply (nth_map_d (fun x => x - nth 0 zs 0)); auto. }
  assert (Hdec : forall i, (i < length zs)%nat -> (0 < i)%nat -> nth i zs 0 < nth 0 zs 0).
  { induction i as [|[|i] IH]; intros H1 H2; [lia|apply (Hd 0%nat); lia|].
    apply Rlt_trans with (nth (S i) zs 0); [apply Hd; lia|apply IH; lia]. }
  split; [|split].
  - intros i Hi. rewrite map_length in Hi. rewrite !Hn by lia. assert (H := Hd i Hi). lra.
  - rewrite Hn by lia. lra.
  - intros i [H1 H2]. rewrite map_length in H2. rewrite Hn by lia. assert (H := Hdec i H2 H1). lra.
Qed.

(** ** C45 *)
(** Constructing a solver overwrites the caller's height array, and the same call repeated on the same
    arrays builds a solver with another antenna height. *)
Theorem C45_inputs_mutated_refuted (zs : list R) : hget h z = map Fin zs -> zs <> [] -> no_repeat zs -> nth 0 zs 0 <> 0 ->
  exists o1 o2, snd (ctor "") = Ok o1 /\
    hget (fst (ctor "")) z <> hget h z /\
    snd (tb_init (A:=XA) (fst (ctor "")) z p t rh frq angles o3n amu "" ray sat cl) = Ok o2 /\
    o_z0 o1 = Fin (nth 0 zs 0) /\ o_z0 o2 = Fin 0 /\ o_z0 o1 <> o_z0 o2.
Proof.
  intros Hz Hne Hd H0. destruct (C44_exact zs Hz Hne) as [H _]. destruct (H Hd) as (o1 & Ho1 & _ & _ & _ & _ & Hh).
  set (h' := fst (ctor "")) in *.
  assert (Hz0 : o_z0 o1 = Fin (nth 0 zs 0)).
  { unfold ctor, tb_init in Ho1. rewrite Hz in Ho1. rewrite (proj2 (truthy_X zs) Hd) in Ho1. unfold bool_gt0 in Ho1.
    rewrite Hz in Ho1. destruct zs as [|z0 zs]; [congruence|]. cbn [map halloc String.eqb] in Ho1. inversion Ho1. reflexivity. }
  assert (Hd' : no_repeat (map (fun x => x - nth 0 zs 0) zs)).
  { intros i Hi. rewrite map_length in Hi. rewrite !(nth_map_d (fun x => x - nth 0 zs 0) zs _ 0) by lia.
    assert (E := Hd i Hi). intros E2. apply E. lra. }
  exists o1.
  assert (HS : exists o2, snd (tb_init (A:=XA) h' z p t rh frq angles o3n amu "" ray sat cl) = Ok o2 /\ o_z0 o2 = Fin 0).
  { unfold tb_init. rewrite Hh. rewrite (proj2 (truthy_X _) Hd'). unfold bool_gt0. rewrite Hh.
    destruct zs as [|z0 zs]; [congruence|]. cbn [map halloc String.eqb]. eexists. split; [reflexivity|]. cbn. f_equal. lra. }
  destruct HS as (o2 & Ho2 & Hz2). exists o2. split; [exact Ho1|]. split.
  - rewrite Hh, Hz. intros E. destruct zs as [|z0 zs]; [congruence|]. cbn in E. inversion E. cbn in H0. lra.
  - split; [exact Ho2|]. split; [exact Hz0|]. split; [exact Hz2|]. rewrite Hz0, Hz2. intros E. inversion E. contradiction.
Qed.

End Ctor.

(** Every other array of the caller is left alone (for every arithmetic). *)
Theorem C45_other_arrays_unchanged (A : Arith) (h : heap A) z p t rh frq angles o3n amu m ray sat cl a :
  a <> z -> (a < length h)%nat -> hget (fst (tb_init h z p t rh frq angles o3n amu m ray sat cl)) a = hget h a.
Proof.
  intros Ha Hl. unfold tb_init. destruct (bool_gt0 _); [|reflexivity].
  destruct (hget h z); [reflexivity|]. cbn [halloc].
  assert (E : hget (hset (h ++ [repeat (lit 1.0) (length frq)]) z
                (map (fun x => sub x c) (hget (h ++ [repeat (lit 1.0) (length frq)]) z))) a = hget h a).
  { rewrite hget_set_ne by auto. apply (hget_alloc_old h (repeat (lit 1.0) (length frq)) a Hl). }
  destruct (String.eqb m ""); exact E.
Qed.

Definition ex_heap : heap XA := [map Fin [2; 3; 5]; map Fin [900; 800; 600]; map Fin [290; 285; 270]; map Fin [0.5; 0.5; 0.2]; map Fin [5; 3; 2]].
Example C44_example_increasing :
  exists o, snd (tb_init (A:=XA) ex_heap 0%nat 1%nat 2%nat 3%nat [] [] None None "" false true false) = Ok o /\ o_z o = 0%nat.
Proof.
  destruct (C44_exact ex_heap 0%nat 1%nat 2%nat 3%nat [] [] None None false true false [2; 3; 5] eq_refl ltac:(discriminate)) as [H _].
  destruct H as (o & H1 & H2 & _); [|eauto]. intros [|[|i]] Hi; simpl in *; try lra; lia.
Qed.
Example C44_example_decreasing :
  exists o zs', snd (tb_init (A:=XA) ex_heap 4%nat 1%nat 2%nat 3%nat [] [] None None "" false true false) = Ok o /\
    hget (fst (tb_init (A:=XA) ex_heap 4%nat 1%nat 2%nat 3%nat [] [] None None "" false true false)) 4%nat = map Fin zs' /\ nth 1 zs' 0 < 0.
Proof.
  destruct (C44_profile_order_refuted ex_heap 4%nat 1%nat 2%nat 3%nat [] [] None None false true false [5; 3; 2] eq_refl ltac:(simpl; lia))
    as (o & H1 & _ & zs' & H2 & L & _ & _ & H3).
  { intros [|[|i]] Hi; simpl in *; try lra; lia. }
  exists o, zs'. split; [exact H1|split; [exact H2|]]. apply H3. split; [lia|]. rewrite L. simpl. lia.
Qed.
Example C45_example : exists o1 o2,
  let c := tb_init (A:=XA) ex_heap 0%nat 1%nat 2%nat 3%nat [] [] None None "" false true false in
  snd c = Ok o1 /\ snd (tb_init (A:=XA) (fst c) 0%nat 1%nat 2%nat 3%nat [] [] None None "" false true false) = Ok o2 /\ o_z0 o1 = Fin 2 /\ o_z0 o2 = Fin 0.
Proof.
  destruct (C45_inputs_mutated_refuted ex_heap 0%nat 1%nat 2%nat 3%nat [] [] None None false true false [2; 3; 5] eq_refl ltac:(discriminate))
    as (o1 & o2 & H1 & _ & H2 & H3 & H4 & _).
  { intros [|[|i]] Hi; simpl in *; try lra; lia. }
  { simpl. lra. }
  exists o1, o2. cbv zeta. auto.
Qed.

(** ** C46 *)
Theorem C46_satellite (A : Arith) (o : tbobj A) (v : pyval A) :
  (forall b, v = VBool b -> exists o', set_satellite o v = Ok o' /\ o_sat o' = b /\
      (* nothing else a run reads has changed *)
      (forall h, inputs_of h o' = inputs_of h o) /\ o_frq o' = o_frq o /\ o_angles o' = o_angles o /\ olds_of o' = olds_of o) /\
  ((forall b, v <> VBool b) -> set_satellite o v = Err ValueError).
Proof.
  split.
  - intros b ->. eexists. split; [reflexivity|]. cbn. auto 10.
  - intros H. destruct v; try reflexivity. exfalso. apply (H b). reflexivity.
Qed.

Theorem C46_emissivity (A : Arith) (h : heap A) (o : tbobj A) (v : pyval A) :
  (forall x, v = VFloat x -> exists o', snd (set_emissivity h o v) = Ok o' /\
      hget (fst (set_emissivity h o v)) (o_es o') = repeat x (length (o_frq o))) /\
  (* an array is kept by reference, not copied: a later write to it by the caller is seen by the solver *)
  (forall a, v = VArr a -> exists o', set_emissivity h o v = (h, Ok o') /\
      forall new, (a < length h)%nat -> i_es (inputs_of (hset h a new) o') = new) /\
  ((forall x, v <> VFloat x) -> (forall a, v <> VArr a) -> set_emissivity h o v = (h, Err ValueError)).
Proof.
  split; [|split].
  - intros x ->. eexists. split; [reflexivity|]. cbn [set_emissivity halloc fst with_es o_es].
    apply (hget_alloc_new h).
  - intros a ->. eexists. split; [reflexivity|]. intros new Ha. cbn. apply hget_set_eq; auto.
  - intros H1 H2. destruct v; try reflexivity; exfalso; [eapply H1|eapply H2]; reflexivity.
Qed.
(** A successful emissivity call changes only the emissivities of a well-formed object. *)
Theorem C46_emissivity_frame (A : Arith) (h : heap A) (o : tbobj A) (v : pyval A) o' : wf h o ->
  snd (set_emissivity h o v) = Ok o' ->
  inputs_of (fst (set_emissivity h o v)) o' =
    set_es (inputs_of h o) (hget (fst (set_emissivity h o v)) (o_es o')) /\
  o_frq o' = o_frq o /\ o_angles o' = o_angles o /\ o_sat o' = o_sat o /\ olds_of o' = olds_of o.
Proof.
  intros W H. destruct v as [b|x|n|a|]; try discriminate.
  - cbn [set_emissivity halloc snd fst] in *. inversion H; subst o'. clear H.
    assert (HV : forall a, length (hget h a) = o_nl o -> hget (h ++ [repeat x (length (o_frq o))]) a = hget h a).
    { intros a Ha. apply (hget_alloc_old h (repeat x (length (o_frq o))) a). apply hget_valid.
      intros E. rewrite E in Ha. apply (wf_nl _ _ W). auto. }
    split; [|auto]. unfold inputs_of, set_es. cbn [o_z o_p o_tk o_rh o_o3n o_es o_z0 o_nl o_ray o_cloudy o_ice o_unc o_amu o_levels o_dens with_es
      i_z i_p i_tk i_rh i_o3n i_es i_z0 i_nl i_ray i_cloudy i_ice i_amu i_levels i_dens].
    rewrite !HV by (apply W). f_equal.
    + destruct (o_o3n o) as [a|] eqn:E; [|reflexivity]. cbn. rewrite HV by (apply (wf_o3n _ _ W); auto). reflexivity.
    + destruct (o_dens o) as [[a b]|] eqn:E; [|reflexivity]. destruct (wf_dens _ _ W a b E). cbn. rewrite !HV by auto. reflexivity.
  - cbn in H. inversion H; subst. cbn. auto.
Qed.
Example C46_example (A : Arith) (h : heap A) (o : tbobj A) :
  set_satellite o (VInt 1) = Err ValueError /\ snd (set_emissivity h o (VInt 1)) = Err ValueError /\
  set_satellite o (VBool true) <> Err ValueError.
Proof. repeat split. discriminate. Qed.

(** ** C47 *)
Theorem C47_constructor_model_refuted (A : Arith) (h : heap A) z p t rh frq angles o3n amu m ray sat cl :
  m <> ""%string ->
  forall o, snd (tb_init h z p t rh frq angles o3n amu m ray sat cl) <> Ok o.
Proof.
  intros Hm o. unfold tb_init. destruct (bool_gt0 _); [|discriminate]. destruct (hget h z); [discriminate|].
  cbn [halloc]. destruct (String.eqb_spec m ""); [contradiction|]. discriminate.
Qed.
(** In particular a valid profile raises AttributeError, after the heights were already overwritten. *)
Theorem C47_attribute_error (h : heap XA) z p t rh frq angles o3n amu m ray sat cl zs :
  m <> ""%string -> hget h z = map Fin zs -> zs <> [] -> no_repeat zs ->
  snd (tb_init (A:=XA) h z p t rh frq angles o3n amu m ray sat cl) = Err AttributeError /\
  hget (fst (tb_init (A:=XA) h z p t rh frq angles o3n amu m ray sat cl)) z = map Fin (map (fun x => x - nth 0 zs 0) zs).
Proof.
  intros Hm Hz Hne Hd. destruct (C44_exact h z p t rh frq angles o3n amu ray sat cl zs Hz Hne) as [H _].
  destruct (H Hd) as (o & Ho & _ & _ & _ & _ & Hh). revert Ho Hh. unfold tb_init.
  rewrite Hz. rewrite (proj2 (truthy_X zs) Hd). unfold bool_gt0. rewrite Hz. destruct zs as [|z0 zs]; [congruence|].
  cbn [map halloc String.eqb]. intros _ Hh.
  destruct (String.eqb_spec m ""); [contradiction|]. cbn [fst snd] in *. auto.
Qed.
Example C47_example : snd (tb_init (A:=XA) ex_heap 0%nat 1%nat 2%nat 3%nat [] [] None None "R98" false true false) = Err AttributeError.
Proof.
  apply (C47_attribute_error ex_heap 0%nat 1%nat 2%nat 3%nat [] [] None None "R98" false true false [2; 3; 5]); try discriminate; auto.
  intros [|[|i]] Hi; simpl in *; try lra; lia.
Qed.
