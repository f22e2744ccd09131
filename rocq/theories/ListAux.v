(** Generic list lemmas. *)
From Coq Require Import List Lia Arith.
Import ListNotations.

Lemma nth_map_d {X Y} (f : X -> Y) (l : list X) i dx dy : i < length l -> nth i (map f l) dy = f (nth i l dx).
Proof. intros H. rewrite nth_indep with (d' := f dx) by (rewrite map_length; auto). apply map_nth. Qed.

Lemma nth_map2 {X Y Z} (f : X -> Y -> Z) (a : list X) (b : list Y) i dx dy dz :
  length a = length b -> i < length a ->
  nth i (map (fun '(u, v) => f u v) (combine a b)) dz = f (nth i a dx) (nth i b dy).
Proof.
  intros Hl Hi. rewrite (nth_map_d _ _ _ (dx, dy)) by (rewrite combine_length; lia).
  rewrite combine_nth by auto. reflexivity.
Qed.

Lemma nth_map_seq_d {Y} (f : nat -> Y) n i dy : i < n -> nth i (map f (seq 0 n)) dy = f i.
Proof. intros H. rewrite (nth_map_d f _ _ 0) by (rewrite seq_length; auto). rewrite seq_nth; auto. Qed.

Lemma list_eq_nth {X} (a b : list X) d : length a = length b -> (forall i, i < length a -> nth i a d = nth i b d) -> a = b.
Proof. intros. apply nth_ext with (d := d) (d' := d); auto. Qed.
