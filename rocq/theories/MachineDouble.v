(** A machine that meets the description of Machine.v: 53-bit significands, rounding to nearest even (the
    significand of Python's float, with an unbounded exponent). *)

From Coq Require Import ZArith Reals Lra Lia List Bool.
From Flocq Require Import Core Relative.
From Verif Require Import Arith Machine.
Open Scope R_scope.

Definition rne : R -> R := round radix2 (FLX_exp 53) ZnearestE.
Definition double53 : machine :=
  mkMachine (/ 2 ^ 52) rne (fun x => rne (exp x)) (fun x => rne (ln x)).

Lemma rne_rel x : Rabs (rne x - x) <= / 2 ^ 52 * Rabs x.
Proof.
  unfold rne. destruct (Req_dec x 0) as [->|Hx].
  { rewrite round_0 by (apply valid_rnd_N). rewrite Rminus_0_r, Rabs_R0. lra. }
  assert (H := relative_error_N_FLX radix2 53 (eq_refl Lt) (fun z => negb (Z.even z)) x).
  eapply Rle_trans; [exact H|]. apply Rmult_le_compat_r; [apply Rabs_pos|].
  change (bpow radix2 (- (53) + 1)) with (/ IZR (2 ^ 52)).
  rewrite (pow_IZR 2 52). change (IZR (2 ^ Z.of_nat 52)) with (IZR (2 ^ 52)).
  assert (0 < / IZR (2 ^ 52)) by (apply Rinv_0_lt_compat, IZR_lt; reflexivity). lra.
Qed.

Lemma rne_1 : rne 1 = 1.
Proof.
  unfold rne. apply round_generic; [apply valid_rnd_N|]. apply generic_format_FLX.
  exists (Float radix2 1 0); [unfold F2R; simpl; lra|reflexivity].
Qed.

Lemma double53_ok : machine_ok double53.
Proof.
  split; cbn [m_u m_rnd m_exp m_ln double53].
  - split; [|]; simpl; lra.
  - apply rne_rel.
  - apply rne_1.
  - intros x. assert (H := rne_rel (exp x)). rewrite (Rabs_pos_eq (exp x)) in H by (left; apply exp_pos). exact H.
  - intros x Hx. rewrite <- rne_1. apply round_le; [apply FLX_exp_valid; reflexivity|apply valid_rnd_N|].
    rewrite <- exp_0. destruct Hx as [Hx| ->]; [left; apply exp_increasing; auto|lra].
  - intros x _. apply rne_rel.
Qed.

