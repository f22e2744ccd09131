(** Claim C97: pressures of an extended profile. *)

From Coq Require Import ZArith Reals Lra Lia String List Bool Psatz.
Import ListNotations.
From Verif Require Import Arith PyBase Utils Spec ListAux RealAux SolverGen SolverRun PropsUtils PropsLiq Weighting WeightingGen PropsWeighting PropsChannels PropsWfGrid Extrapolation ExpQ PropsExtrap PropsItu PropsItuSeason.
Local Open Scope R_scope.

Lemma default_in x : In x default_heights -> (exists i, (i <= 25)%nat /\ x = INR i) \/ (exists i, (i <= 9)%nat /\ x = 27.5 + INR i * 2.5) \/ (exists i, (i <= 9)%nat /\ x = 55 + INR i * 5).
Proof.
  intros H. unfold default_heights in H. apply in_app_or in H. destruct H as [H|H]; [|apply in_app_or in H; destruct H as [H|H]];
    apply in_map_iff in H; destruct H as (i & <- & Hi); apply in_seq in Hi; [left|right; left|right; right]; exists i; split; auto; lia.
Qed.
Lemma INR_gap i j : INR i < INR j -> INR i + 1 <= INR j.
Proof. intros H. apply INR_lt in H. assert (Q : (S i <= j)%nat) by lia. apply le_INR in Q. rewrite S_INR in Q. lra. Qed.
Lemma INR25 : INR 25 = 25. Proof. rewrite INR_IZR_INZ. reflexivity. Qed.
Lemma INR9 : INR 9 = 9. Proof. rewrite INR_IZR_INZ. reflexivity. Qed.
Lemma INR6 : INR 6 = 6. Proof. rewrite INR_IZR_INZ. reflexivity. Qed.
Lemma INR7 : INR 7 = 7. Proof. rewrite INR_IZR_INZ. reflexivity. Qed.
Lemma INR8 : INR 8 = 8. Proof. rewrite INR_IZR_INZ. reflexivity. Qed.

Ltac inr_bounds := repeat match goal with H : (?i <= 25)%nat |- _ => apply le_INR in H; rewrite INR25 in H | H : (?i <= 9)%nat |- _ => apply le_INR in H; rewrite INR9 in H end.

Lemma default_apart x y : In x default_heights -> In y default_heights -> x < y -> x + 1 <= y.
Proof.
  intros Hx Hy L. apply default_in in Hx, Hy. destruct Hx as [(i & Hi & ->)|[(i & Hi & ->)|(i & Hi & ->)]], Hy as [(j & Hj & ->)|[(j & Hj & ->)|(j & Hj & ->)]];
    assert (Pi := pos_INR i); assert (Pj := pos_INR j); inr_bounds; try lra; (assert (Q := INR_gap i j ltac:(lra)); lra).
Qed.
Lemma default_range x : In x default_heights -> 0 <= x <= 85 \/ 90 <= x <= 100.
Proof.
  intros H. apply default_in in H. destruct H as [(i & Hi & ->)|[(i & Hi & ->)|(i & Hi & ->)]]; assert (P := pos_INR i); inr_bounds; try lra.
  destruct (Rle_dec (INR i) 6) as [L|L]; [lra|]. assert (Q := INR_gap 6 i ltac:(rewrite INR6; lra)). rewrite INR6 in Q. lra.
Qed.
Lemma default_near50 x : In x default_heights -> 46.8 < x < 50.001 -> x = 47.5 \/ x = 50.
Proof.
  intros H B. apply default_in in H. destruct H as [(i & Hi & ->)|[(i & Hi & ->)|(i & Hi & ->)]]; assert (P := pos_INR i); inr_bounds; try lra.
  assert (Q := INR_gap 7 i ltac:(rewrite INR7; lra)). rewrite INR7 in Q. destruct (Rle_dec (INR i) 8) as [L|L]; [left; lra|].
  assert (Q2 := INR_gap 8 i ltac:(rewrite INR8; lra)). rewrite INR8 in Q2. right. lra.
Qed.
Lemma default_72 x y : In x default_heights -> In y default_heights -> x <= 72 < y -> x + 1 <= y.
Proof. intros. apply default_apart; auto. lra. Qed.

Lemma range_covered x : 0 <= x <= 85 \/ 90 <= x <= 100 -> covered x.
Proof.
  intros H. split; [lra|]. destruct H as [H|H]; [left|right; lra]. apply Rle_trans with (G 85.9999); [apply G_le; lra|apply G_859999].
Qed.

Lemma ref_p_pos lat month x : 0 <= x <= 100 -> 0 < ref_p lat month x.
Proof.
  intros H. unfold ref_p. destruct (String.eqb _ "standard").
  - destruct (Rle_dec (G x) 84.852) as [L|L].
    + rewrite std_pressure_R by (split; auto). apply exp_pos.
    + destruct (Rlt_dec x 86); [rewrite std_pressure_gap by (try lra; auto); apply tiny62|]. rewrite std_pressure_R by (split; [auto|right; lra]). apply exp_pos.
  - destruct (Req_dec x 0) as [->|].
    + assert (Q := C96_pressure_falls lat (get_season (A:=RA) lat month) 0 1 ltac:(lra) ltac:(lra) ltac:(right; right; intros ?; lra)). lra.
    + apply (C96_pressure_falls lat _ 0 x); [lra|lra|]. right. right. intros ?. lra.
Qed.

(** Two heights that are a metre apart, or between 47.4 and 50 km. *)
Lemma ref_p_falls lat month x y : 0 <= x -> covered x -> covered y -> x + 0.001 <= y \/ 47.4 <= x < y /\ y <= 50 -> ref_p lat month y < ref_p lat month x.
Proof.
  intros H0 Cx Cy H. unfold ref_p. assert (By : y <= 100) by apply Cy. destruct (String.eqb _ "standard").
  - destruct H as [H|H]; [apply C70_pressure_decreases; auto|]. apply C70_pressure_in_layer; auto; [lra|].
    intros s Hs Q. assert (G1 := G_le 47.4 x ltac:(lra)). assert (G2 := G_le y 50 ltac:(lra)).
    assert (G3 : 47.001 <= G 47.4) by (unfold G; lra). assert (G4 : G 50 <= 50) by (apply G_self; lra).
    cbn [seams In] in Hs. destruct Hs as [<-|[<-|[<-|[<-|[<-|[<-|[<-|[]]]]]]]]; lra.
  - apply (C96_pressure_falls lat _ x y); [lra|auto|]. right. right. intros Q. lra.
Qed.

(** The added levels. *)
Lemma added_levels (m : R) (n : nat) (ext : list R) : 0 <= m < 50 -> (forall k, (k < n)%nat -> m + 3.2 + INR k * 3.2 < 50) -> 50 <= m + 3.2 + INR n * 3.2 ->
  ext = (added m n ++ filter (fun x => Rltb (last (added m n) m) x) default_heights)%list ->
  (forall x, In x ext -> covered x) /\ (forall x y, In x ext -> In y ext -> x < y -> x + 0.001 <= y \/ 47.4 <= x < y /\ y <= 50).
Proof.
  intros Hm B1 B2 ->. set (ml := last (added m n) m). assert (LL := last_lt m n ltac:(lra) B1). fold ml in LL.
  assert (FF : forall x, In x (filter (fun x => Rltb ml x) default_heights) -> ml < x /\ In x default_heights).
  { intros x Hx. apply filter_In in Hx. destruct Hx as [H1 H2]. unfold Rltb in H2. destruct (Rlt_dec ml x); [auto|discriminate]. }
  assert (AA : forall x, In x (added m n) -> m < x < 50 /\ (x = ml \/ x + 3.2 <= ml) /\ 46.8 <= ml).
  { intros x Hx. split; [apply added_lt with n; auto; lra|]. destruct n as [|n]; [destruct Hx|].
    assert (EL : ml = m + 3.2 + INR n * 3.2) by (unfold ml, added; rewrite seq_S, map_app; cbn [map Nat.add]; rewrite last_last; reflexivity).
    unfold added in Hx. apply in_map_iff in Hx. destruct Hx as (k & <- & Hk). apply in_seq in Hk. rewrite S_INR in B2. split; [|lra].
    destruct (Nat.eq_dec k n) as [->|]; [left; lra|]. right. assert (Q : (S k <= n)%nat) by lia. apply le_INR in Q. rewrite S_INR in Q. lra. }
  split.
  - intros x Hx. apply in_app_or in Hx. destruct Hx as [Hx|Hx].
    + apply AA in Hx. apply range_covered. lra.
    + apply FF in Hx. apply range_covered, default_range, Hx.
  - intros x y Hx Hy L. apply in_app_or in Hx, Hy. destruct Hx as [Hx|Hx], Hy as [Hy|Hy].
    + left. unfold added in Hx, Hy. apply in_map_iff in Hx, Hy. destruct Hx as (i & <- & _), Hy as (j & <- & _). assert (Q := INR_gap i j ltac:(lra)). lra.
    + destruct (AA x Hx) as (A1 & A2 & A3). destruct (FF y Hy) as (F1 & F2). destruct (Rle_dec (x + 0.001) y); [left; auto|].
      assert (x = ml) by (destruct A2; [auto|lra]). destruct (default_near50 y F2 ltac:(lra)); right; lra.
    + apply FF in Hx. apply added_last in Hy. fold ml in Hy. lra.
    + apply FF in Hx, Hy. left. assert (Q := default_apart x y (proj2 Hx) (proj2 Hy) L). lra.
Qed.

(** The pressures a fresh object adds are positive and fall strictly from level to level. *)
Theorem C97_added_fall (o o' : pex RA) (lat : R) (month : Z) (z p t rh h pres temp hum : list R) i : ex_init (A:=RA) "ITU-Annex1" = Ok o ->
  z <> [] -> growing z -> 0 <= last z 0 < 50 -> length p = length z -> length t = length z -> length rh = length z ->
  profile_extrapolation o lat month z p t rh = (o', Ok (h, pres, temp, hum)) -> (length z <= i)%nat -> (S i < length h)%nat ->
  0 < nth (S i) pres 0 < nth i pres 0.
Proof.
  intros Eo Hne Gz H50 Lp Lt Lr E0 Hi1 Hi2. destruct (growing_max z Hne Gz) as [M1 M2]. assert (Ro : reachable o) by (apply reach_init; auto).
  destruct (C66_one_call o lat month z p t rh _ M1 M2 (proj2 H50) Lp Lt Lr) as (n & ext & pe & te & we & Ee & B & B2 & E & ER & L1 & L2 & L3 & HX). cbv zeta in E.
  assert (Gd : good (z ++ ext)) by (rewrite Ee; apply good_next; auto; [apply reachable_good; auto|apply growing_sorted; auto|lra]).
  assert (ER' := reference_map lat month ext). change (car RA) with R in *. rewrite ER in ER'. apply ok_inj in ER'. injection ER' as -> -> ->.
  rewrite E in E0. injection E0 as <- <- <- <- <-. rewrite (init_heights o Eo) in Ee.
  destruct (added_levels (last z 0) n ext H50 B B2 Ee) as [C D].
  rewrite app_length in Hi2. rewrite !app_nth2 by lia. rewrite Lp.
  assert (Hk : (S i - length z < length ext)%nat) by lia. assert (Hk' : (i - length z < length ext)%nat) by lia.
  assert (N1 := nth_map_d (ref_p lat month) ext _ 0 0 Hk). assert (N2 := nth_map_d (ref_p lat month) ext _ 0 0 Hk'). change (car RA) with R in *. rewrite N1, N2. clear N1 N2.
  set (x := nth (i - length z) ext 0). set (y := nth (S i - length z) ext 0).
  assert (Hx : In x ext) by (apply nth_In; auto). assert (Hy : In y ext) by (apply nth_In; auto).
  assert (L : x < y).
  { destruct Gd as (S & _). apply growing_sorted in S. specialize (S i ltac:(rewrite app_length; lia)). rewrite !app_nth2 in S by lia. exact S. }
  split; [apply ref_p_pos; apply (C y Hy)|]. apply ref_p_falls; auto. apply (C x Hx).
Qed.

(** Across the seam nothing is guaranteed: when the topmost measured pressure is not above the reference pressure at the first added height, pressure does not fall there. *)
Theorem C97_refuted (o o' : pex RA) (lat : R) (month : Z) (z p t rh h pres temp hum : list R) : reachable o ->
  z <> [] -> growing z -> 0 <= last z 0 < 50 -> length p = length z -> length t = length z -> length rh = length z ->
  profile_extrapolation o lat month z p t rh = (o', Ok (h, pres, temp, hum)) -> last p 0 <= ref_p lat month (nth (length z) h 0) ->
  nth (length z - 1) pres 0 <= nth (length z) pres 0.
Proof.
  intros Ro Hne Gz H50 Lp Lt Lr E Hp. destruct (C95_percent o lat month z p t rh Ro Hne Gz H50 Lp Lt Lr) as (o2 & ext & E2 & He & HB).
  change (car RA) with R in *. rewrite E in E2. injection E2 as <- -> -> -> ->.
  assert (Lz : (0 < length z)%nat) by (destruct z; [congruence|cbn; lia]).
  rewrite (app_nth1 p) by lia. rewrite (app_nth2 p) by lia. rewrite app_nth2 in Hp by lia. rewrite Lp. rewrite Nat.sub_diag in *.
  destruct ext as [|x l]; [congruence|]. cbn [map nth] in *.
  assert (EL : last p 0 = nth (length z - 1) p 0).
  { rewrite <- Lp. clear. induction p as [|a p IH]; [reflexivity|]. destruct p as [|b p]; [reflexivity|]. cbn [last length Nat.sub nth] in *. rewrite IH. rewrite ?Nat.sub_0_r. reflexivity. }
  rewrite <- EL. exact Hp.
Qed.

(** A profile with 1000 hPa at the ground and 150 hPa at 10 km (a falling one) is such a profile. *)
Example C97_example : exists o o' h pres temp hum, ex_init (A:=RA) "ITU-Annex1" = Ok o /\
  profile_extrapolation o 0 1 [0; 10] [1000; 150] [290; 230] [0; 0] = (o', Ok (h, pres, temp, hum)) /\ nth 1 pres 0 <= nth 2 pres 0.
Proof.
  destruct (ex_init (A:=RA) "ITU-Annex1") as [o|] eqn:Eo; [|discriminate].
  assert (G10 : growing [0; 10]) by (intros [|i] Hi; cbn in *; [lra|lia]).
  assert (M10 : In 10 [0; 10] /\ forall x, In x [0; 10] -> x <= 10) by (split; [cbn; auto|intros x [<-|[<-|[]]]; lra]).
  destruct (C66_one_call o 0 1 [0; 10] [1000; 150] [290; 230] [0; 0] 10 (proj1 M10) (proj2 M10) ltac:(lra) eq_refl eq_refl eq_refl) as (n & e & p & t & w & Ee & B & C & E & _).
  cbv zeta in E. do 6 eexists. split; [reflexivity|]. split; [exact E|].
  apply (C97_refuted o _ 0 1 [0; 10] [1000; 150] [290; 230] [0; 0] _ _ _ _ (reach_init o Eo) ltac:(discriminate) G10 ltac:(cbn; lra) eq_refl eq_refl eq_refl E).
  cbn [last length app nth]. destruct n as [|n]; [cbn in C; lra|]. rewrite Ee. cbn [added seq map app nth].
  unfold ref_p, get_season. ra. rewrite (Rltb_false (20 / 1) 0), (Rltb_false 0 (- (20 / 1))) by lra. cbn [andb orb String.eqb Ascii.eqb Bool.eqb].
  replace (10 + 3.2 + INR 0 * 3.2) with 13.2 by (cbn; lra).
  rewrite std_pressure_R by (apply range_covered; lra). 
  assert (GG : G 13.2 <= 13.2) by (apply G_self; lra). assert (GL : 13 <= G 13.2) by (unfold G; lra).
  rewrite lnP_low by lra. unfold L7. repeat destruct (Rle_dec _ _); try lra. unfold f2. apply Rle_trans with (exp (ln 226.3226 - 36 / 100)).
  - unfold Rminus. rewrite exp_plus, exp_ln by lra. assert (Q := exp_ge (-36) 100 69 100 ltac:(vm_compute; reflexivity)). replace (- (36 / 100)) with (-36 / 100) by lra. lra.
  - apply exp_le. unfold kg. lra.
Qed.
