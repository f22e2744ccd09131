(** Claims C25, C26 and C85: refractivity and ray tracing. *)

From Coq Require Import ZArith Reals Lra Lia List Bool.
Import ListNotations.
From Verif Require Import Arith PyBase Utils RTE Spec RealAux Integral.
Open Scope R_scope.

(** ** C25 *)

Notation Xrefr p t e := (refractivity (A:=XA) (map Fin p) (map Fin t) (map Fin e)).

(** The published formula (Thayer) for dry and wet refractivity. *)
Definition thayer_dry (p t e : R) : R :=
  77.6036 * ((p - e) / t)
  * (1 + (p - e) * (5.79e-07 * (1 + 0.52 / t) - 0.00094611 * (t - 273.16) / (t * t))).
Definition thayer_wet (t e : R) : R :=
  (64.79 * (e / t) + 377600 * (e / (t * t)))
  * (1 + 1650 * (e / (t * (t * t)))
     * (1 - 0.01317 * (t - 273.16) + 0.000175 * ((t - 273.16) * (t - 273.16))
        + 1.44e-06 * ((t - 273.16) * (t - 273.16) * (t - 273.16)))).

Lemma refractivity1_X p t e : t <> 0 ->
  refractivity1 (A:=XA) (Fin p) (Fin t) (Fin e)
  = (Fin (thayer_dry p t e), Fin (thayer_wet t e), Fin (1 + (thayer_dry p t e + thayer_wet t e) * 1e-6)).
Proof.
  intros Ht. unfold refractivity1, thayer_dry, thayer_wet. xa.
  assert (Ht2 : t * t <> 0) by (apply Rmult_integral_contrapositive; auto).
  assert (Ht3 : t * (t * t) <> 0) by (apply Rmult_integral_contrapositive; auto).
  repeat rewrite xdiv_fin by auto. xa.
  repeat (match goal with |- context [xdiv (Fin ?a) (Fin ?b)] => rewrite (xdiv_fin a b) by auto end; xa).
  f_equal; [f_equal|]; f_equal; lra.
Qed.

Definition phys (p t e : R) : Prop := 160 <= t <= 350 /\ 0 <= e <= p /\ 0 < p <= 1100.

Lemma thayer_pos p t e : phys p t e -> 0 <= thayer_dry p t e /\ 0 <= thayer_wet t e /\
  0 < thayer_dry p t e + thayer_wet t e.
Proof.
  intros (Ht & He & Hp). unfold thayer_dry, thayer_wet.
  assert (It : 0 < / t) by (apply Rinv_0_lt_compat; lra).
  assert (It2 : / t <= / 160) by (apply Rinv_le_contravar; lra).
  assert (Q1 : 0 <= (t - 273.16 + 200) / (t * t) <= 0.02).
  { split; [apply Rmult_le_pos; [lra|]; left; apply Rinv_0_lt_compat; nra|].
    apply Rmult_le_reg_r with (t * t); [nra|]. unfold Rdiv. rewrite Rmult_assoc, Rinv_l by nra. nra. }
  assert (Q2 : 0 < 200 / (t * t)).
  { apply Rdiv_lt_0_compat; nra. }
  assert (Q : (t - 273.16) / (t * t) <= 0.001).
  { apply Rmult_le_reg_r with (t * t); [nra|]. unfold Rdiv. rewrite Rmult_assoc, Rinv_l by nra. nra. }
  assert (R1 : 0 < 1 + (p - e) * (5.79e-07 * (1 + 0.52 / t) - 0.00094611 * (t - 273.16) / (t * t))).
  { replace (0.00094611 * (t - 273.16) / (t * t)) with (0.00094611 * ((t - 273.16) / (t * t))) by (unfold Rdiv; ring).
    unfold Rdiv at 1. assert (0 <= 0.52 * / t) by nra.
    assert (Z : - 0.0000009462 <= 5.79e-07 * (1 + 0.52 * / t) - 0.00094611 * ((t - 273.16) / (t * t))) by nra. nra. }
  set (c := t - 273.16) in *.
  assert (Hc : -113.2 <= c <= 77) by (unfold c; lra).
  assert (P : 0 < 1 - 0.01317 * c + 0.000175 * (c * c) + 1.44e-06 * (c * c * c)).
  { destruct (Rle_lt_dec 0 c).
    - assert (0 <= c * c * c) by (apply Rmult_le_pos; nra). nra.
    - assert (0 <= c * c * (0.000175 + 1.44e-06 * c)) by (apply Rmult_le_pos; nra). nra. }
  assert (It3 : 0 < / (t * (t * t))) by (apply Rinv_0_lt_compat; nra).
  assert (It4 : 0 < / (t * t)) by (apply Rinv_0_lt_compat; nra).
  assert (R2 : 1 <= 1 + 1650 * (e / (t * (t * t))) * (1 - 0.01317 * c + 0.000175 * (c * c) + 1.44e-06 * (c * c * c))).
  { assert (0 <= 1650 * (e / (t * (t * t))) * (1 - 0.01317 * c + 0.000175 * (c * c) + 1.44e-06 * (c * c * c))).
    { apply Rmult_le_pos; [|lra]. apply Rmult_le_pos; [lra|]. apply Rmult_le_pos; lra. } lra. }
  assert (D1 : 0 <= 77.6036 * ((p - e) / t)) by (apply Rmult_le_pos; [lra|]; apply Rmult_le_pos; lra).
  assert (W1 : 0 <= 64.79 * (e / t) + 377600 * (e / (t * t))).
  { unfold Rdiv. assert (0 <= e * / t) by (apply Rmult_le_pos; lra).
    assert (0 <= e * / (t * t)) by (apply Rmult_le_pos; lra). lra. }
  split; [apply Rmult_le_pos; lra|]. split; [apply Rmult_le_pos; lra|].
  destruct (Rlt_le_dec e p).
  - assert (0 < 77.6036 * ((p - e) / t)) by (apply Rmult_lt_0_compat; [lra|]; apply Rdiv_lt_0_compat; lra).
    apply Rplus_lt_le_0_compat; [apply Rmult_lt_0_compat; lra|apply Rmult_le_pos; lra].
  - assert (0 < e) by lra.
    assert (0 < 64.79 * (e / t) + 377600 * (e / (t * t))).
    { unfold Rdiv. assert (0 < e * / t) by (apply Rmult_lt_0_compat; lra).
      assert (0 < e * / (t * t)) by (apply Rmult_lt_0_compat; lra). lra. }
    apply Rplus_le_lt_0_compat; [apply Rmult_le_pos; lra|apply Rmult_lt_0_compat; lra].
Qed.

Lemma combine3_nth (p t e : list R) i : length p = length t -> length t = length e -> (i < length p)%nat ->
  nth i (combine (map Fin p) (combine (map Fin t) (map Fin e))) (NaN, (NaN, NaN)) = (Fin (nth i p 0), (Fin (nth i t 0), Fin (nth i e 0))).
Proof.
  intros H1 H2 Hi. rewrite combine_nth by (rewrite combine_length, !map_length; lia).
  rewrite combine_nth by (rewrite !map_length; lia). rewrite !nth_map_fin by lia. reflexivity.
Qed.

Theorem C25_refractivity (p t e : list R) :
  length p = length t -> length t = length e ->
  (forall i, (i < length p)%nat -> phys (nth i p 0) (nth i t 0) (nth i e 0)) ->
  exists dry wet idx, Xrefr p t e = (map Fin dry, map Fin wet, map Fin idx) /\
    length dry = length p /\ length wet = length p /\ length idx = length p /\
    forall i, (i < length p)%nat ->
      nth i dry 0 = thayer_dry (nth i p 0) (nth i t 0) (nth i e 0) /\
      nth i wet 0 = thayer_wet (nth i t 0) (nth i e 0) /\
      nth i idx 0 = 1 + 1e-6 * (nth i dry 0 + nth i wet 0) /\
      (nth i e 0 = 0 -> nth i wet 0 = 0) /\
      0 <= nth i dry 0 /\ 0 <= nth i wet 0 /\ 1 < nth i idx 0.
Proof.
  intros H1 H2 Hph. set (n := length p) in *.
  set (D := fun i => thayer_dry (nth i p 0) (nth i t 0) (nth i e 0)).
  set (W := fun i => thayer_wet (nth i t 0) (nth i e 0)).
  exists (map D (seq 0 n)), (map W (seq 0 n)), (map (fun i => 1 + (D i + W i) * 1e-6) (seq 0 n)).
  split.
  - unfold refractivity.
    assert (E : map (fun '(a, (b, c)) => refractivity1 (A:=XA) a b c) (combine (map Fin p) (combine (map Fin t) (map Fin e)))
      = map (fun i => (Fin (D i), Fin (W i), Fin (1 + (D i + W i) * 1e-6))) (seq 0 n)).
    { set (F := fun '(a, (b, c)) => refractivity1 (A:=XA) a b c).
      set (G := fun i => (Fin (D i), Fin (W i), Fin (1 + (D i + W i) * 1e-6))).
      apply nth_ext with (d := F (NaN, (NaN, NaN))) (d' := G 0%nat).
      - rewrite !map_length, !combine_length, !map_length, seq_length. fold n. lia.
      - intros i Hi. rewrite map_length, !combine_length, !map_length in Hi. fold n in Hi.
        rewrite (map_nth F), (map_nth G).
        rewrite combine3_nth by (fold n; lia).
        rewrite seq_nth by lia. cbn [Nat.add]. apply refractivity1_X.
        destruct (Hph i ltac:(lia)) as (? & _). lra. }
    cbn zeta. etransitivity; [apply (f_equal (fun l => (map (fun x => fst (fst x)) l, map (fun x => snd (fst x)) l, map snd l)) E)|].
    rewrite !map_map. reflexivity.
  - rewrite !map_length, seq_length. repeat (split; [reflexivity|]). intros i Hi.
    assert (Hn : forall g : nat -> R, nth i (map g (seq 0 n)) 0 = g i).
    { intros g. rewrite nth_indep with (d' := g O) by (rewrite map_length, seq_length; auto).
      rewrite map_nth, seq_nth by auto. reflexivity. }
    rewrite !Hn. destruct (thayer_pos _ _ _ (Hph i Hi)) as (P1 & P2 & P3). fold (D i) (W i) in *.
    repeat split; auto; try lra.
    unfold W. intros ->. unfold thayer_wet, Rdiv. ring.
Qed.
Example C25_example : exists dry wet idx, Xrefr [1013; 500] [288; 255] [10; 0] = (map Fin dry, map Fin wet, map Fin idx) /\
  nth 1 wet 0 = 0 /\ 1 < nth 0 idx 0.
Proof.
  destruct (C25_refractivity [1013; 500] [288; 255] [10; 0]) as (d & w & x & H & _ & _ & _ & H2); auto.
  - intros i Hi. unfold phys. destruct i as [|[|i]]; simpl in *; try lra; lia.
  - exists d, w, x. split; [exact H|]. destruct (H2 0%nat ltac:(simpl; lia)) as (_ & _ & _ & _ & _ & _ & ?).
    destruct (H2 1%nat ltac:(simpl; lia)) as (_ & _ & _ & ? & _). auto.
Qed.

(** ** C26 *)

Notation Xray z n a z0 := (ray_tracing (A:=XA) (map Fin z) (map Fin n) (Fin a) (Fin z0)).

Theorem C26_index_below_one (z n : list R) (a z0 : R) :
  (exists x, In x n /\ x < 1) -> Xray z n a z0 = Ok None.
Proof.
  intros (x & Hx & Hlt). unfold ray_tracing.
  replace (existsb (fun n0 : car XA => ltb n0 (lit 1)) (map Fin n)) with true; [reflexivity|].
  symmetry. apply existsb_exists. exists (Fin x). split; [apply in_map; auto|].
  xa. cbn [xltb]. apply Rltb_true. lra.
Qed.

Lemma no_small (n : list R) : (forall x, In x n -> 1 <= x) ->
  existsb (fun n0 : car XA => ltb n0 (lit 1)) (map Fin n) = false.
Proof.
  intros H. induction n as [|x n IH]; [reflexivity|]. cbn [map existsb].
  rewrite IH by (intros; apply H; right; auto). rewrite orb_false_r. xa. cbn [xltb].
  apply Rltb_false. assert (1 <= x) by (apply H; left; auto). lra.
Qed.

Lemma diffs_X (z : list R) : diffs (A:=XA) (map Fin z) = map Fin (diffs (A:=RA) z).
Proof.
  destruct z as [|a z]; [reflexivity|]. revert a. induction z as [|b z IH]; intros a; [reflexivity|].
  cbn [map diffs]. f_equal. exact (IH b).
Qed.
Lemma diffs_nth (z : list R) i : (S i < length z)%nat -> nth i (diffs (A:=RA) z) 0 = nth (S i) z 0 - nth i z 0.
Proof.
  destruct z as [|a z]; [simpl; lia|]. revert a i. induction z as [|b z IH]; intros a i H; [simpl in H; lia|].
  destruct i; [reflexivity|]. change (nth (S i) (diffs (A:=RA) (a :: b :: z)) 0) with (nth i (diffs (A:=RA) (b :: z)) 0).
  rewrite IH by (simpl in *; lia). reflexivity.
Qed.
Lemma diffs_length (A : Arith) (z : list (car A)) : length (diffs z) = (length z - 1)%nat.
Proof.
  destruct z as [|a z]; [reflexivity|]. revert a. induction z as [|b z IH]; intros a; [reflexivity|].
  change (diffs (a :: b :: z)) with (sub b a :: diffs (b :: z)). cbn [length]. rewrite IH. simpl. lia.
Qed.

Definition near_zenith (a : R) : Prop := 89 <= a <= 91 \/ -91 <= a <= -89.

Lemma near_zenith_X (a : R) :
  ((leb (a:=XA) (lit 89) (Fin a) && leb (a:=XA) (Fin a) (lit 91))
   || (leb (a:=XA) (opp (lit 91)) (Fin a) && leb (a:=XA) (Fin a) (opp (lit 89))))%bool = true <-> near_zenith a.
Proof.
  assert (L : forall x y, xleb (Fin x) (Fin y) = true <-> x <= y).
  { intros x y. unfold xleb, xltb, xeqb. destruct (Rltb_spec x y), (Reqb_spec x y); cbn; split; intros; try discriminate; try lra; reflexivity. }
  xa. cbn [xopp]. rewrite orb_true_iff, !andb_true_iff, !L. unfold near_zenith. lra.
Qed.

Theorem C26_near_zenith (z n : list R) (a z0 : R) :
  (forall x, In x n -> 1 <= x) -> length n = length z -> z <> [] -> near_zenith a ->
  exists ds, Xray z n a z0 = Ok (Some (map Fin ds)) /\ length ds = length z /\ nth 0 ds 0 = 0 /\
    forall i, (1 <= i < length z)%nat -> nth i ds 0 = nth i z 0 - nth (i - 1) z 0.
Proof.
  intros Hn Hl Hne Ha. exists (0 :: diffs (A:=RA) z). unfold ray_tracing. rewrite no_small by auto.
  apply near_zenith_X in Ha.
  destruct z as [|zf z]; [congruence|]. destruct n as [|nf n]; [discriminate|].
  cbn [map combine]. change (Fin zf :: map Fin z) with (map Fin (zf :: z)). split.
  - match goal with |- context [if ?b then _ else _] => replace b with true by (symmetry; exact Ha) end.
    rewrite diffs_X. cbn [map]. do 4 f_equal. xa. f_equal. lra.
  - split; [change (S (length (diffs (A:=RA) (zf :: z))) = length (zf :: z)); rewrite diffs_length; simpl; lia|].
    split; [reflexivity|]. intros i Hi. destruct i; [lia|]. cbn [nth]. rewrite diffs_nth by lia.
    rewrite Nat.sub_succ, Nat.sub_0_r. reflexivity.
Qed.

(** Length of one path element. *)
Lemma sin_half_le x : 0 <= x -> Rabs (2 * sin (x * (1/2))) <= x.
Proof.
  intros [Hx|<-].
  - assert (Hy : 0 < x * (1/2)) by lra.
    assert (U := sin_lt_x _ Hy).
    assert (L : - (x * (1/2)) <= sin (x * (1/2))).
    { destruct (Rle_lt_dec (x * (1/2)) PI).
      - assert (0 <= sin (x * (1/2))) by (apply sin_ge_0; lra). lra.
      - assert (B := SIN_bound (x * (1/2))). assert (3 < PI) by (assert (Hp := PI2_3_2); unfold PI2 in Hp; lra). lra. }
    apply Rabs_le. lra.
  - rewrite Rmult_0_l, sin_0, Rmult_0_r, Rabs_R0. lra.
Qed.

Lemma xmul_inf_not_fin x w d : x = PInf \/ x = NInf -> xmul x w = Fin d -> False.
Proof.
  intros [-> | ->]; destruct w as [w| | |]; cbn [xmul]; try discriminate; unfold xsgn_inf.
  - destruct (Rlt_dec 0 w); [discriminate|]; destruct (Rlt_dec w 0); discriminate.
  - destruct (Rlt_dec 0 (- w)); [discriminate|]; destruct (Rlt_dec (- w) 0); discriminate.
Qed.

Lemma ray_len_bound (r rl dz : R) (sn dtau dta : ext) (d : R) : 0 <= r * rl ->
  (let d0 := sqrtf (a:=XA) (add (a:=XA) (mul (a:=XA) (Fin dz) (Fin dz)) (mul (a:=XA) (mul (a:=XA) (mul (a:=XA) (lit (a:=XA) 4.0) (Fin r)) (Fin rl)) (mul (a:=XA) sn sn))) in
   if negb (eqb (a:=XA) dtau (lit (a:=XA) 0.0))
   then mul (a:=XA) d0 (div (a:=XA) (absv (a:=XA) dta) (mul (a:=XA) (lit (a:=XA) 2.0) (sinf (a:=XA) (mul (a:=XA) (absv (a:=XA) dta) (lit (a:=XA) 0.5))))) else d0) = Fin d ->
  Rabs dz <= Rabs d.
Proof.
  intros Hr. cbn zeta. xa.
  assert (Hs : forall v, xsqrt (xadd (Fin (dz * dz)) (xmul (Fin (40 / 10 * r * rl)) (xmul sn sn))) = Fin v -> Rabs dz <= v).
  { intros v. destruct sn as [q| | |]; cbn [xmul xadd xsqrt].
    - destruct (Rle_dec _ _); [|discriminate]. intros E. inversion E. subst v.
      rewrite <- sqrt_Rsqr_abs. apply sqrt_le_1_alt. unfold Rsqr. assert (0 <= q * q) by nra.
      assert (0 <= r * rl * (q * q)) by (apply Rmult_le_pos; auto). lra.
    - unfold xsgn_inf. destruct (Rlt_dec 0 _); cbn [xadd]; [discriminate|]. destruct (Rlt_dec _ 0); cbn [xadd]; discriminate.
    - unfold xsgn_inf. destruct (Rlt_dec 0 _); cbn [xadd]; [discriminate|]. destruct (Rlt_dec _ 0); cbn [xadd]; discriminate.
    - discriminate. }
  destruct (negb (xeqb dtau (Fin (0 / 10)))).
  - match goal with |- context [xmul (xsqrt ?x) _] => destruct (xsqrt x) as [v| | |] eqn:Ev end.
    + assert (Hv := Hs v Ev). assert (V0 : 0 <= v) by (assert (0 <= Rabs dz) by apply Rabs_pos; lra).
      destruct dta as [x| | |]; cbn [xabs]; xa; try discriminate.
      2, 3: unfold xsgn_inf at 1; destruct (Rlt_dec 0 (5/10)); [cbn; intros; discriminate|lra].
      unfold xdiv. replace (20 / 10) with 2 by lra. replace (5 / 10) with (1/2) by lra.
      destruct (Req_EM_T (2 * sin (Rabs x * (1/2))) 0) as [E0|E0].
      * unfold xsgn_inf. destruct (Rlt_dec 0 (Rabs x)); [cbn [xmul]; unfold xsgn_inf;
          destruct (Rlt_dec 0 v); [discriminate|]; destruct (Rlt_dec v 0); discriminate|].
        destruct (Rlt_dec (Rabs x) 0); [cbn [xmul]; unfold xsgn_inf;
          destruct (Rlt_dec 0 (-v)); [discriminate|]; destruct (Rlt_dec (-v) 0); discriminate|]. discriminate.
      * intros E. inversion E as [Ed]. rewrite Rabs_mult. rewrite (Rabs_pos_eq v) by auto.
        assert (Hq : 1 <= Rabs (Rabs x / (2 * sin (Rabs x * (1/2))))).
        { assert (Hh := sin_half_le (Rabs x) (Rabs_pos x)). unfold Rdiv. rewrite Rabs_mult, Rabs_inv, Rabs_Rabsolu.
          apply Rmult_le_reg_r with (Rabs (2 * sin (Rabs x * (1/2)))); [apply Rabs_pos_lt; auto|].
          rewrite Rmult_assoc, Rinv_l by (apply Rabs_no_R0; auto). lra. }
        nra.
    + intros E. apply xmul_inf_not_fin in E; [contradiction|left; reflexivity].
    + intros E. apply xmul_inf_not_fin in E; [contradiction|right; reflexivity].
    + intros; discriminate.
  - intros E. assert (Hv := Hs d E). assert (0 <= Rabs dz) by apply Rabs_pos. rewrite (Rabs_pos_eq d); lra.
Qed.

Definition Re : R := 6370.949.

(** A ray starting with elevation [th] at radius [rs] cannot reach height [z] where the refractive
    index is [n] (spherical Snell law with the factor (1 + z/rs)). *)
Definition trapped (rs n0 th n z : R) : Prop := n * (1 + z / rs) <= n0 * cos th.

Definition rc_X (zf n0 a z0 : R) : ray_const (A:=XA) :=
  ray_const_of (A:=XA) (Fin zf) (Fin n0) (Fin a) (Fin z0).

Definition rad (a : R) : R := a * PI / 180.

Lemma rc_X_eq zf n0 a z0 : rc_X zf n0 a z0 =
  mkRayC (A:=XA) (Fin (rad a)) (Fin (Re + zf + z0)) (Fin (cos (rad a))) (Fin (sin (rad a / 2)))
    (Fin (1 - cos (rad a))) (Fin z0) (Fin n0).
Proof.
  unfold rc_X, ray_const_of, deg2rad. xa. rewrite xdiv_fin by lra. xa. unfold k_EarthRadius, Re, rad. xa.
  replace (a * (PI / (180 / 1))) with (a * PI / 180) by lra.
  replace (a * PI / 180 * (5 / 10)) with (a * PI / 180 / 2) by lra.
  f_equal; f_equal; try lra.
  replace (a * PI / 180) with (2 * (a * PI / 180 / 2)) at 3 by lra. rewrite cos_2a_sin. lra.
Qed.

(** One step: ducting exactly in the trapped case, and a length not below the thickness. *)
Lemma ray_step_X zf n0 a z0 (s : ray_state (A:=XA)) zp rl z n :
  ry_zprev s = Fin zp -> ry_rl s = Fin rl -> 0 < Re + zf + z0 -> 0 < Re + z + z0 -> 0 < rl -> 0 < n ->
  (trapped (Re + zf + z0) n0 (rad a) n z -> ray_step (A:=XA) (rc_X zf n0 a z0) s (Fin z) (Fin n) = None) /\
  (~ trapped (Re + zf + z0) n0 (rad a) n z ->
   exists d s', ray_step (A:=XA) (rc_X zf n0 a z0) s (Fin z) (Fin n) = Some (d, s') /\
     ry_zprev s' = Fin z /\ ry_rl s' = Fin (Re + z + z0) /\
     forall v, d = Fin v -> Rabs (z - zp) <= Rabs v).
Proof.
  intros Hzp Hrl Hrs Hr Hrl0 Hn0. rewrite rc_X_eq. set (rs := Re + zf + z0) in *. set (th := rad a).
  set (r := Re + z + z0) in *.
  assert (Harg : leb (a:=XA)
     (div (a:=XA) (mul (a:=XA) (lit (a:=XA) 0.5) (add (a:=XA) (Fin (1 - cos th)) (sub (a:=XA) (div (a:=XA) (Fin z) (Fin rs))
        (div (a:=XA) (mul (a:=XA) (sub (a:=XA) (Fin n0) (Fin n)) (Fin (cos th))) (Fin n))))) (Fin r)) (lit (a:=XA) 0) = true <-> trapped rs n0 th n z).
  { xa. rewrite !xdiv_fin by lra. xa. rewrite xdiv_fin by lra. unfold xleb, xltb, xeqb.
    set (K := 1 - cos th + (z / rs + - ((n0 + - n) * cos th / n))).
    assert (EK : K * n = n * (1 + z / rs) - n0 * cos th) by (unfold K; field; lra).
    assert (Ir : 0 < / r) by (apply Rinv_0_lt_compat; auto).
    assert (Sg : forall x y, 0 < y -> x * y <= 0 <-> x <= 0) by (intros x y Hy; split; intros; nra).
    unfold trapped. transitivity (K <= 0).
    - transitivity (5 / 10 * K / r <= 0).
      + rewrite orb_true_iff. unfold Rltb, Reqb. destruct (Rlt_dec _ _), (Req_EM_T _ _); intuition (try lra; try discriminate).
      + unfold Rdiv at 1. rewrite (Sg _ (/ r)) by auto. lra.
    - rewrite <- (Sg K n) by auto. lra. }
  unfold ray_step. cbn [rc_theta0 rc_rs rc_costh0 rc_sina rc_a0 rc_z0 rc_n0].
  change (add (a:=XA) (add (a:=XA) (k_EarthRadius (A:=XA)) (Fin z)) (Fin z0)) with (Fin (6370949 / 1000 + z + z0)).
  replace (6370949 / 1000 + z + z0) with r by (unfold r, Re; lra).
  split.
  - intros Ht. apply Harg in Ht. cbn zeta. rewrite Ht. reflexivity.
  - intros Ht. cbn zeta. destruct (leb _ (lit 0)) eqn:E; [exfalso; apply Ht, Harg; reflexivity|].
    match goal with |- context [let '(_, _) := ?p in _] => destruct p as [theta dtheta] end.
    eexists. eexists. split; [reflexivity|]. cbn [ry_zprev ry_rl]. split; [reflexivity|]. split; [reflexivity|].
    intros v Hv. rewrite Hzp, Hrl in Hv.
    change (sub (a:=XA) (Fin z) (Fin zp)) with (Fin (z - zp)) in Hv.
    eapply ray_len_bound; [|exact Hv]. apply Rmult_le_pos; lra.
Qed.

Definition is_trapped_before (zf n0 a z0 : R) (z n : list R) (i : nat) : Prop :=
  exists j, (j <= i)%nat /\ (j < length z)%nat /\ trapped (Re + zf + z0) n0 (rad a) (nth j n 0) (nth j z 0).

Lemma ray_loop_X zf n0 a z0 : 0 < Re + zf + z0 -> forall (z n : list R) (s : ray_state (A:=XA)) zp rl,
  length z = length n -> ry_zprev s = Fin zp -> ry_rl s = Fin rl -> 0 < rl ->
  (forall x, In x z -> 0 < Re + x + z0) -> (forall x, In x n -> 1 <= x) ->
  let out := ray_loop (A:=XA) (rc_X zf n0 a z0) s (combine (map Fin z) (map Fin n)) in
  length out = length z /\
  forall i, (i < length z)%nat ->
    (is_trapped_before zf n0 a z0 z n i -> nth i out NaN = Fin 0) /\
    (~ is_trapped_before zf n0 a z0 z n i -> forall v, nth i out NaN = Fin v ->
       Rabs (nth i z 0 - match i with O => zp | S j => nth j z 0 end) <= Rabs v).
Proof.
  intros Hrs. induction z as [|z0' z IH]; intros [|n' n] s zp rl Hl Hzp Hrl Hrlp Hz Hn; try discriminate.
  { split; [reflexivity|]. simpl. lia. }
  cbn [map combine ray_loop].
  assert (Hn' : 0 < n') by (assert (1 <= n') by (apply Hn; left; auto); lra).
  assert (Hz' : 0 < Re + z0' + z0) by (apply Hz; left; auto).
  destruct (ray_step_X zf n0 a z0 s zp rl z0' n' Hzp Hrl Hrs Hz' Hrlp Hn') as [S1 S2].
  destruct (Rle_lt_dec (n' * (1 + z0' / (Re + zf + z0))) (n0 * cos (rad a))) as [Ht|Ht].
  - rewrite S1 by exact Ht. cbn zeta.
    set (out := _ :: _).
    assert (EO : out = map (fun _ => Fin 0) (z0' :: z)).
    { unfold out. cbn [map]. f_equal; [xa; f_equal; lra|].
      assert (Hl' : length z = length n) by (simpl in Hl; lia). clear - Hl'.
      revert n Hl'. induction z as [|x z IH]; intros [|y n] Hl; try discriminate; [reflexivity|].
      cbn [map combine]. f_equal; [xa; f_equal; lra|]. apply IH. simpl in Hl. lia. }
    rewrite EO. split; [apply map_length|].
    intros i Hi. split.
    + intros _. rewrite nth_indep with (d' := Fin 0) by (rewrite map_length; auto).
      exact (map_nth (fun _ : R => Fin 0) (z0' :: z) 0 i).
    + intros Hnt. exfalso. apply Hnt. exists 0%nat. split; [lia|]. split; [simpl; lia|]. exact Ht.
  - assert (Hnt : ~ trapped (Re + zf + z0) n0 (rad a) n' z0') by (unfold trapped; lra).
    destruct (S2 Hnt) as (d & s' & -> & Hzp' & Hrl' & Hd).
    destruct (IH n s' z0' (Re + z0' + z0)) as [L Hi']; auto.
    { intros; apply Hz; right; auto. } { intros; apply Hn; right; auto. }
    split; [cbn [length]; f_equal; exact L|].
    intros [|i] Hi.
    + split.
      * intros (j & Hj & _ & Hj'). assert (j = 0)%nat by lia. subst j. exfalso. apply Hnt. exact Hj'.
      * intros _ v Hv. cbn [nth] in *. apply Hd; auto.
    + cbn [nth length] in *. destruct (Hi' i ltac:(lia)) as [I1 I2]. split.
      * intros (j & Hj & Hj2 & Hj'). destruct j as [|j]; [exfalso; apply Hnt; exact Hj'|].
        apply I1. exists j. split; [lia|]. split; [simpl in Hj2; lia|exact Hj'].
      * intros Hb v Hv. assert (Hb' : ~ is_trapped_before zf n0 a z0 z n i).
        { intros (j & Hj & Hj2 & Hj'). apply Hb. exists (S j). split; [lia|]. split; [simpl; lia|exact Hj']. }
        specialize (I2 Hb' v Hv). destruct i; exact I2.
Qed.

(** Away from the zenith.  [z] are heights above the station (first entry first level); ducting is
    decided by the trapping condition alone; before it, a finite path element is never shorter than
    the layer. *)
Theorem C26_slant_path (z n : list R) (a z0 : R) :
  (forall x, In x n -> 1 <= x) -> length n = length z -> z <> [] -> ~ near_zenith a ->
  (forall x, In x z -> 0 < Re + x + z0) ->
  let rs := Re + nth 0 z 0 + z0 in
  let trapped_at j := nth j n 0 * (1 + nth j z 0 / rs) <= nth 0 n 0 * cos (a * PI / 180) in
  exists ds, Xray z n a z0 = Ok (Some ds) /\ length ds = length z /\ nth 0 ds NaN = Fin 0 /\
    forall i, (1 <= i < length z)%nat ->
      ((exists j, (1 <= j <= i)%nat /\ trapped_at j) -> nth i ds NaN = Fin 0) /\
      ((forall j, (1 <= j <= i)%nat -> ~ trapped_at j) ->
         forall v, nth i ds NaN = Fin v -> Rabs (nth i z 0 - nth (i - 1) z 0) <= Rabs v).
Proof.
  intros Hn Hl Hne Ha Hz rs trapped_at. unfold ray_tracing. rewrite no_small by auto.
  destruct z as [|zf z]; [congruence|]. destruct n as [|nf n]; [discriminate|].
  cbn [map combine].
  match goal with |- context [if ?b then _ else _] =>
    replace b with false by (symmetry; apply not_true_iff_false; intros E; apply Ha, near_zenith_X; exact E) end.
  fold (rc_X zf nf a z0). eexists. split; [reflexivity|].
  assert (Hrs : 0 < Re + zf + z0) by (apply Hz; left; auto).
  destruct (ray_loop_X zf nf a z0 Hrs z n
    (mkRay (A:=XA) (lit (a:=XA) 0.0) (lit (a:=XA) 0.0) (add (a:=XA) (add (a:=XA) (k_EarthRadius (A:=XA)) (Fin zf)) (Fin z0)) (tanf (a:=XA) (rc_theta0 (rc_X zf nf a z0))) (Fin zf) (Fin nf))
    zf (Re + zf + z0)) as [L H]; auto.
  { simpl in Hl. lia. }
  { intros; apply Hz; right; auto. } { intros; apply Hn; right; auto. }
  split; [cbn [length]; f_equal; exact L|]. split; [cbn [nth]; xa; f_equal; lra|].
  intros [|i] Hi; [lia|]. cbn [nth length] in *. rewrite Nat.sub_succ, Nat.sub_0_r.
  destruct (H i ltac:(lia)) as [H1 H2]. split.
  - intros (j & Hj & Ht). destruct j as [|j]; [lia|]. apply H1. exists j. split; [lia|]. split; [lia|]. exact Ht.
  - intros Hnt v Hv. assert (Hb : ~ is_trapped_before zf nf a z0 z n i).
    { intros (j & Hj & Hj2 & Ht). apply (Hnt (S j) ltac:(lia)). exact Ht. }
    specialize (H2 Hb v Hv). destruct i; exact H2.
Qed.
Example C26_example : exists ds, Xray [0; 1] [1.0003; 1.0002] 45 0 = Ok (Some ds) /\
  forall v, nth 1 ds NaN = Fin v -> 1 <= Rabs v.
Proof.
  destruct (C26_slant_path [0; 1] [1.0003; 1.0002] 45 0) as (ds & H1 & _ & _ & H2); auto; try discriminate.
  - simpl. intros x [<-|[<-|[]]]; lra.
  - unfold near_zenith. lra.
  - unfold Re. simpl. intros x [<-|[<-|[]]]; lra.
  - exists ds. split; [exact H1|]. intros v Hv.
    destruct (H2 1%nat ltac:(simpl; lia)) as [_ H3]. simpl in H3.
    assert (Hb := H3). replace (1 - 0) with 1 in Hb by lra. rewrite Rabs_R1 in Hb. apply Hb; auto.
    intros j Hj. assert (j = 1)%nat by lia. subst j. simpl. unfold Re.
    replace (45 * PI / 180) with (PI / 4) by field. rewrite cos_PI4.
    assert (1 <= sqrt 2) by (rewrite <- sqrt_1; apply sqrt_le_1_alt; lra).
    assert (1 / sqrt 2 <= 1).
    { apply Rmult_le_reg_r with (sqrt 2); [lra|]. unfold Rdiv. rewrite Rmult_assoc, Rinv_l by lra. lra. }
    (* weaken: 1/sqrt 2 <= 0.9 *)
    assert (1.2 <= sqrt 2) by (rewrite <- (sqrt_square 1.2) by lra; apply sqrt_le_1_alt; lra).
    assert (1 / sqrt 2 <= 0.9).
    { apply Rmult_le_reg_r with (sqrt 2); [lra|]. unfold Rdiv. rewrite Rmult_assoc, Rinv_l by lra. lra. }
    lra.
Qed.

(** ** C85 *)

(** Distance travelled along the straight line that leaves a sphere of radius [rs] with elevation
    [th] until it meets the concentric sphere of radius [rs + h]. *)
Definition straight_distance (rs th h L : R) : Prop :=
  0 <= L /\ (L * cos th) ^ 2 + (rs + L * sin th) ^ 2 = (rs + h) ^ 2.

Lemma straight_law_of_cosines rs th h L the :
  0 < rs -> 0 < h -> 0 <= sin th -> 0 <= the <= PI -> (rs + h) * cos the = rs * cos th -> straight_distance rs th h L ->
  L ^ 2 = (rs + h) ^ 2 + rs ^ 2 - 2 * (rs + h) * rs * cos (the - th).
Proof.
  intros Hrs Hh Hs Hthe Hc [HL HE].
  assert (P1 := sin2_cos2 th). assert (P2 := sin2_cos2 the). unfold Rsqr in P1, P2.
  assert (S0 : 0 <= sin the) by (apply sin_ge_0; lra).
  assert (E : (rs + h) * sin the = L + rs * sin th).
  { assert (F : ((rs + h) * sin the) ^ 2 = (L + rs * sin th) ^ 2).
    { transitivity ((rs + h) ^ 2 - ((rs + h) * cos the) ^ 2).
      - replace (((rs + h) * sin the) ^ 2) with ((rs + h) ^ 2 * (sin the * sin the)) by ring.
        replace (sin the * sin the) with (1 - cos the * cos the) by lra. ring.
      - rewrite Hc, <- HE.
        replace ((L + rs * sin th) ^ 2) with (L ^ 2 + 2 * L * rs * sin th + rs ^ 2 * (sin th * sin th)) by ring.
        replace ((L * cos th) ^ 2 + (rs + L * sin th) ^ 2 - (rs * cos th) ^ 2)
          with (L ^ 2 * (sin th * sin th + cos th * cos th) + rs ^ 2 + 2 * L * rs * sin th - rs ^ 2 * (cos th * cos th)) by ring.
        rewrite P1. replace (sin th * sin th) with (1 - cos th * cos th) by lra. ring. }
    assert (A1 : 0 <= (rs + h) * sin the) by (apply Rmult_le_pos; lra).
    assert (A2 : 0 <= L + rs * sin th) by (assert (0 <= rs * sin th) by (apply Rmult_le_pos; lra); lra).
    apply Rsqr_inj; auto. unfold Rsqr. lra. }
  rewrite cos_minus.
  replace (2 * (rs + h) * rs * (cos the * cos th + sin the * sin th))
    with (2 * ((rs + h) * cos the) * (rs * cos th) + 2 * ((rs + h) * sin the) * (rs * sin th)) by ring.
  replace ((rs + h) ^ 2) with (((rs + h) * cos the) ^ 2 + ((rs + h) * sin the) ^ 2).
  2:{ replace (((rs + h) * cos the) ^ 2 + ((rs + h) * sin the) ^ 2) with ((rs + h) ^ 2 * (sin the * sin the + cos the * cos the)) by ring.
      rewrite P2. ring. }
  rewrite E, Hc. replace (rs ^ 2) with (rs ^ 2 * (sin th * sin th + cos th * cos th)) at 1 by (rewrite P1; ring). ring.
Qed.

(** In a homogeneous medium (index [n] everywhere) rays are straight, yet at low elevation the traced
    path through the first layer is strictly longer than the straight line. *)
Theorem C85_straight_ray_refuted (z1 n a z0 L : R) :
  let rs := Re + z0 in let th := a * PI / 180 in
  1 <= n -> 0 < rs -> 0 < a < 60 -> 0 < z1 -> z1 < rs * cos th ->
  (* low elevation: the branch "theta1 > 2 theta0" *)
  cos th - z1 / rs < cos (2 * th) ->
  straight_distance rs th z1 L ->
  exists d, Xray [0; z1] [n; n] a z0 = Ok (Some [Fin 0; Fin d]) /\ L < d.
Proof.
  intros rs th Hn Hrs Ha Hz1 Hz1c Hlow HL.
  assert (HPI := PI_RGT_0).
  assert (Hth : 0 < th < PI / 3) by (unfold th; split; nra).
  assert (Sth : 0 < sin th) by (apply sin_gt_0; lra).
  assert (Cth : 0 < cos th) by (apply cos_gt_0; lra).
  assert (C1 : cos th <= 1) by (apply COS_bound).
  assert (Ztr : 0 < z1 / rs < cos th).
  { split; [apply Rdiv_lt_0_compat; auto|]. apply Rmult_lt_reg_r with rs; auto. unfold Rdiv. rewrite Rmult_assoc, Rinv_l by lra. lra. }
  set (q := 1/2 * (1 - cos th + z1 / rs)).
  assert (Hq : 0 < q < 1/2) by (unfold q; lra).
  set (r := Re + z1 + z0). assert (Hr : 0 < r) by (unfold r, rs in *; lra).
  set (t1 := 2 * asin (sqrt q)).
  assert (Sq : 0 < sqrt q) by (apply sqrt_lt_R0; lra).
  assert (Sq1 : sqrt q < 1) by (rewrite <- sqrt_1; apply sqrt_lt_1_alt; lra).
  assert (Ab := asin_bound_lt (sqrt q) ltac:(lra)).
  assert (Ct1 : cos t1 = cos th - z1 / rs).
  { unfold t1. rewrite cos_2a_sin, sin_asin by lra. rewrite Rmult_assoc, sqrt_sqrt by lra. unfold q. lra. }
  assert (A0 : 0 < asin (sqrt q)).
  { apply Rnot_le_lt. intros Hle. assert (sin (asin (sqrt q)) <= 0).
    { replace 0 with (sin 0) by apply sin_0. apply sin_incr_1; lra. } rewrite sin_asin in *; lra. }
  assert (T1 : 0 < t1 < PI) by (unfold t1; lra).
  assert (T2 : 2 * th < t1).
  { apply Rnot_le_lt. intros Hle. assert (cos (2 * th) <= cos t1) by (apply cos_decr_1; lra). lra. }
  assert (T3 : t1 < PI / 2).
  { apply Rnot_le_lt. intros Hle. assert (cos t1 <= cos (PI / 2)) by (apply cos_decr_1; lra). rewrite cos_PI2 in *. lra. }
  assert (Tan1 : 0 < tan t1) by (apply tan_gt_0; lra).
  assert (Tan0 : 0 < tan th) by (apply tan_gt_0; lra).
  set (d2 := z1 * z1 + 4 * r * rs * (sin ((t1 - th) * (1/2)) * sin ((t1 - th) * (1/2)))).
  assert (D2 : 0 <= d2).
  { unfold d2. assert (0 <= 4 * r * rs) by nra. assert (0 <= sin ((t1 - th) * (1/2)) * sin ((t1 - th) * (1/2))) by nra. nra. }
  exists (sqrt d2). split.
  - unfold ray_tracing.
    replace (existsb (fun n0 : car XA => ltb n0 (lit 1)) (map Fin [n; n])) with false.
    2:{ symmetry. apply no_small. simpl. intros x [<-|[<-|[]]]; auto. }
    cbn [map combine].
    match goal with |- context [if ?b then _ else _] =>
      replace b with false by (symmetry; apply not_true_iff_false; intros E; apply near_zenith_X in E; unfold near_zenith in E; lra) end.
    fold (rc_X 0 n a z0). cbn [ray_loop].
    rewrite rc_X_eq. change (rad a) with th. unfold ray_step.
    cbn [rc_theta0 rc_rs rc_costh0 rc_sina rc_a0 rc_z0 rc_n0 ry_nprev ry_taul ry_tanthl ry_zprev ry_rl ry_phil].
    change (add (a:=XA) (add (a:=XA) (k_EarthRadius (A:=XA)) (Fin z1)) (Fin z0)) with (Fin (6370949 / 1000 + z1 + z0)).
    change (add (a:=XA) (add (a:=XA) (k_EarthRadius (A:=XA)) (Fin 0)) (Fin z0)) with (Fin (6370949 / 1000 + 0 + z0)).
    replace (6370949 / 1000 + z1 + z0) with r by (unfold r, Re; lra).
    replace (6370949 / 1000 + 0 + z0) with rs by (unfold rs, Re; lra).
    replace (Re + 0 + z0) with rs by (unfold rs; lra).
    assert (EB : ray_refbar (A:=XA) (Fin n) (Fin n) = Fin n).
    { unfold ray_refbar. xa. cbn [xeqb]. rewrite (Reqb_true n n) by auto. cbn. f_equal. lra. }
    assert (EA : sub (a:=XA) (div (a:=XA) (Fin z1) (Fin rs)) (div (a:=XA) (mul (a:=XA) (sub (a:=XA) (Fin n) (Fin n)) (Fin (cos th))) (Fin n)) = Fin (z1 / rs)).
    { xa. rewrite !xdiv_fin by lra. xa. f_equal. field. lra. }
    assert (EH : div (a:=XA) (mul (a:=XA) (lit (a:=XA) 0.5) (add (a:=XA) (Fin (1 - cos th)) (Fin (z1 / rs)))) (Fin r) = Fin (q / r)).
    { xa. rewrite !xdiv_fin by lra. f_equal. unfold q. field. lra. }
    rewrite EB, EA, EH.
    assert (Q0 : 0 < q / r) by (apply Rdiv_lt_0_compat; lra).
    replace (leb (a:=XA) (Fin (q / r)) (lit (a:=XA) 0)) with false.
    2:{ symmetry. xa. unfold xleb, xltb, xeqb. rewrite Rltb_false by lra. rewrite Reqb_false by lra. reflexivity. }
    assert (ES : sqrtf (a:=XA) (mul (a:=XA) (Fin r) (Fin (q / r))) = Fin (sqrt q)).
    { xa. replace (r * (q / r)) with q by (field; lra). apply xsqrt_fin. lra. }
    rewrite ES.
    assert (ET : mul (a:=XA) (lit (a:=XA) 2.0) (asinf (a:=XA) (Fin (sqrt q))) = Fin t1).
    { xa. unfold xasin. rewrite Rabs_pos_eq by lra. destruct (Rle_dec _ _); [|lra]. xa. f_equal. unfold t1. lra. }
    cbn zeta. rewrite ET.
    replace (leb (a:=XA) (sub (a:=XA) (Fin t1) (mul (a:=XA) (lit (a:=XA) 2.0) (Fin th))) (lit (a:=XA) 0.0)) with false.
    2:{ symmetry. xa. unfold xleb, xltb, xeqb. rewrite Rltb_false by lra. rewrite Reqb_false by lra. reflexivity. }
    assert (EC : div (a:=XA) (mul (a:=XA) (mul (a:=XA) (add (a:=XA) (div (a:=XA) (lit (a:=XA) 1.0) (tanf (a:=XA) (Fin t1)))
        (div (a:=XA) (lit (a:=XA) 1.0) (tanf (a:=XA) (Fin th)))) (lit (a:=XA) 0.5)) (sub (a:=XA) (Fin n) (Fin n))) (Fin n) = Fin 0).
    { xa. rewrite (xdiv_fin (sin t1)), (xdiv_fin (sin th)) by lra. fold (tan t1) (tan th).
      rewrite (xdiv_fin (10/10) (tan t1)), (xdiv_fin (10/10) (tan th)) by lra. xa. rewrite xdiv_fin by lra.
      f_equal. field. repeat split; lra. }
    rewrite EC.
    replace (eqb (a:=XA) (Fin 0) (lit (a:=XA) 0.0)) with true by (symmetry; xa; cbn [xeqb]; apply Reqb_true; lra).
    cbn [negb]. xa.
    match goal with |- context [xsqrt (Fin ?u)] => replace u with d2 end.
    2:{ unfold d2. replace (t1 + - th + (0 / 10 + 0) + - (0 / 10)) with (t1 - th) by lra.
        replace (5 / 10) with (1/2) by lra. lra. }
    rewrite xsqrt_fin by auto. do 4 f_equal. lra.
  - assert (Ed : d2 = (rs + z1) ^ 2 + rs ^ 2 - 2 * (rs + z1) * rs * cos (t1 - th)).
    { unfold d2. replace (cos (t1 - th)) with (1 - 2 * sin ((t1 - th) * (1/2)) * sin ((t1 - th) * (1/2))).
      - replace r with (rs + z1) by (unfold r, rs; lra). ring.
      - rewrite <- cos_2a_sin. f_equal. lra. }
    set (ce := rs * cos th / (rs + z1)).
    assert (Hce : 0 < ce < 1).
    { unfold ce. split; [apply Rdiv_lt_0_compat; nra|]. apply Rmult_lt_reg_r with (rs + z1); [lra|].
      unfold Rdiv. rewrite Rmult_assoc, Rinv_l by lra. nra. }
    set (the := acos ce). assert (Hthe : 0 <= the <= PI) by apply acos_bound.
    assert (Ec : cos the = ce) by (apply cos_acos; lra).
    assert (Hcc : (rs + z1) * cos the = rs * cos th) by (rewrite Ec; unfold ce; field; lra).
    assert (HLL := straight_law_of_cosines rs th z1 L the Hrs Hz1 ltac:(lra) Hthe Hcc HL).
    assert (Hlt : cos t1 < cos the).
    { rewrite Ct1, Ec. unfold ce. apply Rmult_lt_reg_r with (rs + z1); [lra|].
      unfold Rdiv at 2. rewrite Rmult_assoc, Rinv_l, Rmult_1_r by lra.
      replace ((cos th - z1 / rs) * (rs + z1)) with (rs * cos th + z1 * (cos th - 1) - z1 * (z1 / rs)) by (field; lra).
      assert (0 < z1 * (z1 / rs)) by (apply Rmult_lt_0_compat; lra).
      assert (z1 * (cos th - 1) <= 0) by nra. lra. }
    assert (Hthelt : the < t1).
    { apply Rnot_le_lt. intros Hle. assert (cos the <= cos t1) by (apply cos_decr_1; lra). lra. }
    assert (Hge : th < the).
    { apply Rnot_le_lt. intros Hle. assert (cos th <= cos the) by (apply cos_decr_1; lra).
      rewrite Ec in H. unfold ce in H. assert (cos th * (rs + z1) <= rs * cos th).
      { apply Rmult_le_compat_r with (r := rs + z1) in H; [|lra]. unfold Rdiv in H. rewrite Rmult_assoc, Rinv_l in H by lra. lra. }
      nra. }
    assert (Hcd : cos (t1 - th) < cos (the - th)) by (apply cos_decreasing_1; lra).
    destruct HL as [HL0 _]. apply Rsqr_incrst_0; [|auto|apply sqrt_pos].
    unfold Rsqr. rewrite sqrt_sqrt by auto. rewrite Ed.
    replace (L * L) with (L ^ 2) by ring. rewrite HLL.
    assert (0 < 2 * (rs + z1) * rs) by nra. nra.
Qed.

(** Instance: 30-degree elevation, 3000 km layer, vacuum. *)
Example C85_example : exists L d,
  straight_distance Re (30 * PI / 180) 3000 L /\ Xray [0; 3000] [1; 1] 30 0 = Ok (Some [Fin 0; Fin d]) /\ L < d.
Proof.
  assert (HPI := PI_RGT_0).
  assert (E30 : 30 * PI / 180 = PI / 6) by lra.
  assert (S2 : sin (PI / 6) = 1/2) by apply sin_PI6.
  assert (S3 : 1.7 < sqrt 3 < 1.8).
  { split; [rewrite <- (sqrt_square 1.7) by lra | rewrite <- (sqrt_square 1.8) by lra]; apply sqrt_lt_1_alt; lra. }
  set (rs := Re).
  set (D := rs * rs / 4 + 3000 ^ 2 + 2 * rs * 3000).
  exists (sqrt D - rs / 2).
  assert (HD : 0 <= D) by (unfold D, rs, Re; lra).
  assert (HS : straight_distance rs (PI / 6) 3000 (sqrt D - rs / 2)).
  { split.
    - assert (rs / 2 <= sqrt D). { rewrite <- (sqrt_square (rs / 2)) by (unfold rs, Re; lra). apply sqrt_le_1_alt. unfold D, rs, Re. lra. } lra.
    - rewrite cos_PI6, S2. assert (Q := sqrt_sqrt D HD). assert (Q3 := sqrt_sqrt 3 ltac:(lra)).
      replace (((sqrt D - rs / 2) * (sqrt 3 / 2)) ^ 2) with ((sqrt D - rs / 2) ^ 2 * (sqrt 3 * sqrt 3) / 4) by field.
      rewrite Q3. replace ((sqrt D - rs / 2) ^ 2 * 3 / 4 + (rs + (sqrt D - rs / 2) * (1 / 2)) ^ 2)
        with (sqrt D * sqrt D + 3 / 4 * (rs * rs)) by field. rewrite Q. unfold D. field. }
  destruct (C85_straight_ray_refuted 3000 1 30 0 (sqrt D - rs / 2)) as (d & H1 & H2).
  - lra. - unfold Re; lra. - lra. - lra.
  - rewrite E30, cos_PI6. unfold Re. lra.
  - rewrite E30. replace (2 * (PI / 6)) with (PI / 3) by lra. rewrite cos_PI6, cos_PI3. unfold Re. lra.
  - rewrite E30. replace (Re + 0) with rs by (unfold rs; lra). exact HS.
  - exists d. rewrite E30. auto.
Qed.
