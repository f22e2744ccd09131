(** Claim C94: the equidistant grid and the interpolated profiles on which weighting functions are computed. *)

From Coq Require Import ZArith Reals Lra Lia String List Bool.
Import ListNotations.
From Verif Require Import Arith PyBase Utils RTE Absorption Clear Spectrum Spec ListAux RealAux SolverGen SolverRun PropsLiq Weighting WeightingGen PropsWeighting PropsChannels.
Local Open Scope R_scope.

(** ** numpy pieces over the reals *)

Lemma fold_max_ge (l : list R) : forall x, x <= fold_left (maxv (A:=RA)) l x /\ forall y, In y l -> y <= fold_left (maxv (A:=RA)) l x.
Proof.
  induction l as [|a l IH]; intros x; cbn [fold_left]; [split; [lra|intros y []]|].
  destruct (IH (maxv (A:=RA) x a)) as [H1 H2].
  assert (M : x <= maxv (A:=RA) x a /\ a <= maxv (A:=RA) x a) by (unfold maxv; ra; unfold Rltb; destruct (Rlt_dec x a); lra).
  split; [lra|]. intros y [<-|Hy]; [lra|auto].
Qed.
Lemma fold_max_in (l : list R) : forall x, fold_left (maxv (A:=RA)) l x = x \/ In (fold_left (maxv (A:=RA)) l x) l.
Proof.
  induction l as [|a l IH]; intros x; cbn [fold_left]; [auto|].
  destruct (IH (maxv (A:=RA) x a)) as [H|H]; [|right; right; exact H]. rewrite H. unfold maxv. ra. unfold Rltb. destruct (Rlt_dec x a); [right; left; auto|left; auto].
Qed.
Lemma np_max_spec (l : list R) m : np_max (A:=RA) l = Ok m <-> In m l /\ forall y, In y l -> y <= m.
Proof.
  destruct l as [|x l]; cbn [np_max].
  - split; [discriminate|intros [[] _]].
  - destruct (fold_max_ge l x) as [H1 H2]. assert (H3 := fold_max_in l x).
    set (M := fold_left (maxv (A:=RA)) l x) in *.
    assert (HM : In M (x :: l) /\ forall y, In y (x :: l) -> y <= M).
    { split; [destruct H3; [left; auto|right; auto]|intros y [<-|Hy]; auto]. }
    split.
    + intros H. apply ok_inj in H. rewrite <- H. exact HM.
    + intros [Hm Hle]. f_equal. destruct HM as [HM1 HM2]. apply Rle_antisym; [apply Hle; auto|apply HM2; auto].
Qed.

Lemma ceilz_spec (x : R) : 0 <= x -> exists n, ceilz (A:=RA) x = Some n /\ (0 <= n)%Z /\ IZR n - 1 < x <= IZR n.
Proof.
  intros Hx. unfold ceilz. ra. unfold Rtrunc. destruct (Rle_dec 0 x); [|lra].
  assert (B := base_Int_part x). set (k := Int_part x) in *.
  assert (Hk : (0 <= k)%Z) by (apply Z.lt_succ_r, lt_IZR; rewrite succ_IZR; lra).
  unfold Rltb. replace (IZR k / 1) with (IZR k) by lra. destruct (Rlt_dec (IZR k) x).
  - exists (k + 1)%Z. rewrite plus_IZR. split; [reflexivity|]. split; [lia|lra].
  - exists k. split; [reflexivity|]. split; [lia|lra].
Qed.

(** Heights 0, step, 2 step, ...: they reach the top of the profile, the last but one is below it. *)
Lemma grid_spec (M step : R) : 0 < step -> 0 <= M ->
  exists n, arange0 (A:=RA) (M + step) step = Ok (map (fun k => INR k * step) (seq 0 (S n))) /\ INR n * step < M + step /\ M <= INR n * step.
Proof.
  intros Hs HM. unfold arange0.
  assert (Q : 0 <= (M + step) / step) by (apply Rmult_le_pos; [lra|left; apply Rinv_0_lt_compat; auto]).
  destruct (ceilz_spec _ Q) as (k & Ek & Hk & B). ra. rewrite Ek.
  assert (E : (M + step) / step = M / step + 1) by (field; lra). rewrite E in B.
  assert (Q2 : 0 <= M / step) by (apply Rmult_le_pos; [lra|left; apply Rinv_0_lt_compat; auto]).
  assert (Hk1 : (1 <= k)%Z) by (apply le_IZR; lra).
  exists (Z.to_nat (k - 1)). replace (S (Z.to_nat (k - 1))) with (Z.to_nat k) by lia.
  assert (EI : INR (Z.to_nat (k - 1)) = IZR k - 1) by (rewrite INR_IZR_INZ, Z2Nat.id, minus_IZR by lia; reflexivity).
  split.
  - f_equal. apply map_ext. intros j. rewrite of_nat_INR. reflexivity.
  - rewrite EI. assert (EM : M = M / step * step) by (field; lra). split.
    + apply (Rmult_lt_reg_r (/ step)); [apply Rinv_0_lt_compat; auto|]. rewrite Rmult_assoc, Rinv_r, Rmult_1_r by lra.
      replace ((M + step) * / step) with (M / step + 1) by (field; lra). lra.
    + rewrite EM at 1. apply Rmult_le_compat_r; lra.
Qed.

(** ** Linear interpolation *)

(** Piecewise-linear interpolation, specified without reference to the scan. *)
Definition interpolates (xp fp : list R) (x y : R) : Prop :=
  (x <= nth 0 xp 0 -> y = nth 0 fp 0) /\
  (nth (length xp - 1) xp 0 <= x -> y = nth (length xp - 1) fp 0) /\
  (forall i, (S i < length xp)%nat -> nth i xp 0 <= x <= nth (S i) xp 0 ->
     y = nth i fp 0 + (nth (S i) fp 0 - nth i fp 0) * (x - nth i xp 0) / (nth (S i) xp 0 - nth i xp 0)).

Lemma interp_scan_spec : forall (nodes : list (R * R)) (x a fa : R), a <= x -> growing (a :: map fst nodes) ->
  interpolates (a :: map fst nodes) (fa :: map snd nodes) x (interp_scan (A:=RA) x a fa nodes).
Proof.
  induction nodes as [|[b fb] nodes IH]; intros x a fa Ha G.
  - cbn [map interp_scan]. unfold interpolates. cbn [length nth Nat.sub]. repeat split; auto. intros i Hi. cbn in Hi. lia.
  - cbn [interp_scan map fst snd]. assert (Hab := G 0%nat ltac:(cbn; lia)). cbn [nth map fst] in Hab.
    assert (G' : growing (b :: map fst nodes)) by (intros i Hi; apply (G (S i)); cbn in *; lia).
    ra. unfold Rltb. destruct (Rlt_dec x b) as [L|L].
    + assert (V : (if Reqb a x then fa else (fb - fa) / (b - a) * (x - a) + fa) = fa + (fb - fa) * (x - a) / (b - a)).
      { unfold Reqb. destruct (Req_EM_T a x) as [->|N]; [|field; lra]. replace (x - x) with 0 by lra. unfold Rdiv. ring. }
      rewrite V. unfold interpolates. cbn [length nth]. split; [|split].
      * intros H. assert (x = a) as -> by lra. replace (a - a) with 0 by lra. unfold Rdiv. ring.
      * intros H. exfalso. cbn [length Nat.sub] in H. rewrite ?Nat.sub_0_r in H. destruct (length (map fst nodes)) eqn:E; cbn [nth] in H; [lra|].
        assert (Q := growing_lt _ G' 0%nat (S n) ltac:(cbn [length]; lia)). cbn [nth] in Q. lra.
      * intros [|i] Hi Hx; cbn [nth] in Hx; [reflexivity|].
        exfalso. destruct i as [|i]; [cbn [nth] in Hx; lra|].
        assert (Q := growing_lt _ G' 0%nat (S i) ltac:(cbn [length] in *; lia)). cbn [nth] in Q, Hx. lra.
    + apply Rnot_lt_le in L. assert (S := IH x b fb L G'). destruct S as (S1 & S2 & S3).
      unfold interpolates. cbn [length]. split; [|split].
      * intros H. cbn [nth] in H. lra.
      * intros H. cbn [length Nat.sub] in S2, H |- *. rewrite ?Nat.sub_0_r in *. cbn [nth] in H |- *. apply S2. exact H.
      * intros [|i] Hi Hx; cbn [nth] in Hx |- *.
        -- assert (x = b) as -> by lra. rewrite S1 by (cbn [nth]; lra). cbn [nth]. field. lra.
        -- apply (S3 i); [cbn [length] in *; lia|exact Hx].
Qed.

Lemma combine_fst {X Y} (a : list X) : forall (b : list Y), length b = length a -> map fst (combine a b) = a.
Proof. induction a as [|x a IH]; intros [|y b] H; cbn in *; try lia; auto. f_equal. apply IH. lia. Qed.
Lemma combine_snd {X Y} (a : list X) : forall (b : list Y), length b = length a -> map snd (combine a b) = b.
Proof. induction a as [|x a IH]; intros [|y b] H; cbn in *; try lia; auto. f_equal. apply IH. lia. Qed.

Theorem C94_interpolation (xp fp : list R) x : growing xp -> length fp = length xp -> xp <> [] ->
  exists y, interp1 (A:=RA) xp fp x = Ok y /\ interpolates xp fp x y.
Proof.
  intros G L Hne. unfold interp1. destruct xp as [|a xp]; [congruence|]. destruct fp as [|fa fp]; [discriminate|]. cbn [length] in L.
  cbn [combine]. eexists. split; [reflexivity|].
  assert (E1 := combine_fst xp fp ltac:(lia)). assert (E2 := combine_snd xp fp ltac:(lia)).
  ra. unfold Rltb. destruct (Rlt_dec x a) as [H|H].
  - unfold interpolates. cbn [nth length Nat.sub]. rewrite ?Nat.sub_0_r. split; [auto|]. split.
    + intros H2. exfalso. destruct xp as [|b xp]; cbn [length nth] in H2; [lra|].
      assert (Q := growing_lt _ G 0%nat (S (length xp)) ltac:(cbn [length]; lia)). cbn [nth] in Q, H2. lra.
    + intros i Hi Hx. exfalso. destruct i as [|i]; cbn [nth] in Hx; [lra|].
      assert (Q := growing_lt _ G 0%nat (S i) ltac:(cbn [length] in *; lia)). cbn [nth] in Q, Hx. lra.
  - assert (S := interp_scan_spec (combine xp fp) x a fa ltac:(lra)). rewrite E1, E2 in S. apply S. exact G.
Qed.

(** Interpolated values stay within any bounds of the profile. *)
Theorem C94_bounds (xp fp : list R) x y lo hi : growing xp -> length fp = length xp -> xp <> [] -> interpolates xp fp x y ->
  (forall i, (i < length xp)%nat -> lo <= nth i fp 0 <= hi) -> lo <= y <= hi.
Proof.
  intros G L Hne (I1 & I2 & I3) B.
  assert (Hl : (0 < length xp)%nat) by (destruct xp; [congruence|cbn; lia]).
  destruct (Rle_dec x (nth 0 xp 0)) as [H1|H1]; [rewrite (I1 H1); apply B; lia|].
  destruct (Rle_dec (nth (length xp - 1) xp 0) x) as [H2|H2]; [rewrite (I2 H2); apply B; lia|].
  assert (F : exists i, (S i < length xp)%nat /\ nth i xp 0 <= x <= nth (S i) xp 0).
  { assert (K : forall m, (m < length xp)%nat -> x < nth m xp 0 -> exists i, (S i < length xp)%nat /\ nth i xp 0 <= x <= nth (S i) xp 0).
    { induction m as [|m IH]; intros Hm Hx; [lra|]. destruct (Rle_dec (nth m xp 0) x) as [Q|Q]; [exists m; split; [lia|lra]|]. apply IH; [lia|lra]. }
    apply (K (length xp - 1)%nat); [lia|lra]. }
  destruct F as (i & Hi & Hx). rewrite (I3 i Hi Hx). assert (B1 := B i ltac:(lia)). assert (B2 := B (S i) Hi). assert (D := G i Hi).
  set (u := (x - nth i xp 0) / (nth (S i) xp 0 - nth i xp 0)).
  assert (U : 0 <= u <= 1).
  { unfold u. split.
    - apply Rmult_le_pos; [lra|left; apply Rinv_0_lt_compat; lra].
    - apply Rmult_le_reg_r with (nth (S i) xp 0 - nth i xp 0); [lra|]. unfold Rdiv. rewrite Rmult_assoc, Rinv_l by lra. lra. }
  replace ((nth (S i) fp 0 - nth i fp 0) * (x - nth i xp 0) / (nth (S i) xp 0 - nth i xp 0)) with ((nth (S i) fp 0 - nth i fp 0) * u) by (unfold u, Rdiv; ring).
  clearbody u. nra.
Qed.

(** The measured values are reproduced at the measured heights. *)
Theorem C94_nodes (xp fp : list R) y i : growing xp -> length fp = length xp -> (i < length xp)%nat ->
  interpolates xp fp (nth i xp 0) y -> y = nth i fp 0.
Proof.
  intros G L Hi (I1 & I2 & I3). destruct (Nat.eq_dec (S i) (length xp)) as [E|E].
  - replace i with (length xp - 1)%nat in * by lia. apply I2. lra.
  - assert (D := G i ltac:(lia)). rewrite (I3 i ltac:(lia) ltac:(lra)). replace (nth i xp 0 - nth i xp 0) with 0 by lra. unfold Rdiv. ring.
Qed.

Lemma np_interp_spec (xs xp fp : list R) : growing xp -> length fp = length xp -> xp <> [] ->
  exists ys, np_interp (A:=RA) xs xp fp = Ok ys /\ length ys = length xs /\
    forall k, (k < length xs)%nat -> interpolates xp fp (nth k xs 0) (nth k ys 0).
Proof.
  intros G L Hne. unfold np_interp. change (car RA) with R. rewrite L, Nat.eqb_refl. destruct xp as [|a xp]; [congruence|].
  destruct (proj2 (mapM_ok_iff (interp1 (A:=RA) (a :: xp) fp) xs)) as [ys E].
  { intros x _. destruct (C94_interpolation (a :: xp) fp x G L Hne) as (y & H & _). eauto. }
  exists ys. split; [exact E|]. split; [exact (mapM_length _ _ _ E)|]. intros k Hk.
  assert (N := mapM_nth _ _ ys k 0 0 E Hk). destruct (C94_interpolation (a :: xp) fp (nth k xs 0) G L Hne) as (y & H & I).
  change (car RA) with R in *. cbv beta in N. rewrite H in N. injection N as N. subst y. exact I.
Qed.

Lemma alloc4 {A : Arith} (h : heap A) (a b c d : list (car A)) :
  let h1 := (h ++ [a])%list in let h2 := (h1 ++ [b])%list in let h3 := (h2 ++ [c])%list in let h4 := (h3 ++ [d])%list in
  hget h4 (length h) = a /\ hget h4 (length h1) = b /\ hget h4 (length h2) = c /\ hget h4 (length h3) = d /\
  length h1 <> length h /\ length h2 <> length h /\ length h3 <> length h /\
  forall x, (x < length h)%nat -> hget h4 x = hget h x.
Proof.
  intros h1 h2 h3 h4.
  assert (L1 : length h1 = S (length h)) by (unfold h1; rewrite app_length; apply Nat.add_1_r).
  assert (L2 : length h2 = S (length h1)) by (unfold h2; rewrite app_length; apply Nat.add_1_r).
  assert (L3 : length h3 = S (length h2)) by (unfold h3; rewrite app_length; apply Nat.add_1_r).
  assert (G4 : forall x, (x < length h3)%nat -> hget h4 x = hget h3 x) by (intros; apply hget_app_old; auto).
  assert (G3 : forall x, (x < length h2)%nat -> hget h3 x = hget h2 x) by (intros; apply hget_app_old; auto).
  assert (G2 : forall x, (x < length h1)%nat -> hget h2 x = hget h1 x) by (intros; apply hget_app_old; auto).
  assert (G1 : forall x, (x < length h)%nat -> hget h1 x = hget h x) by (intros; apply hget_app_old; auto).
  assert (N1 : hget h1 (length h) = a) by apply hget_alloc_new. assert (N2 : hget h2 (length h1) = b) by apply hget_alloc_new.
  assert (N3 : hget h3 (length h2) = c) by apply hget_alloc_new. assert (N4 : hget h4 (length h3) = d) by apply hget_alloc_new.
  repeat split; try lia.
  - rewrite G4, G3, G2 by lia. exact N1.
  - rewrite G4, G3 by lia. exact N2.
  - rewrite G4 by lia. exact N3.
  - exact N4.
  - intros x Hx. rewrite G4, G3, G2, G1 by lia. reflexivity.
Qed.

(** The constructor: heights 0, step, 2 step, ... up to the first one not below the top of the profile, profiles interpolated linearly
    to them, constant below the lowest and above the highest measured level; the object is ready for [generate_wf]. *)
Theorem C94_constructor (h : heap RA) (z p t rh : list R) step : z <> [] -> growing z -> 0 <= nth (length z - 1) z 0 -> 0 < step ->
  length p = length z -> length t = length z -> length rh = length z ->
  exists h' w n, wf_init (A:=RA) h z p t rh step = (h', Ok w) /\
    wfo h' w /\ growing (hget h' (w_z w)) /\ (w_p w <> w_z w /\ w_t w <> w_z w /\ w_rh w <> w_z w) /\
    length (hget h' (w_z w)) = S n /\
    nth (length z - 1) z 0 <= INR n * step /\ INR n * step < nth (length z - 1) z 0 + step /\
    (forall k, (k <= n)%nat -> nth k (hget h' (w_z w)) 0 = INR k * step /\
       interpolates z p (INR k * step) (nth k (hget h' (w_p w)) 0) /\
       interpolates z t (INR k * step) (nth k (hget h' (w_t w)) 0) /\
       interpolates z rh (INR k * step) (nth k (hget h' (w_rh w)) 0)) /\
    (forall a, (a < length h)%nat -> hget h' a = hget h a) /\
    w_sat w = true /\ w_model w = "R24"%string /\ w_angle w = 90 / 1 /\ w_frq w = None /\ w_band w = None.
Proof.
  intros Hne G HM Hs Lp Lt Lr. unfold wf_init.
  set (M := nth (length z - 1) z 0) in *.
  assert (Hl : (0 < length z)%nat) by (destruct z; [congruence|cbn; lia]).
  assert (EM : np_max (A:=RA) z = Ok M).
  { apply np_max_spec. split; [apply nth_In; lia|]. intros y Hy. apply (In_nth _ _ 0) in Hy. destruct Hy as (i & Hi & <-).
    destruct (Nat.eq_dec i (length z - 1)) as [->|N]; [unfold M; lra|]. left. apply (growing_lt z G). lia. }
  rewrite EM. cbn [bind]. destruct (grid_spec M step Hs HM) as (n & Eg & B1 & B2).
  change (add (a:=RA) M step) with (M + step). rewrite Eg. cbn [bind].
  set (zi := map (fun k => INR k * step) (seq 0 (S n))) in *.
  assert (Lz : length zi = S n) by (unfold zi; rewrite map_length, seq_length; reflexivity).
  assert (Nz : forall k, (k <= n)%nat -> nth k zi 0 = INR k * step) by (intros k Hk; unfold zi; rewrite (nth_map_seq_d (fun k => INR k * step)) by lia; reflexivity).
  destruct (np_interp_spec zi z p G Lp Hne) as (pi & Ep & Lpi & Ip). destruct (np_interp_spec zi z t G Lt Hne) as (ti & Et & Lti & It).
  destruct (np_interp_spec zi z rh G Lr Hne) as (ri & Er & Lri & Ir).
  rewrite Ep. cbn [bind]. rewrite Et. cbn [bind]. rewrite Er. cbn [bind]. cbn [halloc].
  assert (Q := alloc4 (A:=RA) h zi pi ti ri).
  set (h1 := (h ++ [zi])%list). set (h2 := (h1 ++ [pi])%list). set (h3 := (h2 ++ [ti])%list). set (h4 := (h3 ++ [ri])%list).
  change (hget h4 (length h) = zi /\ hget h4 (length h1) = pi /\ hget h4 (length h2) = ti /\ hget h4 (length h3) = ri /\
    length h1 <> length h /\ length h2 <> length h /\ length h3 <> length h /\
    forall x, (x < length h)%nat -> hget h4 x = hget h x) in Q.
  destruct Q as (A1 & A2 & A3 & A4 & N1 & N2 & N3 & Old).
  match goal with |- exists h' w n, (?x, Ok (mkWfo ?a ?b ?c ?d ?e ?f ?g ?i ?j ?k)) = _ /\ _ =>
    exists h4, (mkWfo a (length h1) (length h2) (length h3) e f g i j k), n end.
  split; [reflexivity|]. clearbody h4 h3 h2 h1. cbn [w_z w_p w_t w_rh w_sat w_model w_angle w_frq w_band].
  assert (Gz : growing zi).
  { intros i Hi. rewrite Lz in Hi. rewrite !Nz by lia. rewrite S_INR. lra. }
  split. { constructor; cbn [w_z w_p w_t w_rh]; rewrite A1, ?A2, ?A3, ?A4; change (car RA) with R; try (first [exact Lpi|exact Lti|exact Lri]); try (intros E0; rewrite E0 in Lz; discriminate Lz). }
  rewrite A1, A2, A3, A4. split; [exact Gz|]. split; [repeat split; assumption|]. split; [exact Lz|]. split; [exact B2|]. split; [exact B1|].
  split. { intros k Hk. rewrite <- (Nz k Hk) at 2 3 4. split; [apply Nz; auto|]. split; [apply Ip; lia|]. split; [apply It; lia|apply Ir; lia]. }
  split; [exact Old|].
  repeat split; reflexivity.
Qed.

(** Elevated stations: the grid starts at 0 km, not at the station; below the station the profile is constant, so that pressure does not
    fall from one level to the next. *)
Theorem C94_elevated_refuted (h : heap RA) (z p t rh : list R) step h' w : z <> [] -> growing z -> 0 < step <= nth 0 z 0 ->
  length p = length z -> length t = length z -> length rh = length z -> wf_init (A:=RA) h z p t rh step = (h', Ok w) ->
  nth 0 (hget h' (w_z w)) 0 = 0 /\ nth 1 (hget h' (w_z w)) 0 = step /\
  nth 0 (hget h' (w_p w)) 0 = nth 0 p 0 /\ nth 1 (hget h' (w_p w)) 0 = nth 0 p 0.
Proof.
  intros Hne G Hs Lp Lt Lr H.
  assert (Hl : (0 < length z)%nat) by (destruct z; [congruence|cbn; lia]).
  assert (Htop : nth 0 z 0 <= nth (length z - 1) z 0).
  { destruct (Nat.eq_dec 0 (length z - 1)) as [<-|N]; [lra|]. left. apply (growing_lt z G). lia. }
  destruct (C94_constructor h z p t rh step Hne G ltac:(lra) ltac:(lra) Lp Lt Lr) as (h1 & w1 & n & E & _ & _ & _ & _ & B & _ & Hk & _).
  rewrite E in H. injection H as <- <-.
  assert (Hn : (1 <= n)%nat) by (destruct n; [cbn in B; lra|lia]).
  destruct (Hk 0%nat ltac:(lia)) as (Z0 & (P0 & _) & _). destruct (Hk 1%nat Hn) as (Z1 & (P1 & _) & _).
  cbn [INR] in *. rewrite Z0, Z1. specialize (P0 ltac:(lra)); specialize (P1 ltac:(lra)); repeat split; lra.
Qed.

Example C94_example : exists h' w, wf_init (A:=RA) [] [0; 1; 2.5] [1000; 900; 750] [290; 284; 275] [0.5; 0.5; 0.2] 1 = (h', Ok w) /\
  length (hget h' (w_z w)) = 4%nat /\ nth 2 (hget h' (w_p w)) 0 = 800 /\ nth 3 (hget h' (w_p w)) 0 = 750.
Proof.
  assert (G : growing [0; 1; 2.5]) by (intros [|[|i]] Hi; cbn in *; try lra; lia).
  destruct (C94_constructor [] [0; 1; 2.5] [1000; 900; 750] [290; 284; 275] [0.5; 0.5; 0.2] 1 ltac:(discriminate) G ltac:(cbn; lra) ltac:(lra) eq_refl eq_refl eq_refl)
    as (h' & w & n & E & _ & _ & _ & Ln & B1 & B2 & Hk & _).
  exists h', w. split; [exact E|]. cbn [length Nat.sub nth] in B1, B2.
  assert (n = 3)%nat as ->.
  { assert (INR n < 4) by lra. assert (2 < INR n) by lra. assert (n < 4)%nat by (apply INR_lt; cbn; lra). assert (2 < n)%nat by (apply INR_lt; cbn; lra). lia. }
  split; [exact Ln|]. destruct (Hk 2%nat ltac:(lia)) as (_ & (_ & _ & I) & _). destruct (Hk 3%nat ltac:(lia)) as (_ & (_ & J & _) & _). split.
  - rewrite (I 1%nat); cbn; try lra; lia.
  - rewrite J; cbn; lra.
Qed.
