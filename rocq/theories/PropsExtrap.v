(** Claims C66-C69, C71, C95 and C97: extension of measured profiles. *)

From Coq Require Import ZArith Reals Lra Lia String List Bool.
Import ListNotations.
From Verif Require Import Arith PyBase Utils Spec ListAux RealAux SolverGen SolverRun PropsUtils PropsLiq Weighting WeightingGen PropsWeighting PropsChannels PropsWfGrid Extrapolation.
Local Open Scope R_scope.

(** ** numpy pieces over the reals *)

Lemma ceilz_R (x : R) : exists n, ceilz (A:=RA) x = Some n /\ IZR n - 1 < x <= IZR n.
Proof.
  destruct (Rle_dec 0 x) as [H|H].
  - destruct (ceilz_spec x H) as (n & E & _ & B). eauto.
  - unfold ceilz. ra. unfold Rtrunc. destruct (Rle_dec 0 x); [lra|]. assert (B := base_Int_part (- x)). set (k := Int_part (- x)) in *.
    unfold Rltb. replace (IZR (- k) / 1) with (- IZR k) by (rewrite opp_IZR; lra). destruct (Rlt_dec (- IZR k) x); [lra|].
    exists (- k)%Z. rewrite opp_IZR. split; [reflexivity|lra].
Qed.

Lemma arange_R (start stop step : R) : 0 < step -> exists n,
  arange (A:=RA) start stop step = Ok (map (fun k => start + INR k * step) (seq 0 n)) /\
  (forall k, (k < n)%nat -> start + INR k * step < stop) /\ (stop <= start + INR n * step).
Proof.
  intros Hs. unfold arange. destruct (ceilz_R ((stop - start) / step)) as (n & E & B). ra. rewrite E. exists (Z.to_nat n).
  assert (Q : (stop - start) / step * step = stop - start) by (field; lra).
  split; [|split].
  - f_equal. apply map_ext. intros k. rewrite of_nat_INR. reflexivity.
  - intros k Hk. assert (Hz : (Z.of_nat k + 1 <= n)%Z) by lia. apply IZR_le in Hz. rewrite plus_IZR, <- INR_IZR_INZ in Hz.
    assert (INR k * step < (stop - start) / step * step) by (apply Rmult_lt_compat_r; lra). lra.
  - assert (Hn : IZR n <= INR (Z.to_nat n)).
    { destruct (Z.le_gt_cases 0 n); [rewrite INR_IZR_INZ, Z2Nat.id by auto; lra|]. apply Rle_trans with 0; [apply (IZR_le n 0); lia|apply pos_INR]. }
    assert ((stop - start) / step * step <= INR (Z.to_nat n) * step) by (apply Rmult_le_compat_r; lra). lra.
Qed.

Lemma where_above_id (m : R) (h : list R) : where_above (A:=RA) m h h = filter (fun x => Rltb m x) h.
Proof.
  unfold where_above. induction h as [|a h IH]; [reflexivity|]. cbn. ra. unfold Rltb in *. destruct (Rlt_dec m a); cbn; f_equal; auto.
Qed.

Lemma where_above_split (m : R) (z e x : list R) : (forall y, In y z -> y <= m) -> (forall y, In y e -> m < y) -> length x = length (z ++ e) ->
  where_above (A:=RA) m (z ++ e) x = skipn (length z) x.
Proof.
  unfold where_above. revert x. induction z as [|a z IH]; intros x Hz He L.
  - cbn [app length skipn] in *. clear Hz. revert x L. induction e as [|b e IHe]; intros x L; destruct x as [|c x]; try discriminate; [reflexivity|].
    cbn. ra. rewrite Rltb_true by (apply He; left; auto). cbn. f_equal. apply IHe; [intros; apply He; right; auto|cbn in L; lia].
  - destruct x as [|c x]; [discriminate|]. cbn. ra. rewrite Rltb_false by (apply Hz; left; auto).
    apply IH; [intros; apply Hz; right; auto|auto|cbn in L; lia].
Qed.

(** ** The extension *)

(** Heights added to a profile with top [m]: every 3.2 km up to 50 km, then the heights of the object above that. *)
Definition added (m : R) (n : nat) : list R := map (fun k => m + 3.2 + INR k * 3.2) (seq 0 n).

Lemma skipn_map_app {X Y} (f : X -> Y) (a b : list X) : skipn (length a) (map f (a ++ b)) = map f b.
Proof. rewrite map_app. rewrite skipn_app, map_length, Nat.sub_diag, skipn_all2 by (rewrite map_length; auto). reflexivity. Qed.

Lemma season_cases lat month : get_season (A:=RA) lat month = "summer"%string \/ get_season (A:=RA) lat month = "winter"%string \/ get_season (A:=RA) lat month = "standard"%string.
Proof. unfold get_season. repeat match goal with |- context [if ?b then _ else _] => destruct b end; auto. Qed.

Lemma reference_app lat month (a b : list R) : exists ta pa wa tb pb wb,
  reference (A:=RA) lat (get_season (A:=RA) lat month) (a ++ b) = Ok ((ta ++ tb)%list, (pa ++ pb)%list, (wa ++ wb)%list) /\
  reference (A:=RA) lat (get_season (A:=RA) lat month) b = Ok (tb, pb, wb) /\
  length ta = length a /\ length pa = length a /\ length wa = length a /\
  length tb = length b /\ length pb = length b /\ length wb = length b.
Proof.
  unfold reference, itu_temperature, itu_pressure, itu_wvd, by_season.
  destruct (season_cases lat month) as [E|[E|E]]; rewrite E; cbn [String.eqb Ascii.eqb negb Bool.eqb bind];
    rewrite !map_app; do 6 eexists; (split; [reflexivity|]); (split; [reflexivity|]); rewrite !map_length; auto 10.
Qed.

Lemma combine3 {X Y Z} (a1 a2 : list X) (b1 b2 : list Y) (c1 c2 : list Z) : length a1 = length b1 -> length a1 = length c1 ->
  combine (a1 ++ a2) (combine (b1 ++ b2) (c1 ++ c2)) = (combine a1 (combine b1 c1) ++ combine a2 (combine b2 c2))%list.
Proof.
  revert b1 c1. induction a1 as [|x a1 IH]; intros [|y b1] [|w c1]; cbn; intros; try discriminate; [reflexivity|]. f_equal. apply IH; lia.
Qed.

(** Relative humidity of an added level, from its water-vapour density (g/m3) and temperature: vapour pressure over saturation pressure. *)
Definition rel_hum (w t : R) : R := (w * t / 216.7) / satvap (A:=RA) t None.

Definition humid (p t w : R) : R := fst (rho2rh (A:=RA) w t p).
Lemma humid_percent p t w : p <> 0 -> p <> w * t / 216.7 -> humid p t w = 100 * rel_hum w t.
Proof.
  intros Hp He. unfold humid, rho2rh, mr2rh, rel_hum. cbn [fst].
  assert (E : div (a:=RA) (mul (a:=RA) w t) (lit (a:=RA) 216.7) = w * t / 216.7) by (ra; lra).
  rewrite E. rewrite (proj1 (C31_e_mr_inverse p (w * t / 216.7) 0 Hp) He). assert (S := satvap_pos t None). set (s := satvap (A:=RA) t None) in *.
  clearbody s. change (car RA) with R in s. set (e := w * t / 216.7). ra. field. apply Rgt_not_eq, S.
Qed.

(** *** C66, for an object in any state *)
Theorem C66_one_call (o : pex RA) (lat : R) (month : Z) (z p t rh : list R) m :
  In m z -> (forall x, In x z -> x <= m) -> m < 50 -> length p = length z -> length t = length z -> length rh = length z ->
  exists n (ext pe te we : list R), let h := (z ++ ext)%list in
    ext = (added m n ++ filter (fun x => Rltb (last (added m n) m) x) (ex_height o))%list /\
    (forall k, (k < n)%nat -> m + 3.2 + INR k * 3.2 < 50) /\ 50 <= m + 3.2 + INR n * 3.2 /\
    profile_extrapolation o lat month z p t rh =
      (mkPex (A:=RA) h, Ok (h, (p ++ pe)%list, (t ++ te)%list, (rh ++ map (fun x => humid (fst x) (fst (snd x)) (snd (snd x))) (combine pe (combine te we)))%list)) /\
    reference (A:=RA) lat (get_season (A:=RA) lat month) ext = Ok (te, pe, we) /\
    length pe = length ext /\ length te = length ext /\ length we = length ext /\
    (forall x, In x ext -> m < x).
Proof.
  intros Hin Hm H50 Lp Lt Lr. unfold profile_extrapolation.
  assert (EM : np_max (A:=RA) z = Ok m) by (apply np_max_spec; auto). rewrite EM.
  assert (E0 : ltb (a:=RA) m (lit 50) = true) by (ra; apply Rltb_true; lra). rewrite E0.
  destruct (arange_R (m + 3.2) 50 3.2 ltac:(lra)) as (n & Ea & B1 & B2).
  assert (Ea' : arange (A:=RA) (add (a:=RA) m (lit 3.2)) (lit 50) (lit 3.2) = Ok (added m n)).
  { unfold added. rewrite <- Ea. f_equal; ra; lra. }
  rewrite Ea'. clear Ea Ea'.
  assert (HA : forall x, In x (added m n) -> m < x).
  { intros x Hx. unfold added in Hx. apply in_map_iff in Hx. destruct Hx as (k & <- & _). assert (K := pos_INR k). lra. }
  assert (ML : np_max (A:=RA) (z ++ added m n) = Ok (last (added m n) m)).
  { apply np_max_spec. destruct n as [|n].
    - cbn [added seq map last]. rewrite app_nil_r. auto.
    - assert (EL : last (added m (S n)) m = m + 3.2 + INR n * 3.2).
      { unfold added. rewrite seq_S, map_app. cbn [map Nat.add]. rewrite last_last. reflexivity. }
      rewrite EL. split.
      + apply in_or_app. right. unfold added. apply in_map_iff. exists n. split; [reflexivity|apply in_seq; lia].
      + intros y Hy. apply in_app_or in Hy. assert (K := pos_INR n). destruct Hy as [Hy|Hy]; [specialize (Hm y Hy); lra|].
        unfold added in Hy. apply in_map_iff in Hy. destruct Hy as (k & <- & Hk). apply in_seq in Hk. assert (INR k <= INR n) by (apply le_INR; lia). lra. }
  cbv zeta. change (car RA) with R in *. rewrite ML. rewrite where_above_id. set (mh := last (added m n) m) in *. set (flt := filter (fun x => Rltb mh x) (ex_height o)).
  assert (Hmh : m <= mh).
  { unfold mh. destruct n as [|n]; [cbn; lra|]. unfold added. rewrite seq_S, map_app. cbn [map Nat.add]. rewrite last_last. assert (K := pos_INR n). cbn [Nat.add]. lra. }
  assert (HE : forall x, In x (added m n ++ flt) -> m < x).
  { intros x Hx. apply in_app_or in Hx. destruct Hx as [Hx|Hx]; [auto|]. apply filter_In in Hx. destruct Hx as [_ Hx]. unfold Rltb in Hx. destruct (Rlt_dec mh x); [lra|discriminate]. }
  set (ext := (added m n ++ flt)%list) in *.
  destruct (reference_app lat month z ext) as (ta & pa & wa & te & pe & we & ER & ER' & La & Lpa & Lwa & Le & Lpe & Lwe).
  change (car RA) with R in *.
  exists n, ext, pe, te, we. cbv zeta. split; [reflexivity|]. split; [exact B1|]. split; [exact B2|]. split; [|auto 10].
  replace ((z ++ added m n) ++ flt)%list with (z ++ ext)%list by (unfold ext; rewrite app_assoc; reflexivity).
  f_equal. rewrite ER. cbn [bind].
  assert (WA : forall a b : list R, length a = length z -> length b = length ext -> where_above (A:=RA) m (z ++ ext) (a ++ b) = b).
  { intros a b Ha Hb. rewrite where_above_split; auto; [|rewrite !app_length; lia]. rewrite skipn_app, <- Ha, Nat.sub_diag, skipn_all. reflexivity. }
  rewrite !WA by auto. unfold rho2rh_arr. change (car RA) with R.
  assert (Q1 : length (wa ++ we) = length (t ++ te)) by (rewrite !app_length; congruence).
  assert (Q2 : length (wa ++ we) = length (p ++ pe)) by (rewrite !app_length; congruence).
  change (car RA) with R in *. rewrite (proj2 (Nat.eqb_eq _ _) Q1), (proj2 (Nat.eqb_eq _ _) Q2). cbn [andb bind].
  do 2 f_equal. f_equal. rewrite (combine3 wa we t te p pe) by congruence. rewrite map_app. rewrite WA.
  - clear -Le Lpe Lwe. revert pe te we Le Lpe Lwe. induction ext as [|x l IH]; intros [|a pe] [|b te] [|c we]; cbn; intros; try discriminate; [reflexivity|].
    f_equal. apply IH; lia.
  - rewrite map_length, !combine_length. lia.
  - rewrite map_length, !combine_length. lia.
Qed.

(** ** Increasing heights *)

Inductive sorted : list R -> Prop :=
| sorted_nil : sorted []
| sorted_cons a l : (forall y, In y l -> a < y) -> sorted l -> sorted (a :: l).

Lemma growing_sorted l : growing l <-> sorted l.
Proof.
  split.
  - induction l as [|a l IH]; intros G; [constructor|]. constructor.
    + intros y Hy. apply (In_nth _ _ 0) in Hy. destruct Hy as (i & Hi & <-). apply (growing_lt (a :: l) G 0 (S i)). cbn; lia.
    + apply IH. intros i Hi. apply (G (S i)). cbn; lia.
  - induction 1 as [|a l Ha Hs IH]; intros i Hi; [cbn in Hi; lia|]. destruct i as [|i]; cbn [nth].
    + destruct l as [|b l]; [cbn in Hi; lia|]. apply Ha. left. auto.
    + apply IH. cbn in Hi. lia.
Qed.
Lemma sorted_app a b : sorted a -> sorted b -> (forall x y, In x a -> In y b -> x < y) -> sorted (a ++ b).
Proof.
  induction 1 as [|x a Ha Hs IH]; intros Hb H; [auto|]. cbn. constructor.
  - intros y Hy. apply in_app_or in Hy. destruct Hy; [auto|apply H; [left; auto|auto]].
  - apply IH; [auto|]. intros; apply H; [right; auto|auto].
Qed.
Lemma sorted_filter f l : sorted l -> sorted (filter f l).
Proof.
  induction 1 as [|x a Ha Hs IH]; [constructor|]. cbn. destruct (f x); [|auto]. constructor; [|auto]. intros y Hy. apply filter_In in Hy. apply Ha, Hy.
Qed.
Lemma sorted_map_seq (f : nat -> R) n : (forall i j, (i < j)%nat -> f i < f j) -> forall s, sorted (map f (seq s n)).
Proof.
  intros H. induction n as [|n IH]; intros s; [constructor|]. cbn. constructor; [|apply IH].
  intros y Hy. apply in_map_iff in Hy. destruct Hy as (k & <- & Hk). apply in_seq in Hk. apply H. lia.
Qed.
Lemma sorted_added m n : sorted (added m n).
Proof. apply sorted_map_seq. intros i j Hij. apply lt_INR in Hij. lra. Qed.
Lemma added_last m n x : In x (added m n) -> x <= last (added m n) m.
Proof.
  intros Hx. destruct n as [|n]; [destruct Hx|]. unfold added in *. rewrite seq_S, map_app. cbn [map Nat.add]. rewrite last_last.
  apply in_map_iff in Hx. destruct Hx as (k & <- & Hk). apply in_seq in Hk. assert (INR k <= INR n) by (apply le_INR; lia). lra.
Qed.

(** *** C66: objects used before *)

(** The objects a user can have: fresh ones, and those left behind by any number of extensions of increasing profiles,
    successful or not (profiles that reach 50 km, or whose arrays have different lengths). *)
Inductive reachable : pex RA -> Prop :=
| reach_init o : ex_init (A:=RA) "ITU-Annex1" = Ok o -> reachable o
| reach_call o lat month z p t rh o' r : reachable o -> growing z -> profile_extrapolation o lat month z p t rh = (o', r) -> reachable o'.

Lemma of_natR k : of_nat (A:=RA) k = INR k. Proof. apply of_nat_INR. Qed.

Lemma linspace_R (a b : R) n : (2 <= n)%nat -> linspace (A:=RA) a b n = map (fun i => a + INR i * ((b - a) / INR (n - 1))) (seq 0 n).
Proof.
  intros Hn. unfold linspace. apply map_ext_in. intros i Hi. ra. rewrite !of_natR. destruct (Nat.eqb_spec i (n - 1)) as [->|]; [|reflexivity].
  assert (0 < INR (n - 1)) by (apply lt_0_INR; lia). ra. field. lra.
Qed.

Definition default_heights : list R := (map (fun i => INR i) (seq 0 26) ++ map (fun i => 27.5 + INR i * 2.5) (seq 0 10) ++ map (fun i => 55 + INR i * 5) (seq 0 10))%list.
Lemma init_heights o : ex_init (A:=RA) "ITU-Annex1" = Ok o -> ex_height o = default_heights.
Proof.
  intros H. unfold ex_init in H. cbn [String.eqb Ascii.eqb Bool.eqb] in H. apply ok_inj in H. rewrite <- H. cbn [ex_height].
  rewrite !linspace_R by lia. unfold default_heights.
  assert (N25 : INR (26 - 1) = 25) by (rewrite INR_IZR_INZ; reflexivity). assert (N9 : INR (10 - 1) = 9) by (rewrite INR_IZR_INZ; reflexivity).
  rewrite N25, N9. apply f_equal2; [|apply f_equal2]; apply map_ext; intros i; ra; lra.
Qed.

Definition good (h : list R) : Prop := sorted h /\ In 100 h /\ forall x, In x h -> x <= 100.

Lemma default_good : good default_heights.
Proof.
  unfold default_heights. assert (B : forall i n, In i (seq 0 n) -> 0 <= INR i <= INR n - 1).
  { intros i n Hi. apply in_seq in Hi. split; [apply pos_INR|]. assert (Q : (i <= n - 1)%nat) by lia. apply le_INR in Q. rewrite minus_INR in Q by lia. cbn in Q. lra. }
  assert (N26 : INR 26 = 26) by (rewrite INR_IZR_INZ; reflexivity). assert (N10 : INR 10 = 10) by (rewrite INR_IZR_INZ; reflexivity).
  split; [|split].
  - apply sorted_app; [apply sorted_map_seq; intros; apply lt_INR; auto|apply sorted_app; try (apply sorted_map_seq; intros i j Hij; apply lt_INR in Hij; lra)|].
    + intros x y Hx Hy. apply in_map_iff in Hx, Hy. destruct Hx as (i & <- & Hi), Hy as (j & <- & Hj). apply B in Hi, Hj. lra.
    + intros x y Hx Hy. apply in_map_iff in Hx. destruct Hx as (i & <- & Hi). apply B in Hi.
      apply in_app_or in Hy. destruct Hy as [Hy|Hy]; apply in_map_iff in Hy; destruct Hy as (j & <- & Hj); apply B in Hj; lra.
  - apply in_or_app. right. apply in_or_app. right. apply in_map_iff. exists 9%nat. split; [rewrite INR_IZR_INZ; cbn; lra|apply in_seq; lia].
  - intros x Hx. apply in_app_or in Hx. destruct Hx as [Hx|Hx]; [|apply in_app_or in Hx; destruct Hx as [Hx|Hx]];
    apply in_map_iff in Hx; destruct Hx as (i & <- & Hi); apply B in Hi; lra.
Qed.

Lemma growing_max z : z <> [] -> growing z -> In (last z 0) z /\ forall x, In x z -> x <= last z 0.
Proof.
  intros Hne G. assert (L : last z 0 = nth (length z - 1) z 0).
  { clear G. induction z as [|a z IH]; [congruence|]. destruct z as [|b z]; [reflexivity|]. cbn [last length Nat.sub nth] in *. rewrite IH by discriminate. rewrite ?Nat.sub_0_r. reflexivity. }
  assert (Hl : (0 < length z)%nat) by (destruct z; [congruence|cbn; lia]).
  rewrite L. split; [apply nth_In; lia|]. intros x Hx. apply (In_nth _ _ 0) in Hx. destruct Hx as (i & Hi & <-).
  destruct (Nat.eq_dec i (length z - 1)) as [->|]; [lra|]. left. apply (growing_lt z G). lia.
Qed.

(** What a call computes from its height vector. *)
Definition finish (lat : R) (month : Z) (m : R) (h p t rh : list R) : result (list R * list R * list R * list R) :=
  do r <- reference (A:=RA) lat (get_season (A:=RA) lat month) h;
  let '(ta, pp, wvd) := r in
  do rr <- rho2rh_arr (A:=RA) wvd (t ++ where_above (A:=RA) m h ta)%list (p ++ where_above (A:=RA) m h pp)%list;
  Ok (h, (p ++ where_above (A:=RA) m h pp)%list, (t ++ where_above (A:=RA) m h ta)%list, (rh ++ where_above (A:=RA) m h rr)%list).

(** The height vector of a call: the same number of levels is added whatever the object. *)
Lemma call_form (z : list R) m : In m z -> (forall x, In x z -> x <= m) -> m < 50 ->
  exists n, (forall k, (k < n)%nat -> m + 3.2 + INR k * 3.2 < 50) /\ 50 <= m + 3.2 + INR n * 3.2 /\
    forall (o : pex RA) lat month p t rh,
      let h := (z ++ added m n ++ filter (fun x => Rltb (last (added m n) m) x) (ex_height o))%list in
      profile_extrapolation o lat month z p t rh = (mkPex (A:=RA) h, finish lat month m h p t rh).
Proof.
  intros Hin Hm H50. unfold profile_extrapolation.
  assert (EM : np_max (A:=RA) z = Ok m) by (apply np_max_spec; auto).
  assert (E0 : ltb (a:=RA) m (lit 50) = true) by (ra; apply Rltb_true; lra).
  destruct (arange_R (m + 3.2) 50 3.2 ltac:(lra)) as (n & Ea & B1 & B2).
  assert (Ea' : arange (A:=RA) (add (a:=RA) m (lit 3.2)) (lit 50) (lit 3.2) = Ok (added m n)).
  { unfold added. rewrite <- Ea. f_equal; ra; lra. }
  exists n. split; [exact B1|]. split; [exact B2|]. intros o lat month p t rh. cbv zeta. rewrite EM, E0, Ea'.
  assert (ML : np_max (A:=RA) (z ++ added m n) = Ok (last (added m n) m)).
  { apply np_max_spec. destruct n as [|n].
    - cbn [added seq map last]. rewrite app_nil_r. auto.
    - assert (EL : last (added m (S n)) m = m + 3.2 + INR n * 3.2).
      { unfold added. rewrite seq_S, map_app. cbn [map Nat.add]. rewrite last_last. reflexivity. }
      rewrite EL. split.
      + apply in_or_app. right. unfold added. apply in_map_iff. exists n. split; [reflexivity|apply in_seq; lia].
      + intros y Hy. apply in_app_or in Hy. assert (K := pos_INR n). destruct Hy as [Hy|Hy]; [specialize (Hm y Hy); lra|].
        unfold added in Hy. apply in_map_iff in Hy. destruct Hy as (k & <- & Hk). apply in_seq in Hk. assert (INR k <= INR n) by (apply le_INR; lia). lra. }
  change (car RA) with R in *. rewrite ML. rewrite where_above_id. rewrite <- app_assoc. reflexivity.
Qed.

(** The heights stored by a call, whatever becomes of it. *)
Lemma call_height (o : pex RA) lat month z p t rh m o' r : In m z -> (forall x, In x z -> x <= m) ->
  profile_extrapolation o lat month z p t rh = (o', r) ->
  (50 <= m /\ o' = o /\ r = Err UnboundLocalError) \/
  (m < 50 /\ exists n, (forall k, (k < n)%nat -> m + 3.2 + INR k * 3.2 < 50) /\
     ex_height o' = (z ++ added m n ++ filter (fun x => Rltb (last (added m n) m) x) (ex_height o))%list).
Proof.
  intros Hin Hm H. destruct (Rlt_dec m 50) as [Hlt|Hge].
  - right. split; [auto|]. destruct (call_form z m Hin Hm Hlt) as (n & B & _ & E). exists n. split; [auto|]. rewrite E in H. injection H as <- _. reflexivity.
  - left. unfold profile_extrapolation in H. assert (EM : np_max (A:=RA) z = Ok m) by (apply np_max_spec; auto). rewrite EM in H.
    assert (E0 : ltb (a:=RA) m (lit 50) = false) by (ra; apply Rltb_false; lra). rewrite E0 in H. injection H as <- <-. split; [lra|auto].
Qed.

Lemma added_lt m n x : m < 50 -> (forall k, (k < n)%nat -> m + 3.2 + INR k * 3.2 < 50) -> In x (added m n) -> m < x < 50.
Proof.
  intros Hm B Hx. unfold added in Hx. apply in_map_iff in Hx. destruct Hx as (k & <- & Hk). apply in_seq in Hk. assert (K := pos_INR k). split; [lra|apply B; lia].
Qed.
Lemma last_lt m n : m < 50 -> (forall k, (k < n)%nat -> m + 3.2 + INR k * 3.2 < 50) -> m <= last (added m n) m < 50.
Proof.
  intros Hm B. destruct n as [|n]; [cbn; lra|]. unfold added. rewrite seq_S, map_app. cbn [map Nat.add]. rewrite last_last. assert (K := pos_INR n). split; [lra|apply B; lia].
Qed.

Lemma good_next h z m n : good h -> sorted z -> In m z -> (forall x, In x z -> x <= m) -> m < 50 -> (forall k, (k < n)%nat -> m + 3.2 + INR k * 3.2 < 50) ->
  good (z ++ added m n ++ filter (fun x => Rltb (last (added m n) m) x) h).
Proof.
  intros (S & I & B) Sz Hin Hm H50 Bk. assert (LL := last_lt m n H50 Bk).
  assert (FF : forall x, In x (filter (fun x => Rltb (last (added m n) m) x) h) -> last (added m n) m < x /\ In x h).
  { intros x Hx. apply filter_In in Hx. destruct Hx as [H1 H2]. unfold Rltb in H2. destruct (Rlt_dec (last (added m n) m) x); [auto|discriminate]. }
  split; [|split].
  - apply sorted_app; [auto|apply sorted_app; [apply sorted_added|apply sorted_filter; auto|]|].
    + intros x y Hx Hy. apply added_last in Hx. apply FF in Hy. lra.
    + intros x y Hx Hy. specialize (Hm x Hx). apply in_app_or in Hy. destruct Hy as [Hy|Hy]; [apply (added_lt m n y H50 Bk) in Hy; lra|apply FF in Hy; lra].
  - apply in_or_app. right. apply in_or_app. right. apply filter_In. split; [auto|]. apply Rltb_true. lra.
  - intros x Hx. apply in_app_or in Hx. destruct Hx as [Hx|Hx]; [specialize (Hm x Hx); lra|]. apply in_app_or in Hx.
    destruct Hx as [Hx|Hx]; [apply (added_lt m n x H50 Bk) in Hx; lra|apply B, FF, Hx].
Qed.

Lemma reachable_good o : reachable o -> good (ex_height o).
Proof.
  induction 1 as [o E|o lat month z p t rh o' r Ho IH G E].
  - rewrite (init_heights o E). apply default_good.
  - destruct z as [|a z]; [cbn in E; injection E as <- _; exact IH|].
    destruct (growing_max (a :: z) ltac:(discriminate) G) as [H1 H2].
    destruct (call_height o lat month (a :: z) p t rh _ o' r H1 H2 E) as [(_ & -> & _)|(Hlt & n & B & ->)]; [auto|].
    apply good_next; auto. apply growing_sorted; auto.
Qed.

(** Extension of an increasing profile below 50 km with an object of any history: measured values unchanged and first, arrays of one
    length, heights strictly increasing and up to 100 km. *)
Theorem C66_extrapolation (o : pex RA) (lat : R) (month : Z) (z p t rh : list R) : reachable o -> z <> [] -> growing z -> last z 0 < 50 ->
  length p = length z -> length t = length z -> length rh = length z ->
  exists o' h pres temp hum, profile_extrapolation o lat month z p t rh = (o', Ok (h, pres, temp, hum)) /\
    firstn (length z) h = z /\ firstn (length z) pres = p /\ firstn (length z) temp = t /\ firstn (length z) hum = rh /\
    length pres = length h /\ length temp = length h /\ length hum = length h /\
    growing h /\ last h 0 = 100 /\ reachable o'.
Proof.
  intros Ro Hne G H50 Lp Lt Lr. destruct (growing_max z Hne G) as [M1 M2].
  destruct (C66_one_call o lat month z p t rh _ M1 M2 H50 Lp Lt Lr) as (n & ext & pe & te & we & Ee & B & _ & E & _ & L1 & L2 & L3 & _). cbv zeta in E.
  assert (FN : forall a b : list R, length a = length z -> firstn (length z) (a ++ b) = a).
  { intros a b L. rewrite firstn_app, <- L, Nat.sub_diag, firstn_all, firstn_O, app_nil_r. reflexivity. }
  do 5 eexists. split; [exact E|]. rewrite !FN by auto. do 4 (split; [reflexivity|]).
  split; [rewrite !app_length; lia|]. split; [rewrite !app_length; lia|]. split; [rewrite !app_length, map_length, !combine_length; lia|].
  assert (Gd : good (z ++ ext)) by (rewrite Ee; apply good_next; auto; [apply reachable_good; auto|apply growing_sorted; auto]).
  destruct Gd as (S & I & Bd). split; [apply growing_sorted; auto|]. split.
  - destruct (growing_max (z ++ ext)) as [Q1 Q2]; [intros Q; rewrite Q in I; destruct I|apply growing_sorted; auto|]. specialize (Q2 100 I). specialize (Bd _ Q1). change (car RA) with R in *. lra.
  - eapply reach_call; eauto.
Qed.

(** ** C67: profiles that reach 50 km cannot be extended *)
Theorem C67_tall_refuted (o : pex RA) (lat : R) (month : Z) (z p t rh : list R) x : In x z -> 50 <= x ->
  profile_extrapolation o lat month z p t rh = (o, Err UnboundLocalError).
Proof.
  intros Hx H50. destruct (fold_max_ge (tl z) (hd 0 z)) as [F1 F2]. destruct z as [|a z]; [destruct Hx|]. cbn [hd tl] in *.
  unfold profile_extrapolation. cbn [np_max]. set (M := fold_left (maxv (A:=RA)) z a) in *.
  assert (HM : 50 <= M) by (destruct Hx as [<-|Hx]; [lra|specialize (F2 x Hx); lra]).
  assert (E0 : ltb (a:=RA) M (lit 50) = false) by (ra; apply Rltb_false; lra). change (car RA) with R in *. rewrite E0. reflexivity.
Qed.

(** ** C68: repeated calls *)

(** Extending profiles with the same heights again, with whatever values, date and place, gives what the object gave the first time. *)
Theorem C68_same_heights (o o1 : pex RA) (lat lat' : R) (month month' : Z) (z p t rh p' t' rh' : list R) r1 : z <> [] -> growing z ->
  profile_extrapolation o lat month z p t rh = (o1, r1) ->
  profile_extrapolation o1 lat' month' z p' t' rh' = profile_extrapolation o lat' month' z p' t' rh'.
Proof.
  intros Hne G E. destruct (growing_max z Hne G) as [M1 M2]. set (m := last z 0) in *. destruct (Rlt_dec m 50) as [H|H].
  2:{ rewrite (C67_tall_refuted o lat month z p t rh m M1 ltac:(lra)) in E. injection E as <- _. reflexivity. }
  destruct (call_form z m M1 M2 H) as (n & B & _ & F). cbv zeta in F. rewrite F in E. injection E as <- _.
  assert (K : filter (fun x => Rltb (last (added m n) m) x) (z ++ added m n ++ filter (fun x => Rltb (last (added m n) m) x) (ex_height o))
     = filter (fun x => Rltb (last (added m n) m) x) (ex_height o)).
  { set (ml := last (added m n) m) in *. rewrite !filter_app.
    assert (F0 : forall l : list R, (forall x, In x l -> x <= ml) -> filter (fun x => Rltb ml x) l = []).
    { induction l as [|a l IH]; intros Hl; [reflexivity|]. cbn. rewrite Rltb_false by (apply Hl; left; auto). apply IH. intros; apply Hl; right; auto. }
    assert (LL := last_lt m n H B). fold ml in LL. rewrite (F0 z) by (intros x Hx; specialize (M2 x Hx); lra).
    rewrite (F0 (added m n)) by (intros x Hx; apply added_last; auto). cbn [app].
    generalize (ex_height o). intros h. change (car RA) with R in *. induction h as [|a h IH]; [reflexivity|]. cbn. destruct (Rltb ml a) eqn:Ea; cbn; [rewrite Ea; f_equal|]; auto. }
  rewrite !F. cbn [ex_height]. change (car RA) with R in *. rewrite K. reflexivity.
Qed.

(** Otherwise earlier profiles show: a level of an earlier profile (or a level added to it) above the last added level turns up in the
    extension of a later one, where a fresh object does not have it. *)
Theorem C68_leftover (o o1 : pex RA) (lat : R) (month : Z) (z1 p1 t1 rh1 z p t rh : list R) r1 x : z1 <> [] -> growing z1 -> z <> [] -> growing z ->
  last z1 0 < 50 -> last z 0 < 50 -> length p = length z -> length t = length z -> length rh = length z ->
  profile_extrapolation o lat month z1 p1 t1 rh1 = (o1, r1) -> In x z1 -> last z 0 + 3.2 <= x -> (forall k, last z 0 + 3.2 + INR k * 3.2 < 50 -> last z 0 + 3.2 + INR k * 3.2 < x) ->
  exists o2 h pres temp hum, profile_extrapolation o1 lat month z p t rh = (o2, Ok (h, pres, temp, hum)) /\ In x h.
Proof.
  intros N1 G1 N G H1 H Lp Lt Lr E Hx Hx1 Hx2. destruct (growing_max z1 N1 G1) as [A1 A2]. destruct (growing_max z N G) as [M1 M2].
  destruct (call_height o lat month z1 p1 t1 rh1 _ o1 r1 A1 A2 E) as [(Q & _)|(_ & n1 & B1 & E1)]; [lra|].
  destruct (C66_one_call o1 lat month z p t rh _ M1 M2 H Lp Lt Lr) as (n & ext & pe & te & we & Ee & B & _ & E2 & _). cbv zeta in E2.
  do 5 eexists. split; [exact E2|]. apply in_or_app. right. rewrite Ee. apply in_or_app. right. apply filter_In. split.
  - rewrite E1. apply in_or_app. left. auto.
  - apply Rltb_true. destruct n as [|n]; [change (last (added (last z 0) 0) (last z 0)) with (last z 0); lra|]. unfold added. rewrite seq_S, map_app. cbn [map Nat.add]. rewrite last_last. apply Hx2, B. lia.
Qed.

(** A fresh object that first extends [0, 40] km gives another extension of [0, 10] km than a fresh one. *)
Theorem C68_refuted : exists o o1 r1 h pres temp hum h' pres' temp' hum' o2 o2', ex_init (A:=RA) "ITU-Annex1" = Ok o /\
  profile_extrapolation o 0 1 [0; 40] [1000; 3] [290; 250] [0; 0] = (o1, r1) /\
  profile_extrapolation o 0 1 [0; 10] [1000; 265] [290; 230] [0; 0] = (o2, Ok (h, pres, temp, hum)) /\
  profile_extrapolation o1 0 1 [0; 10] [1000; 265] [290; 230] [0; 0] = (o2', Ok (h', pres', temp', hum')) /\
  In 49.6 h' /\ ~ In 49.6 h.
Proof.
  destruct (ex_init (A:=RA) "ITU-Annex1") as [o|] eqn:Eo; [|discriminate].
  assert (G40 : growing [0; 40]) by (intros [|i] Hi; cbn in *; [lra|lia]). assert (G10 : growing [0; 10]) by (intros [|i] Hi; cbn in *; [lra|lia]).
  assert (M40 : In 40 [0; 40] /\ forall x, In x [0; 40] -> x <= 40) by (split; [cbn; auto|intros x [<-|[<-|[]]]; lra]).
  assert (M10 : In 10 [0; 10] /\ forall x, In x [0; 10] -> x <= 10) by (split; [cbn; auto|intros x [<-|[<-|[]]]; lra]).
  destruct (C66_one_call o 0 1 [0; 40] [1000; 3] [290; 250] [0; 0] 40 (proj1 M40) (proj2 M40) ltac:(lra) eq_refl eq_refl eq_refl) as (n1 & e1 & p1 & t1 & w1 & Ee1 & B1 & C1 & E1 & _).
  destruct (C66_one_call o 0 1 [0; 10] [1000; 265] [290; 230] [0; 0] 10 (proj1 M10) (proj2 M10) ltac:(lra) eq_refl eq_refl eq_refl) as (n2 & e2 & p2 & t2 & w2 & Ee2 & B2 & C2 & E2 & _).
  cbv zeta in E1, E2. set (o1 := mkPex (A:=RA) ([0; 40] ++ e1)) in *.
  destruct (C66_one_call o1 0 1 [0; 10] [1000; 265] [290; 230] [0; 0] 10 (proj1 M10) (proj2 M10) ltac:(lra) eq_refl eq_refl eq_refl) as (n3 & e3 & p3 & t3 & w3 & Ee3 & B3 & C3 & E3 & _).
  cbv zeta in E3. do 13 eexists. split; [reflexivity|]. split; [exact E1|]. split; [exact E2|]. split; [exact E3|].
  assert (NB : forall (m : R) n (q : nat), (forall k, (k < n)%nat -> m + 3.2 + INR k * 3.2 < 50) -> 50 <= m + 3.2 + INR n * 3.2 -> m + 3.2 + INR q * 3.2 < 50 -> 50 <= m + 3.2 + INR (S q) * 3.2 -> n = S q).
  { intros m n q Hb Hc H1 H2. destruct (Nat.lt_trichotomy n (S q)) as [L|[L|L]]; [|auto|].
    - assert (INR n <= INR q) by (apply le_INR; lia). lra.
    - specialize (Hb (S q) L). lra. }
  assert (n1 = 3)%nat as -> by (apply (NB 40 n1 2%nat); auto; rewrite INR_IZR_INZ; cbn; lra).
  assert (n2 = 12)%nat as -> by (apply (NB 10 n2 11%nat); auto; rewrite INR_IZR_INZ; cbn; lra).
  assert (n3 = 12)%nat as -> by (apply (NB 10 n3 11%nat); auto; rewrite INR_IZR_INZ; cbn; lra).
  assert (L12 : last (added 10 12) 10 = 48.4) by (unfold added; cbn [seq map last]; rewrite INR_IZR_INZ; cbn; lra).
  split.
  - apply in_or_app. right. rewrite Ee3. apply in_or_app. right. apply filter_In. split; [|rewrite L12; apply Rltb_true; lra].
    cbn [o1 ex_height]. apply in_or_app. right. rewrite Ee1. apply in_or_app. left. unfold added. apply in_map_iff. exists 2%nat. split; [rewrite INR_IZR_INZ; cbn; lra|apply in_seq; lia].
  - intros Q. apply in_app_or in Q. destruct Q as [Q|Q]; [cbn in Q; destruct Q as [Q|[Q|[]]]; lra|].
    rewrite Ee2 in Q. apply in_app_or in Q. destruct Q as [Q|Q].
    + apply added_last in Q. rewrite L12 in Q. lra.
    + apply filter_In in Q. destruct Q as [Q _]. rewrite (init_heights o Eo) in Q. unfold default_heights in Q.
      repeat (apply in_app_or in Q; destruct Q as [Q|Q]); apply in_map_iff in Q; destruct Q as (k & Q & Hk); apply in_seq in Hk.
      * assert (INR k <= INR 25) by (apply le_INR; lia). rewrite (INR_IZR_INZ 25) in *. cbn in *. lra.
      * destruct (Nat.le_gt_cases k 8) as [L|L].
        -- assert (INR k <= INR 8) by (apply le_INR; lia). rewrite (INR_IZR_INZ 8) in *. cbn in *. lra.
        -- assert (k = 9)%nat as -> by lia. rewrite INR_IZR_INZ in Q. cbn in Q. lra.
      * assert (K := pos_INR k). lra.
Qed.

Example C66_example : exists o, ex_init (A:=RA) "ITU-Annex1" = Ok o /\ reachable o /\ [0; 2; 10] <> [] /\ growing [0; 2; 10] /\ last [0; 2; 10] 0 < 50.
Proof.
  destruct (ex_init (A:=RA) "ITU-Annex1") as [o|] eqn:Eo; [|discriminate]. exists o. split; [reflexivity|]. split; [apply reach_init; auto|]. split; [discriminate|].
  split; [intros [|[|i]] Hi; cbn in *; [lra|lra|lia]|cbn; lra].
Qed.
Example C67_example : In 60 [0; 30; 60] /\ 50 <= 60. Proof. split; [cbn; auto|lra]. Qed.

(** ** C69: seasons *)

(** Specification: the local season of a month, for latitudes beyond 20 degrees. *)
Definition northern_season (month : Z) : string :=
  if ((6 <=? month) && (month <=? 8))%Z%bool then "summer"
  else if ((month =? 12) || (1 <=? month) && (month <=? 2))%Z%bool then "winter" else "standard".

Lemma months_678 m : in_months m [6; 7; 8]%Z = ((6 <=? m) && (m <=? 8))%Z%bool.
Proof. unfold in_months. cbn [existsb]. destruct (Z.eqb_spec m 6), (Z.eqb_spec m 7), (Z.eqb_spec m 8), (Z.leb_spec 6 m), (Z.leb_spec m 8); cbn; try reflexivity; lia. Qed.
Lemma months_1212 m : in_months m [1; 2; 12]%Z = ((m =? 12) || (1 <=? m) && (m <=? 2))%Z%bool.
Proof. unfold in_months. cbn [existsb]. destruct (Z.eqb_spec m 1), (Z.eqb_spec m 2), (Z.eqb_spec m 12), (Z.leb_spec 1 m), (Z.leb_spec m 2); cbn; try reflexivity; lia. Qed.

Theorem C69_north (lat : R) (month : Z) : 20 < lat -> get_season (A:=RA) lat month = northern_season month.
Proof.
  intros H. unfold get_season, northern_season. ra. rewrite Rltb_true by lra. rewrite Rltb_false by lra. rewrite months_678, months_1212.
  destruct ((6 <=? month) && (month <=? 8))%Z%bool; cbn [andb orb]; [reflexivity|]. rewrite orb_false_r. reflexivity.
Qed.
Theorem C69_tropics (lat : R) (month : Z) : - 20 <= lat <= 20 -> get_season (A:=RA) lat month = "standard"%string.
Proof. intros H. unfold get_season. ra. rewrite !Rltb_false by lra. reflexivity. Qed.
(** The southern hemisphere has in each month the season the northern one has six months later. *)
Theorem C69_south (lat : R) (month : Z) : (1 <= month <= 12)%Z -> get_season (A:=RA) (- lat) month = get_season (A:=RA) lat ((month + 5) mod 12 + 1)%Z.
Proof.
  intros H. assert (C : In month [1; 2; 3; 4; 5; 6; 7; 8; 9; 10; 11; 12]%Z) by (cbn; lia).
  unfold get_season. ra. assert (E1 : Rltb (20 / 1) (- lat) = Rltb lat (- (20 / 1))) by (unfold Rltb; destruct (Rlt_dec _ _), (Rlt_dec _ _); auto; lra).
  assert (E2 : Rltb (- lat) (- (20 / 1)) = Rltb (20 / 1) lat) by (unfold Rltb; destruct (Rlt_dec _ _), (Rlt_dec _ _); auto; lra).
  rewrite E1, E2. destruct (Rltb lat _), (Rltb _ lat);
  cbn [In] in C; repeat (destruct C as [<-|C]; [reflexivity|]); destruct C.
Qed.
Theorem C69_one_of_three (lat : R) (month : Z) : In (get_season (A:=RA) lat month) ["summer"; "winter"; "standard"]%string.
Proof. destruct (season_cases lat month) as [E|[E|E]]; rewrite E; cbn; auto. Qed.
Example C69_example : northern_season 7 = "summer"%string /\ ((1 + 5) mod 12 + 1)%Z = 7%Z. Proof. split; reflexivity. Qed.
