(** Claims C82 and C102-C104: profiles read from a reanalysis file. *)

From Coq Require Import ZArith Reals Lra Lia List Bool String.
Import ListNotations.
From Verif Require Import Arith PyBase Utils Spec ListAux RealAux Spectrum Weighting PropsWeighting PropsUtils2 PropsLiq Era.
Open Scope R_scope.

(** ** Specification: distance on the sphere *)

Definition rad (x : R) : R := x * (PI / 180).
(** Squared chord between the points (longitude, latitude) of the unit sphere, in degrees; it grows with the great-circle distance. *)
Definition chord2 (a b : R * R) : R :=
  let x p := cos (rad (snd p)) * cos (rad (fst p)) in
  let y p := cos (rad (snd p)) * sin (rad (fst p)) in
  let z p := sin (rad (snd p)) in
  (x a - x b) * (x a - x b) + (y a - y b) * (y a - y b) + (z a - z b) * (z a - z b).

Lemma sin_half_sq x : 2 * (sin (x / 2) * sin (x / 2)) = 1 - cos x.
Proof. replace x with (2 * (x / 2)) at 3 by lra. rewrite cos_2a_sin. lra. Qed.
Lemma hav_R a b c d : hav (A:=RA) (radians (A:=RA) a, radians (A:=RA) b) (radians (A:=RA) c, radians (A:=RA) d) =
  sin ((rad a - rad c) / 2) * sin ((rad a - rad c) / 2) + cos (rad a) * cos (rad c) * sin ((rad b - rad d) / 2) * sin ((rad b - rad d) / 2).
Proof.
  unfold hav, radians. ra. cbn [fst snd]. replace (180 / 1) with 180 by lra. fold (rad a) (rad b) (rad c) (rad d).
  replace (5 / 10 * (rad a - rad c)) with ((rad a - rad c) / 2) by lra. replace (5 / 10 * (rad b - rad d)) with ((rad b - rad d) / 2) by lra. reflexivity.
Qed.
Lemma hav_chord (a b : R * R) : chord2 a b = 4 * hav (A:=RA) (radians (A:=RA) (snd a), radians (A:=RA) (fst a)) (radians (A:=RA) (snd b), radians (A:=RA) (fst b)).
Proof.
  rewrite hav_R. unfold chord2.
  set (p := rad (snd a)). set (q := rad (snd b)). set (l := rad (fst a)). set (m := rad (fst b)). clearbody p q l m.
  assert (S1 := sin_half_sq (p - q)). assert (S2 := sin_half_sq (l - m)). rewrite cos_minus in S1, S2.
  assert (P1 := sin2_cos2 p). assert (P2 := sin2_cos2 q). assert (P3 := sin2_cos2 l). assert (P4 := sin2_cos2 m). unfold Rsqr in *.
  set (s1 := sin ((p - q) / 2)) in *. set (s2 := sin ((l - m) / 2)) in *. clearbody s1 s2.
  assert (T : 4 * (cos p * cos q * s2 * s2) = 2 * (cos p * cos q) * (1 - (cos l * cos m + sin l * sin m))) by (rewrite <- S2; ring).
  set (cp := cos p) in *. set (cq := cos q) in *. set (cl := cos l) in *. set (cm := cos m) in *. set (sp := sin p) in *. set (sq := sin q) in *. set (sl := sin l) in *. set (sm := sin m) in *. clearbody cp cq cl cm sp sq sl sm.
  assert (E1 : (cp * cl) * (cp * cl) + (cp * sl) * (cp * sl) = cp * cp) by (replace ((cp * cl) * (cp * cl) + (cp * sl) * (cp * sl)) with (cp * cp * (sl * sl + cl * cl)) by ring; rewrite P3; ring).
  assert (E2 : (cq * cm) * (cq * cm) + (cq * sm) * (cq * sm) = cq * cq) by (replace ((cq * cm) * (cq * cm) + (cq * sm) * (cq * sm)) with (cq * cq * (sm * sm + cm * cm)) by ring; rewrite P4; ring).
  lra.
Qed.

(** ** C82 *)

Lemma arg_loop_lt better (l : list R) i best (v : R) : (best < i)%nat -> (arg_loop (A:=RA) better l i best v < i + List.length l)%nat.
Proof. revert i best v. induction l as [|x l IH]; intros i best v H; cbn; [lia|]. destruct (better x v); eapply Nat.lt_le_trans; try apply IH; lia. Qed.
Lemma argmin_lt (l : list R) k : np_argmin (A:=RA) l = Ok k -> (k < List.length l)%nat.
Proof. destruct l as [|y l]; intros H; [discriminate|]. injection H as <-. assert (Q := arg_loop_lt (@ltb RA) l 1 0 y). cbn in *. lia. Qed.
Lemma argmin_some (l : list R) : l <> [] -> exists k, np_argmin (A:=RA) l = Ok k.
Proof. destruct l as [|y l]; [congruence|]. intros _. eexists. reflexivity. Qed.

Definition grid (lons lats : list R) (i j : nat) : R * R := (nth j lons 0, nth i lats 0).

(** The position found is that of the nearest among the points (i, i). *)
Theorem C82_diagonal (lons lats : list R) (lonlat : R * R) k : find_nearest (A:=RA) lons lats lonlat = Ok k ->
  List.length lats = List.length lons /\ (k < List.length lats)%nat /\
  forall i, (i < List.length lats)%nat -> chord2 lonlat (grid lons lats k k) <= chord2 lonlat (grid lons lats i i).
Proof.
  unfold find_nearest. change (car RA) with R in *. destruct (Nat.eqb_spec (List.length lats) (List.length lons)) as [E|E]; cbn [negb]; [|discriminate].
  set (f := fun '((la, lo) : R * R) => hav (A:=RA) (radians (A:=RA) (snd lonlat), radians (A:=RA) (fst lonlat)) (radians (A:=RA) la, radians (A:=RA) lo) : R). intros H.
  change (np_argmin (A:=RA) (map f (combine lats lons)) = Ok k) in H.
  assert (L : @List.length R (map f (combine lats lons)) = List.length lats) by (change (car RA) with R; rewrite map_length, combine_length; lia).
  assert (K : (k < List.length lats)%nat) by (rewrite <- L; exact (argmin_lt _ _ H)). split; [exact E|]. split; [exact K|].
  assert (N : forall i, (i < List.length lats)%nat -> 4 * nth i (map f (combine lats lons)) 0 = chord2 lonlat (grid lons lats i i)).
  { intros i Hi. assert (Q := nth_map_d f (combine lats lons) i (0, 0) 0 ltac:(rewrite combine_length; lia)). change (car RA) with R in *. rewrite Q.
    rewrite combine_nth by exact E. rewrite hav_chord. reflexivity. }
  intros i Hi. rewrite <- !N by assumption. assert (M := argmin_min _ _ H (nth i (map f (combine lats lons)) 0) ltac:(apply nth_In; change (car RA) with R in *; rewrite L; exact Hi)). 
  change (car RA) with R in *. lra.
Qed.
(** Grids that are not square are refused. *)
Theorem C82_rectangular_refuted (A : Arith) (lons lats : list (car A)) lonlat : List.length lats <> List.length lons -> find_nearest (A:=A) lons lats lonlat = Err ValueError.
Proof. intros H. unfold find_nearest. rewrite (proj2 (Nat.eqb_neq _ _) H). reflexivity. Qed.

Lemma sin_nonzero x : -PI < x < PI -> x <> 0 -> sin x <> 0.
Proof.
  intros H N. destruct (Rtotal_order x 0) as [L|[L|L]]; [|contradiction|].
  - assert (Q := sin_lt_0_var x ltac:(lra) L). lra.
  - assert (Q := sin_gt_0 x L ltac:(lra)). lra.
Qed.
(** Distinct points are apart. *)
Lemma chord_pos (a b : R * R) : 0 <= fst a < 360 -> 0 <= fst b < 360 -> -90 < snd a < 90 -> -90 < snd b < 90 -> a <> b -> 0 < chord2 a b.
Proof.
  intros A1 B1 A2 B2 N. rewrite hav_chord, hav_R. assert (P := PI_RGT_0).
  assert (C : forall x, -90 < x < 90 -> 0 < cos (rad x)) by (intros x Hx; apply cos_gt_0; unfold rad; nra).
  assert (Ca := C _ A2). assert (Cb := C _ B2). set (s0 := sin ((rad (snd a) - rad (snd b)) / 2)). set (s1 := sin ((rad (fst a) - rad (fst b)) / 2)).
  assert (Q0 := Rle_0_sqr s0). assert (Q1 := Rle_0_sqr s1). unfold Rsqr in Q0, Q1. assert (Cab := Rmult_lt_0_compat _ _ Ca Cb).
  replace (cos (rad (snd a)) * cos (rad (snd b)) * s1 * s1) with (cos (rad (snd a)) * cos (rad (snd b)) * (s1 * s1)) by ring.
  set (c := cos (rad (snd a)) * cos (rad (snd b))) in *. assert (Q2 : 0 <= c * (s1 * s1)) by nra.
  destruct (Req_dec (snd a) (snd b)) as [E|E].
  - assert (F : fst a <> fst b) by (intros F; apply N; destruct a, b; cbn in *; congruence).
    assert (S : s1 <> 0). { apply sin_nonzero; [unfold rad; nra|]. unfold rad. intros Z. apply F. apply (Rmult_eq_reg_r (PI / 180)); lra. }
    assert (0 < s1 * s1) by (destruct (Rtotal_order s1 0) as [T|[T|T]]; [nra|contradiction|nra]). nra.
  - assert (S : s0 <> 0). { apply sin_nonzero; [unfold rad; nra|]. unfold rad. intros Z. apply E. apply (Rmult_eq_reg_r (PI / 180)); lra. }
    assert (0 < s0 * s0) by (destruct (Rtotal_order s0 0) as [T|[T|T]]; [nra|contradiction|nra]). nra.
Qed.
Lemma chord_self a : chord2 a a = 0. Proof. unfold chord2. ring. Qed.

(** On every square grid with at least two rows, asking for a grid point off the diagonal returns another one. *)
Theorem C82_refuted (lons lats : list R) i j : List.length lats = List.length lons -> (i < List.length lats)%nat -> (j < List.length lats)%nat -> i <> j ->
  NoDup lats -> NoDup lons -> (forall x, In x lats -> -90 < x < 90) -> (forall x, In x lons -> 0 <= x < 360) ->
  exists k, find_nearest (A:=RA) lons lats (grid lons lats i j) = Ok k /\
    chord2 (grid lons lats i j) (grid lons lats i j) = 0 /\ 0 < chord2 (grid lons lats i j) (grid lons lats k k).
Proof.
  intros E Hi Hj Hij N1 N2 R1 R2.
  assert (S : exists k, find_nearest (A:=RA) lons lats (grid lons lats i j) = Ok k).
  { unfold find_nearest. change (car RA) with R. rewrite (proj2 (Nat.eqb_eq _ _) E). cbn [negb].
    apply argmin_some. destruct lats; [cbn in Hi; lia|]. destruct lons; [discriminate|]. discriminate. }
  destruct S as [k Hk]. exists k. split; [exact Hk|]. split; [apply chord_self|]. destruct (C82_diagonal _ _ _ _ Hk) as (_ & K & _).
  apply chord_pos; cbn [grid fst snd]; try (apply R1 || apply R2; apply nth_In; lia). unfold grid. intros Q. injection Q as Q1 Q2.
  rewrite NoDup_nth in N1, N2. apply N1 in Q2; [|lia|lia]. apply N2 in Q1; [|lia|lia]. lia.
Qed.
Example C82_example : exists k, find_nearest (A:=RA) [15; 16] [39; 38] (grid [15; 16] [39; 38] 0 1) = Ok k /\ 0 < chord2 (grid [15; 16] [39; 38] 0 1) (grid [15; 16] [39; 38] k k).
Proof.
  destruct (C82_refuted [15; 16] [39; 38] 0 1) as (k & H1 & _ & H2); try reflexivity; try (cbn; lia); try lia.
  - repeat constructor; cbn; intros Q; repeat destruct Q as [Q|Q]; auto; lra.
  - repeat constructor; cbn; intros Q; repeat destruct Q as [Q|Q]; auto; lra.
  - cbn. intros x [<-|[<-|[]]]; lra.
  - cbn. intros x [<-|[<-|[]]]; lra.
  - eauto.
Qed.

(** ** C102: the rows of the table *)

(** The number at level [l] of the first time, row [i] and column [j] of the grid. *)
Definition cell {A : Arith} (v : cube (A:=A)) (l i j : nat) : option (car A) :=
  match nth_error v 0 with
  | Some lv => match nth_error lv l with Some g => match nth_error g i with Some r => nth_error r j | None => None end | None => None end
  | None => None
  end.

Lemma py_get_nat {T} (l : list T) k x : py_get l (Z.of_nat k) = Ok x -> nth_error l k = Some x.
Proof.
  unfold py_get, py_pos. destruct (Z.leb_spec 0 (Z.of_nat k)); [|lia]. destruct (Z.ltb_spec (Z.of_nat k) (Z.of_nat (List.length l))); cbn [andb].
  - rewrite Nat2Z.id. destruct (nth_error l k); [intros [= ->]; reflexivity|discriminate].
  - destruct (Z.ltb_spec (Z.of_nat k) 0); [lia|]. rewrite andb_false_r. discriminate.
Qed.
Lemma mapM_nth_error {T U} (f : T -> result U) l m i : mapM f l = Ok m -> List.length m = List.length l /\ forall y, nth_error m i = Some y -> exists x, nth_error l i = Some x /\ f x = Ok y.
Proof.
  revert m i. induction l as [|x l IH]; intros m i H; cbn in H; [injection H as <-; split; [reflexivity|intros y Hy; destruct i; discriminate]|].
  destruct (f x) as [y0|] eqn:E; [|discriminate]. cbn in H. destruct (mapM f l) as [m'|] eqn:E2; [|discriminate]. cbn in H. injection H as <-.
  split; [cbn; f_equal; apply (IH m' 0%nat eq_refl)|]. intros y Hy. destruct i as [|i]; cbn in Hy; [injection Hy as <-; exists x; split; [reflexivity|exact E]|]. apply (IH m' i eq_refl). exact Hy.
Qed.
Lemma at_first {A : Arith} (v : cube (A:=A)) i j m c : at_point v i j = Ok m -> first_time m = Ok c -> forall l, (l < List.length c)%nat -> nth_error c l = cell v l i j.
Proof.
  intros H1 H2 l Hl. apply (py_get_nat m 0) in H2. destruct (mapM_nth_error _ _ _ 0 H1) as [_ Q]. destruct (Q _ H2) as (lv & E1 & E2). clear Q.
  destruct (nth_error c l) as [y|] eqn:E3; [|apply nth_error_None in E3; lia]. destruct (mapM_nth_error _ _ _ l E2) as [_ Q]. destruct (Q _ E3) as (g & E4 & E5).
  unfold cell. rewrite E1, E4. destruct (py_get g (Z.of_nat i)) as [r|] eqn:E6; [|discriminate]. cbn in E5. rewrite (py_get_nat _ _ _ E6), (py_get_nat _ _ _ E5). reflexivity.
Qed.
Lemma nth_error_rev {T} (l : list T) i : (i < List.length l)%nat -> nth_error (rev l) i = nth_error l (List.length l - 1 - i).
Proof.
  intros H. destruct (nth_error (rev l) i) as [x|] eqn:E; [|apply nth_error_None in E; rewrite rev_length in E; lia].
  assert (D := nth_error_nth _ _ x E). rewrite rev_nth in D by exact H. symmetry. rewrite <- D. replace (List.length l - 1 - i)%nat with (List.length l - S i)%nat by lia. apply nth_error_nth'. lia.
Qed.

Record era_rows {A : Arith} (nc : ncfile (A:=A)) (k : nat) (df : era_df (A:=A)) (n : nat) : Prop := {
  r_len : Forall (fun c => List.length c = n) [e_p df; e_z df; e_t df; e_rh df; e_clwc df; e_ciwc df; e_crwc df; e_cswc df; e_o3 df; e_q df; e_time df];
  r_row : forall i, (i < n)%nat -> let l := (n - 1 - i)%nat in
    nth_error (e_p df) i = nth_error (nc_level nc) l /\ nth_error (e_t df) i = cell (nc_t nc) l k k /\
    nth_error (e_rh df) i = option_map (fun x => div x (lit 100)) (cell (nc_r nc) l k k) /\ nth_error (e_clwc df) i = cell (nc_clwc nc) l k k /\
    nth_error (e_ciwc df) i = cell (nc_ciwc nc) l k k /\ nth_error (e_crwc df) i = cell (nc_crwc nc) l k k /\ nth_error (e_cswc df) i = cell (nc_cswc nc) l k k /\
    nth_error (e_o3 df) i = cell (nc_o3 nc) l k k /\ nth_error (e_q df) i = cell (nc_q nc) l k k;
  r_z : e_z df = atmospheric_tickness (e_p df) (e_t df) (Some (e_q df));
  r_time : (0 < n)%nat -> exists d, nc_time nc = [d] /\ e_time df = repeat d n }.

(** All columns of a row belong to the same pressure level, counted from the last of the file, and to the same grid point. *)
Theorem C102_rows (A : Arith) (nc : ncfile (A:=A)) lonlat df : read_data nc lonlat = Ok df ->
  exists k, find_nearest (nc_lon nc) (nc_lat nc) lonlat = Ok k /\ era_rows nc k df (List.length (nc_level nc)).
Proof.
  intros H. unfold read_data in H. destruct (find_nearest (nc_lon nc) (nc_lat nc) lonlat) as [k|] eqn:Ek; [|discriminate]. cbn [bind] in H. exists k. split; [reflexivity|].
  destruct (at_point (nc_t nc) k k) as [mt|] eqn:At; [|discriminate]. cbn [bind] in H. destruct (at_point (nc_r nc) k k) as [mr|] eqn:Ar; [|discriminate]. cbn [bind] in H.
  destruct (at_point (nc_clwc nc) k k) as [m1|] eqn:A1; [|discriminate]. cbn [bind] in H. destruct (at_point (nc_ciwc nc) k k) as [m2|] eqn:A2; [|discriminate]. cbn [bind] in H.
  destruct (at_point (nc_crwc nc) k k) as [m3|] eqn:A3; [|discriminate]. cbn [bind] in H. destruct (at_point (nc_cswc nc) k k) as [m4|] eqn:A4; [|discriminate]. cbn [bind] in H.
  destruct (at_point (nc_o3 nc) k k) as [m5|] eqn:A5; [|discriminate]. cbn [bind] in H. destruct (at_point (nc_q nc) k k) as [mq|] eqn:Aq; [|discriminate]. cbn [bind] in H.
  destruct (first_time mt) as [ct|] eqn:Ft; [|discriminate]. cbn [bind] in H. destruct (first_time mq) as [cq|] eqn:Fq; [|discriminate]. cbn [bind] in H.
  destruct (first_time (map (map (fun x => div x (lit 100))) mr)) as [cr|] eqn:Fr; [|discriminate]. cbn [bind] in H.
  destruct (first_time m1) as [c1|] eqn:F1; [|discriminate]. cbn [bind] in H. destruct (first_time m2) as [c2|] eqn:F2; [|discriminate]. cbn [bind] in H.
  destruct (first_time m3) as [c3|] eqn:F3; [|discriminate]. cbn [bind] in H. destruct (first_time m4) as [c4|] eqn:F4; [|discriminate]. cbn [bind] in H.
  destruct (first_time m5) as [c5|] eqn:F5; [|discriminate]. cbn [bind] in H. cbv zeta in H.
  destruct (forallb _ _) eqn:FB in H; [|discriminate]. apply ok_inj in H. rewrite <- H. clear H. cbn [forallb] in FB. rewrite !andb_true_iff in FB. rewrite !Nat.eqb_eq in FB.
  destruct FB as (Lt & Lr & L1 & L2 & L3 & L4 & L5 & Lq & Ltime & _). set (n := List.length (nc_level nc)) in *.
  assert (FR : exists c, first_time mr = Ok c /\ cr = map (fun x => div x (lit 100)) c).
  { unfold first_time in *. destruct mr as [|c mr]; [discriminate|]. exists c. split; [reflexivity|]. apply (py_get_nat _ 0) in Fr. cbn in Fr. congruence. }
  destruct FR as (c & Fr' & ->). rewrite map_length in Lr.
  split; cbn [e_p e_z e_t e_rh e_clwc e_ciwc e_crwc e_cswc e_o3 e_q e_time].
  - repeat constructor; rewrite ?rev_length, ?map_length; auto. unfold atmospheric_tickness. rewrite map_length, seq_length, rev_length. reflexivity.
  - intros i Hi. cbv zeta. rewrite !nth_error_rev by (rewrite ?map_length; lia). rewrite map_length, Lt, Lr, L1, L2, L3, L4, L5, Lq. fold n.
    rewrite <- (at_first _ _ _ _ _ At Ft), <- (at_first _ _ _ _ _ Ar Fr'), <- (at_first _ _ _ _ _ A1 F1), <- (at_first _ _ _ _ _ A2 F2), <- (at_first _ _ _ _ _ A3 F3), <- (at_first _ _ _ _ _ A4 F4),
      <- (at_first _ _ _ _ _ A5 F5), <- (at_first _ _ _ _ _ Aq Fq) by lia. rewrite nth_error_map. repeat split; reflexivity.
  - reflexivity.
  - intros Hn. assert (LT : List.length (nc_time nc) = 1%nat).
    { assert (Q : List.length (flat_map (fun d => repeat d n) (nc_time nc)) = (List.length (nc_time nc) * n)%nat) by (generalize (nc_time nc); clear; intros l; induction l as [|d l IH]; [reflexivity|]; cbn [flat_map]; rewrite app_length, repeat_length, IH; reflexivity).
      rewrite Q in Ltime. nia. }
    destruct (nc_time nc) as [|d [|? ?]]; try discriminate. exists d. split; [reflexivity|]. cbn. apply app_nil_r.
Qed.

(** ** C103: the unit of the humidity *)

(** The file's relative humidity is in per cent; so is, by its label, the column, whose numbers are a hundred times smaller. *)
Theorem C103_unit_refuted (nc : ncfile (A:=RA)) lonlat df i r : read_data (A:=RA) nc lonlat = Ok df -> (i < List.length (nc_level nc))%nat ->
  (exists k, find_nearest (A:=RA) (nc_lon nc) (nc_lat nc) lonlat = Ok k /\ cell (nc_r nc) (List.length (nc_level nc) - 1 - i) k k = Some r) -> r <> 0 ->
  assoc "rh" era_units = Some "%"%string /\ exists x, nth_error (e_rh df) i = Some x /\ x = r / 100 /\ x <> r.
Proof.
  intros H Hi (k & Hk & Hc) Hr. split; [reflexivity|]. destruct (C102_rows RA nc lonlat df H) as (k' & Hk' & [_ Row _ _]). rewrite Hk in Hk'. apply ok_inj in Hk'. subst k'.
  destruct (Row i Hi) as (_ & _ & E & _). rewrite Hc in E. exists (r / 100). split; [rewrite E; cbn; f_equal; lra|]. split; [reflexivity|lra].
Qed.

(** ** C104: heights *)

Section Heights.
Variables (nc : ncfile (A:=RA)) (lonlat : R * R) (df : era_df (A:=RA)).
Hypotheses (Rd : read_data (A:=RA) nc lonlat = Ok df) (Pp : forall x, In x (e_p df) -> 0 < x) (Pt : forall x, In x (e_t df) -> 0 < x).
Let n := List.length (nc_level nc).
Let p : list R := e_p df. Let t : list R := e_t df. Let q : list R := e_q df. Let z : list R := e_z df.

Lemma era_lengths : List.length p = n /\ List.length t = n /\ List.length q = n.
Proof. destruct (C102_rows RA nc lonlat df Rd) as (k & _ & [L _ _ _]). rewrite Forall_forall in L. repeat split; apply L; cbn; auto 12. Qed.

Lemma era_heights : (forall x, In x q -> 0 <= x) -> forall i, (i < n)%nat -> nth i z 0 = hypso p (level_tv t (Some q)) i.
Proof.
  intros Hq i Hi. destruct era_lengths as (L1 & L2 & L3). destruct (C39_hypsometric p t (Some q)) as [_ Q]; [congruence|split; [congruence|exact Hq]|exact Pp|].
  rewrite <- Q by (rewrite L1; exact Hi). destruct (C102_rows RA nc lonlat df Rd) as (k & _ & [_ _ Z _]). unfold z. rewrite Z. reflexivity.
Qed.
Lemma tv_pos k : (forall x, In x q -> 0 <= x) -> (k < n)%nat -> 0 < level_tv t (Some q) k.
Proof.
  intros Hq Hk. destruct era_lengths as (L1 & L2 & L3). cbn [level_tv]. assert (0 < nth k t 0) by (apply Pt, nth_In; fold t; lia). assert (0 <= nth k q 0) by (apply Hq, nth_In; lia).
  assert (0 < epsilon) by (unfold epsilon; lra). unfold Rdiv. apply Rmult_lt_0_compat; [apply Rmult_lt_0_compat; lra|]. apply Rinv_0_lt_compat. apply Rmult_lt_0_compat; lra.
Qed.
Lemma ln_ratio k : (S k < n)%nat -> nth (S k) p 0 < nth k p 0 -> 0 < ln (nth k p 0 / nth (S k) p 0).
Proof.
  intros Hk Hd. destruct era_lengths as (L1 & _). assert (0 < nth (S k) p 0) by (apply Pp, nth_In; fold p; lia). apply ln_gt0.
  apply Rmult_lt_reg_r with (nth (S k) p 0); auto. unfold Rdiv. rewrite Rmult_assoc, Rinv_l by lra. lra.
Qed.

(** Heights start at 0 and rise when the pressures of the table fall. *)
Theorem C104_rising : (forall x, In x q -> 0 <= x) -> (0 < n)%nat -> nth 0 z 0 = 0 /\ forall i, (S i < n)%nat -> nth (S i) p 0 < nth i p 0 -> nth i z 0 < nth (S i) z 0.
Proof.
  intros Hq Hn. split; [rewrite era_heights by auto; reflexivity|]. intros i Hi Hd. rewrite !era_heights by (auto; lia). rewrite hypso_S.
  assert (T1 := tv_pos i Hq ltac:(lia)). assert (T2 := tv_pos (S i) Hq Hi). assert (L := ln_ratio i Hi Hd). assert (G := RdG_pos).
  assert (0 < RdG * ((level_tv t (Some q) i + level_tv t (Some q) (S i)) / 2) * ln (nth i p 0 / nth (S i) p 0)) by (apply Rmult_lt_0_compat; [apply Rmult_lt_0_compat; lra|exact L]). lra.
Qed.

(** Virtual temperature of air with specific humidity [x]. *)
Definition tv_specific (t x : R) : R := t * (1 + x * (1 / epsilon - 1)).
(** The specific humidity is used as if it were a mixing ratio: the heights of moist air are too low. *)
Theorem C104_humidity_refuted : (forall x, In x q -> 0 < x < 1) -> (forall i, (S i < n)%nat -> nth (S i) p 0 < nth i p 0) ->
  forall i, (0 < i < n)%nat -> nth i z 0 < hypso p (fun k => tv_specific (nth k t 0) (nth k q 0)) i.
Proof.
  intros Hq Hd. assert (Hq0 : forall x, In x q -> 0 <= x) by (intros x Hx; specialize (Hq x Hx); lra). destruct era_lengths as (L1 & L2 & L3).
  assert (Low : forall k, (k < n)%nat -> level_tv t (Some q) k < tv_specific (nth k t 0) (nth k q 0)).
  { intros k Hk. cbn [level_tv]. unfold tv_specific. assert (T : 0 < nth k t 0) by (apply Pt, nth_In; fold t; lia). assert (Q : 0 < nth k q 0 < 1) by (apply Hq, nth_In; lia).
    assert (E : 0.6 < epsilon < 0.63) by (unfold epsilon; lra). set (x := nth k q 0) in *. set (T0 := nth k t 0) in *. set (e := epsilon) in *. clearbody x T0 e.
    assert (X : T0 * (1 + x * (1 / e - 1)) - T0 * (x + e) / (e * (1 + x)) = T0 * (x * x * (1 - e)) / (e * (1 + x))) by (field; lra).
    assert (0 < T0 * (x * x * (1 - e)) / (e * (1 + x))) by (apply Rmult_lt_0_compat; [repeat apply Rmult_lt_0_compat; lra|apply Rinv_0_lt_compat, Rmult_lt_0_compat; lra]). lra. }
  assert (St : forall i, (S i < n)%nat -> RdG * ((level_tv t (Some q) i + level_tv t (Some q) (S i)) / 2) * ln (nth i p 0 / nth (S i) p 0) <
      RdG * ((tv_specific (nth i t 0) (nth i q 0) + tv_specific (nth (S i) t 0) (nth (S i) q 0)) / 2) * ln (nth i p 0 / nth (S i) p 0)).
  { intros i Hi. assert (L := ln_ratio i Hi (Hd i Hi)). assert (A := Low i ltac:(lia)). assert (B := Low (S i) Hi). assert (G := RdG_pos).
    apply Rmult_lt_compat_r; [exact L|]. apply Rmult_lt_compat_l; lra. }
  intros i Hi. rewrite era_heights by (auto; lia). destruct i as [|i]; [lia|]. induction i as [|i IH].
  - rewrite !hypso_S. assert (A := St 0%nat ltac:(lia)). unfold hypso. cbn [rsum]. lra.
  - rewrite hypso_S. rewrite (hypso_S p (fun k => tv_specific (nth k t 0) (nth k q 0)) (S i)). assert (A := St (S i) ltac:(lia)). specialize (IH ltac:(lia)). lra.
Qed.
End Heights.

(** A file with two levels on a 1 x 1 grid. *)
Definition tiny : ncfile (A:=RA) :=
  let v a b : cube (A:=RA) := [[[[a]]; [[b]]]] in Nc (A:=RA) [38] [15] [500; 1000] [0] (v 250 290) (v 30 80) (v 0 0) (v 0 0) (v 0 0) (v 0 0) (v 0 0) (v 0.001 0.01).
Example C102_example : exists df, read_data (A:=RA) tiny (15, 38) = Ok df /\ e_p df = [1000; 500] /\ e_t df = [290; 250] /\ e_rh df = [80 / (100 / 1); 30 / (100 / 1)] /\ e_q df = [0.01; 0.001].
Proof. eexists. split; [reflexivity|]. repeat split. Qed.
Example C104_example : exists df, read_data (A:=RA) tiny (15, 38) = Ok df /\ (forall x, In x (e_p df) -> 0 < x) /\ (forall x, In x (e_t df) -> 0 < x) /\ (forall x, In x (e_q df) -> 0 < x < 1) /\ nth 1 (e_p df) 0 < nth 0 (e_p df) 0.
Proof. eexists. split; [reflexivity|]. cbn. repeat split; try lra; intros x [<-|[<-|[]]]; cbn; lra. Qed.
