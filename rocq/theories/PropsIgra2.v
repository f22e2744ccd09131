(** Claims C76-C79 and C100: fields, wind and file names of the IGRA2 reader. *)

From Coq Require Import ZArith Reals Lra Lia List Bool Ascii String.
Import ListNotations.
From Verif Require Import Arith PyBase PyStr StrAux Igra RealAux.

(** ** Text of a field: an optional minus sign and digits *)

Definition field (neg : bool) (ds : str) : str := if neg then "-"%char :: ds else ds.
Definition fval (neg : bool) (ds : str) : Z := if neg then (- dval ds)%Z else dval ds.

(** ** C76: times *)

Lemma digits_app s t : digits s -> digits t -> digits (s ++ t).
Proof. intros. apply Forall_app. auto. Qed.
Lemma zeros_digits k : digits (repeat "0"%char k). Proof. induction k; constructor; auto. Qed.
Lemma zeros_val k s : dval (repeat "0"%char k ++ s) = dval s.
Proof. rewrite dval_app. assert (E : dval (repeat "0"%char k) = 0%Z) by (unfold dval; induction k; auto). rewrite E. lia. Qed.
Lemma zfill5 ds : digits ds -> (1 <= List.length ds <= 5)%nat -> exists c0 c1 c2 c3 c4, zfill 5 (strip ds) = [c0; c1; c2; c3; c4] /\ digits [c0; c1; c2; c3; c4] /\ dval [c0; c1; c2; c3; c4] = dval ds.
Proof.
  intros D L. rewrite strip_solid by (apply digits_solid, D). assert (E : zfill 5 ds = repeat "0"%char (5 - List.length ds) ++ ds).
  { unfold zfill. destruct ds as [|c ds]; [cbn in L; lia|]. destruct (digit_facts c (Forall_inv D)) as (_ & -> & -> & _). reflexivity. }
  assert (LE : List.length (zfill 5 ds) = 5%nat) by (rewrite E, app_length, repeat_length; lia).
  assert (DD : digits (zfill 5 ds)) by (rewrite E; apply digits_app; [apply zeros_digits|exact D]). assert (VV : dval (zfill 5 ds) = dval ds) by (rewrite E; apply zeros_val).
  destruct (zfill 5 ds) as [|c0 [|c1 [|c2 [|c3 [|c4 [|c5 t]]]]]]; try discriminate. exists c0, c1, c2, c3, c4. auto.
Qed.

Lemma five c0 c1 c2 c3 c4 : digits [c0; c1; c2; c3; c4] -> let v := dval [c0; c1; c2; c3; c4] in
  py_int [c0; c1; c2; c3; c4] = Ok v /\ py_int [c0; c1; c2] = Ok (v / 100)%Z /\ py_int [c3; c4] = Ok (v mod 100)%Z /\ py_int [c0; c1] = Ok (v / 1000)%Z /\ py_int [c2; c3] = Ok (v / 10 mod 100)%Z /\ (0 <= v)%Z.
Proof.
  intros D v. unfold digits in D. repeat match goal with H : Forall _ (_ :: _) |- _ => inversion H; clear H; subst end.
  repeat match goal with H : is_digit ?c = true |- _ => assert (0 <= digit c <= 9)%Z by (apply (digit_facts c H)); revert H end. intros.
  rewrite !py_int_digits0 by (discriminate || (repeat constructor; assumption)). unfold v, dval. cbn [fold_left].
  repeat split; try (f_equal; Z.to_euclidean_division_equations; lia); lia.
Qed.

(** Elapsed times MMMSS are converted as documented; 9999 is a missing value. *)
Theorem C76_elapsed ds : digits ds -> (1 <= List.length ds <= 5)%nat ->
  ctime MMMSS ds = Ok (if (dval ds =? 9999)%Z then None else Some (60 * (dval ds / 100) + dval ds mod 100)%Z).
Proof.
  intros D L. destruct (zfill5 ds D L) as (c0 & c1 & c2 & c3 & c4 & E & D5 & <-). destruct (five _ _ _ _ _ D5) as (P1 & P2 & P3 & _ & _ & P6). unfold ctime. rewrite E.
  change (str_slice [c0; c1; c2; c3; c4] 0 3) with [c0; c1; c2]. change (str_slice [c0; c1; c2; c3; c4] 3 5) with [c3; c4]. rewrite P1, P2, P3. cbn [bind].
  destruct (Z.ltb_spec (dval [c0; c1; c2; c3; c4]) 0); [lia|]. destruct (Z.eqb_spec (dval [c0; c1; c2; c3; c4]) 9999); [reflexivity|]. do 2 f_equal. lia.
Qed.
(** What a four-column release time becomes. *)
Theorem C76_release_exact ds : digits ds -> (1 <= List.length ds <= 5)%nat ->
  ctime HHMM ds = Ok (if (dval ds =? 9999)%Z then None else Some (3600 * (dval ds / 1000) + 60 * (dval ds / 10 mod 100))%Z).
Proof.
  intros D L. destruct (zfill5 ds D L) as (c0 & c1 & c2 & c3 & c4 & E & D5 & <-). destruct (five _ _ _ _ _ D5) as (P1 & _ & _ & P4 & P5 & P6). unfold ctime. rewrite E.
  change (str_slice [c0; c1; c2; c3; c4] 0 2) with [c0; c1]. change (str_slice [c0; c1; c2; c3; c4] 2 4) with [c2; c3]. rewrite P1, P4, P5. cbn [bind].
  destruct (Z.ltb_spec (dval [c0; c1; c2; c3; c4]) 0); [lia|]. destruct (Z.eqb_spec (dval [c0; c1; c2; c3; c4]) 9999); [reflexivity|]. do 2 f_equal. lia.
Qed.
(** The number of seconds is wrong for every release time except midnight. *)
Theorem C76_release_refuted ds hh mm : digits ds -> List.length ds = 4%nat -> dval ds = (100 * hh + mm)%Z -> (0 <= hh <= 23)%Z -> (0 <= mm <= 59)%Z -> (0 < hh + mm)%Z ->
  exists s, ctime HHMM ds = Ok (Some s) /\ (s < 3600 * hh + 60 * mm)%Z.
Proof.
  intros D L E Hh Hm H. rewrite C76_release_exact, E by (auto; lia). destruct (Z.eqb_spec (100 * hh + mm) 9999); [lia|]. eexists. split; [reflexivity|].
  Z.to_euclidean_division_equations; lia.
Qed.
Example C76_example : digits (tx "1130") /\ dval (tx "1130") = (100 * 11 + 30)%Z /\ ctime HHMM (tx "1130") = Ok (Some (1 * 3600 + 13 * 60)%Z) /\ ctime MMMSS (tx "1130") = Ok (Some (11 * 60 + 30)%Z).
Proof. split; [repeat constructor|]. vm_compute. auto. Qed.

(** ** C77: coordinates *)

Lemma cut_digits a b : digits a -> cut_point (a ++ "."%char :: b) = (a, Some b).
Proof.
  intros H. induction H as [|c a Hc H IH]; [reflexivity|]. cbn [app cut_point]. destruct (digit_facts c Hc) as (_ & _ & _ & -> & _). rewrite IH. reflexivity.
Qed.
Lemma float_digits neg a b : digits a -> digits b -> a ++ b <> [] -> py_float (field neg (a ++ "."%char :: b)) = Ok (Dec (fval neg (a ++ b)) (Z.to_pos (10 ^ Z.of_nat (List.length b)))).
Proof.
  intros Ha Hb Hne. unfold py_float.
  assert (Sol : Forall (fun c => is_space c = false) (a ++ "."%char :: b)) by (apply Forall_app; split; [apply digits_solid, Ha|constructor; [reflexivity|apply digits_solid, Hb]]).
  assert (E : strip (field neg (a ++ "."%char :: b)) = field neg (a ++ "."%char :: b)) by (apply strip_solid; destruct neg; [constructor; [reflexivity|exact Sol]|exact Sol]). rewrite E.
  assert (S : signed (field neg (a ++ "."%char :: b)) = (if neg then (-1)%Z else 1%Z, a ++ "."%char :: b)).
  { destruct neg; [reflexivity|]. destruct a as [|c a]; [reflexivity|]. cbn [field app]. apply signed_digits. apply (Forall_inv Ha). }
  rewrite S. rewrite cut_digits by exact Ha. rewrite digits_val_fold by (apply Forall_app; auto). fold (dval (a ++ b)).
  destruct (a ++ b) eqn:EE; [congruence|]. rewrite <- EE. unfold fval. do 2 f_equal. destruct neg; lia.
Qed.

Lemma split4 (ds : str) : (4 <= List.length ds)%nat -> exists a b, ds = a ++ b /\ List.length b = 4%nat.
Proof.
  intros L. exists (firstn (List.length ds - 4) ds), (skipn (List.length ds - 4) ds). split; [symmetry; apply firstn_skipn|]. rewrite skipn_length. lia.
Qed.

(** Fields with at least four digits: the number in units of 1e-4 degrees. *)
Theorem C77_degrees (A : Arith) neg ds : digits ds -> (4 <= List.length ds)%nat -> clatlon (A:=A) (field neg ds) = Ok (lit (Dec (fval neg ds) 10000)).
Proof.
  intros D L. destruct (split4 ds L) as (a & b & -> & Lb). apply Forall_app in D. destruct D as [Da Db].
  assert (E : clatlon (A:=A) (field neg (a ++ b)) = (do v <- py_float (field neg (a ++ "."%char :: b)); Ok (lit v))).
  { unfold clatlon, str_slice. 
    replace (field neg (a ++ b)) with (field neg a ++ b) by (destruct neg; reflexivity). rewrite app_length, Lb.
    replace (Z.of_nat (List.length (field neg a) + 4) - 4)%Z with (Z.of_nat (List.length (field neg a))) by lia. change 0%Z with (Z.of_nat 0).
    rewrite !py_slice_in by (rewrite app_length; lia). rewrite Nat.sub_0_r. cbn [skipn]. rewrite firstn_app, firstn_all, Nat.sub_diag, skipn_app, skipn_all, Nat.sub_diag. cbn [firstn skipn app].
    rewrite app_nil_r. replace (List.length (field neg a) + 4 - List.length (field neg a))%nat with (List.length b) by lia. rewrite firstn_all.
    replace (field neg (a ++ "."%char :: b)) with (field neg a ++ tx "." ++ b) by (destruct neg; reflexivity). reflexivity. }
  rewrite E, float_digits; auto; [rewrite Lb; reflexivity|]. destruct b; [discriminate|]. destruct a; discriminate.
Qed.
Theorem C77_value neg ds : digits ds -> (4 <= List.length ds)%nat -> clatlon (A:=RA) (field neg ds) = Ok (IZR (fval neg ds) / 10000)%R.
Proof. intros D L. rewrite C77_degrees by auto. reflexivity. Qed.

(** Shorter fields, i.e. less than a tenth of a degree from the equator or the Greenwich meridian: wrong by a factor up to 1000, or an error. *)
Theorem C77_short_refuted (A : Arith) ds : digits ds ->
  (List.length ds = 1%nat -> clatlon (A:=A) ds = Ok (lit (Dec (dval ds) 10)) /\ clatlon (A:=A) (field true ds) = Err ValueError) /\
  (List.length ds = 2%nat -> clatlon (A:=A) ds = Ok (lit (Dec (dval ds) 100)) /\ clatlon (A:=A) (field true ds) = Ok (lit (Dec (- dval ds) 10))) /\
  (List.length ds = 3%nat -> clatlon (A:=A) ds = Ok (lit (Dec (dval ds) 10)) /\ clatlon (A:=A) (field true ds) = Err ValueError).
Proof.
  intros D. split; [|split]; intros L.
  - destruct ds as [|c0 [|? ?]]; try discriminate. split.
    + assert (Q := float_digits false [] [c0] (Forall_nil _) D ltac:(discriminate)). cbn [field app] in Q.
      change (clatlon (A:=A) [c0]) with (do v <- py_float ("."%char :: [c0]); Ok (lit (a:=A) v)). rewrite Q. reflexivity.
    + change (clatlon (A:=A) (field true [c0])) with (do v <- py_float (tx ".-" ++ [c0]); Ok (lit (a:=A) v)).
      unfold py_float. rewrite strip_solid by (repeat constructor; apply (digit_facts c0), (Forall_inv D)). reflexivity.
  - destruct ds as [|c0 [|c1 [|? ?]]]; try discriminate. split.
    + assert (Q := float_digits false [] [c0; c1] (Forall_nil _) D ltac:(discriminate)). cbn [field app] in Q.
      change (clatlon (A:=A) [c0; c1]) with (do v <- py_float ("."%char :: [c0; c1]); Ok (lit (a:=A) v)). rewrite Q. reflexivity.
    + assert (Q := float_digits true [c0] [c1]). specialize (Q (Forall_cons _ (Forall_inv D) (Forall_nil _)) (Forall_inv_tail D) ltac:(discriminate)). cbn [field app] in Q.
      change (clatlon (A:=A) (field true [c0; c1])) with (do v <- py_float ("-"%char :: c0 :: "."%char :: [c1]); Ok (lit (a:=A) v)). rewrite Q. reflexivity.
  - destruct ds as [|c0 [|c1 [|c2 [|? ?]]]]; try discriminate. split.
    + assert (D1 := Forall_inv D). assert (D2 := Forall_inv (Forall_inv_tail D)). assert (D3 := Forall_inv_tail (Forall_inv_tail D)).
      assert (Q := float_digits false [c0; c1] [c2] ltac:(repeat constructor; auto) D3 ltac:(discriminate)). cbn [field app] in Q.
      change (clatlon (A:=A) [c0; c1; c2]) with (do v <- py_float (c0 :: c1 :: "."%char :: [c2]); Ok (lit (a:=A) v)). rewrite Q. reflexivity.
    + change (clatlon (A:=A) (field true [c0; c1; c2])) with (do v <- py_float (tx ".-" ++ [c0; c1; c2]); Ok (lit (a:=A) v)).
      unfold py_float. rewrite strip_solid by (change (Forall (fun c => is_space c = false) (tx ".-" ++ [c0; c1; c2])); apply Forall_app; split; [repeat constructor|apply digits_solid, D]). reflexivity.
Qed.
Theorem C77_refuted ds : digits ds -> (0 < dval ds)%Z -> (1 <= List.length ds <= 3)%nat ->
  exists x, clatlon (A:=RA) ds = Ok x /\ (100 * (IZR (dval ds) / 10000) <= x)%R.
Proof.
  intros D P L. assert (PR : (0 < IZR (dval ds))%R) by (apply (IZR_lt 0); exact P). destruct (C77_short_refuted RA ds D) as (S1 & S2 & S3).
  assert (E : List.length ds = 1%nat \/ List.length ds = 2%nat \/ List.length ds = 3%nat) by lia. destruct E as [E|[E|E]].
  - destruct (S1 E) as [-> _]. eexists. split; [reflexivity|]. cbn. lra.
  - destruct (S2 E) as [-> _]. eexists. split; [reflexivity|]. cbn. lra.
  - destruct (S3 E) as [-> _]. eexists. split; [reflexivity|]. cbn. lra.
Qed.
(** Santa Cruz de Tenerife; then a station 0.0123 degrees east of Greenwich, read as 12.3 degrees. *)
Example C77_example (A : Arith) : clatlon (A:=A) (tx "-163822") = Ok (lit (Dec (-163822) 10000)) /\ clatlon (A:=A) (tx "123") = Ok (lit (Dec 123 10)).
Proof. split; reflexivity. Qed.

(** ** C100: scaled fields *)

Lemma str_neq a b : str_eqb a b = false <-> a <> b.
Proof. destruct (str_eqb a b) eqn:E; [apply str_eqb_spec in E; subst; split; congruence|]. split; [|reflexivity]. intros _ ->. rewrite (proj2 (str_eqb_spec b b) eq_refl) in E. discriminate. Qed.
Lemma float_int neg ds : digits ds -> ds <> [] -> py_float (field neg ds) = Ok (Dec (fval neg ds) 1).
Proof.
  intros D Hne. unfold py_float. assert (Sol := digits_solid ds D).
  assert (E : strip (field neg ds) = field neg ds) by (apply strip_solid; destruct neg; [constructor; [reflexivity|exact Sol]|exact Sol]). rewrite E.
  assert (S : signed (field neg ds) = (if neg then (-1)%Z else 1%Z, ds)) by (destruct neg; [reflexivity|]; destruct ds as [|c ds]; [congruence|]; apply signed_digits, (Forall_inv D)).
  assert (C : cut_point ds = (ds, None)) by (clear -D; induction D as [|c ds Hc D IH]; [reflexivity|]; cbn; destruct (digit_facts c Hc) as (_ & _ & _ & -> & _); rewrite IH; reflexivity).
  rewrite S, C, app_nil_r. rewrite digits_val_fold by exact D. fold (dval ds). destruct ds; [congruence|]. unfold fval. do 2 f_equal. destruct neg; lia.
Qed.
Theorem C100_scaled (A : Arith) power neg ds : digits ds -> ds <> [] -> ~ In (field neg ds) [tx "-9999"; tx "-8888"; tx "-99999"] ->
  cdec (A:=A) power (field neg ds) = Ok (Some (div (lit (Dec (fval neg ds) 1)) (lit (Dec (10 ^ power) 1)))).
Proof.
  intros D Hne N. unfold cdec. cbn [In] in N. 
  assert (E1 : str_eqb (field neg ds) (tx "-9999") = false) by (apply str_neq; intuition). assert (E2 : str_eqb (field neg ds) (tx "-8888") = false) by (apply str_neq; intuition).
  assert (E3 : str_eqb (field neg ds) (tx "-99999") = false) by (apply str_neq; intuition). rewrite E1, E2, E3, float_int by auto. reflexivity.
Qed.
Theorem C100_value (power : nat) neg ds : digits ds -> ds <> [] -> ~ In (field neg ds) [tx "-9999"; tx "-8888"; tx "-99999"] ->
  exists x, cdec (A:=RA) (Z.of_nat power) (field neg ds) = Ok (Some x) /\ (x * 10 ^ power)%R = IZR (fval neg ds).
Proof.
  intros D Hne N. rewrite C100_scaled by auto. eexists. split; [reflexivity|]. ra. cbn. rewrite <- pow_IZR. assert (P := pow_nonzero 10 power ltac:(lra)). field. exact P.
Qed.
Theorem C100_missing (A : Arith) power val : In val [tx "-9999"; tx "-8888"; tx "-99999"] -> cdec (A:=A) power val = Ok None.
Proof. cbn [In]. intros [<-|[<-|[<-|[]]]]; reflexivity. Qed.
Example C100_example : digits (tx "101325") /\ cdec (A:=RA) 2 (tx "101325") = Ok (Some (IZR 101325 / 1 / (100 / 1))%R) /\ cdec (A:=RA) 1 (tx "-9999") = Ok None.
Proof. split; [repeat constructor|]. split; reflexivity. Qed.

(** ** C78: wind *)

Open Scope R_scope.
(** [from] is the unit vector (east, north) towards where the wind comes from. *)
Definition from (deg : R) : R * R := (sin (deg * (PI / 180)), cos (deg * (PI / 180))).
Definition wind (speed deg : R) : R * R := get_wind_components (A:=RA) speed (deg * (PI / 180)).

Theorem C78_vector speed deg : wind speed deg = (- speed * fst (from deg), - speed * snd (from deg)) /\
  fst (wind speed deg) * fst (wind speed deg) + snd (wind speed deg) * snd (wind speed deg) = speed * speed /\
  wind speed (deg + 360) = wind speed deg /\ wind speed (deg + 180) = (- fst (wind speed deg), - snd (wind speed deg)).
Proof.
  unfold wind, get_wind_components, from. ra. cbn [fst snd].
  assert (E : sin (deg * (PI / 180)) * sin (deg * (PI / 180)) + cos (deg * (PI / 180)) * cos (deg * (PI / 180)) = 1) by (assert (Q := sin2_cos2 (deg * (PI / 180))); unfold Rsqr in Q; exact Q).
  split; [reflexivity|]. split; [nra|].
  replace ((deg + 360) * (PI / 180)) with (deg * (PI / 180) + 2 * PI) by field. replace ((deg + 180) * (PI / 180)) with (deg * (PI / 180) + PI) by field.
  assert (S := sin_period (deg * (PI / 180)) 1). assert (C := cos_period (deg * (PI / 180)) 1). replace (2 * INR 1 * PI) with (2 * PI) in S, C by (cbn; ring). split.
  - rewrite S, C. reflexivity.
  - rewrite neg_sin, neg_cos. f_equal; ring.
Qed.
(** The four main directions. *)
Theorem C78_main speed : wind speed 0 = (0, - speed) /\ wind speed 90 = (- speed, 0) /\ wind speed 180 = (0, speed) /\ wind speed 270 = (speed, 0).
Proof.
  unfold wind, get_wind_components. ra.
  replace (0 * (PI / 180)) with 0 by ring. replace (90 * (PI / 180)) with (PI / 2) by field. replace (180 * (PI / 180)) with PI by field. replace (270 * (PI / 180)) with (3 * (PI / 2)) by field.
  rewrite sin_0, cos_0, sin_PI2, cos_PI2, sin_PI, cos_PI, sin_3PI2, cos_3PI2. repeat split; f_equal; ring.
Qed.

Lemma angle_unique a b : Rabs (a - b) < 2 * PI -> sin a = sin b -> cos a = cos b -> a = b.
Proof.
  intros H S C. set (h := (a - b) / 2). assert (Hh : Rabs h < PI) by (apply Rabs_def2 in H; apply Rabs_def1; unfold h; lra).
  assert (E : cos (2 * h) = 1).
  { replace (2 * h) with (a - b) by (unfold h; lra). rewrite cos_minus, S, C. assert (Q := sin2_cos2 b). unfold Rsqr in Q. lra. }
  rewrite cos_2a_sin in E. assert (Z : sin h = 0) by nra.
  assert (H0 : h = 0); [|unfold h in H0; lra]. apply Rabs_def2 in Hh.
  destruct (Rtotal_order h 0) as [L|[L|L]]; [|exact L|]; exfalso.
  - assert (Q := sin_lt_0_var h ltac:(lra) L). lra.
  - assert (Q := sin_gt_0 h L ltac:(lra)). lra.
Qed.
(** Speed and direction can be read back from the components. *)
Theorem C78_faithful s1 s2 d1 d2 : 0 < s1 -> 0 < s2 -> 0 <= d1 < 360 -> 0 <= d2 < 360 -> wind s1 d1 = wind s2 d2 -> s1 = s2 /\ d1 = d2.
Proof.
  intros P1 P2 H1 H2 E. destruct (C78_vector s1 d1) as (_ & N1 & _). destruct (C78_vector s2 d2) as (_ & N2 & _). rewrite E, N2 in N1.
  assert (Es : s1 = s2) by nra. split; [exact Es|]. subst s2. unfold wind, get_wind_components in E.
  injection E as E1 E2. cbn in E1, E2.
  assert (P := PI_RGT_0). assert (A : d1 * (PI / 180) = d2 * (PI / 180)).
  { apply angle_unique; [|apply (Rmult_eq_reg_l (- s1)); [exact E1|lra]|apply (Rmult_eq_reg_l (- s1)); [exact E2|lra]].
    replace (d1 * (PI / 180) - d2 * (PI / 180)) with ((d1 - d2) / 180 * PI) by field. apply Rabs_def1; nra. }
  apply (Rmult_eq_reg_r (PI / 180)); [exact A|lra].
Qed.
Example C78_example : 0 < 10 /\ 0 <= 270 < 360 /\ wind 10 270 = (10, 0). Proof. split; [lra|]. split; [lra|]. apply C78_main. Qed.

(** ** C79: files asked for and their layout *)

(** The archive's names: sounding data of the period of record, of the current and previous year, and derived parameters. *)
Definition archive_name (site : str) (beg2021 derived : bool) : str :=
  if derived then tx "derived-por/" ++ site ++ tx "-drvd.txt.zip"
  else if beg2021 then tx "data-y2d/" ++ site ++ tx "-data-beg2021.txt.zip" else tx "data-por/" ++ site ++ tx "-data.txt.zip".
Theorem C79_data site beg2021 : igra_path site beg2021 false = archive_name site beg2021 false /\ igra_derived_layout (igra_suffix beg2021 false) = false.
Proof. destruct beg2021; split; reflexivity. Qed.
(** Derived parameters: another file is asked for, and whatever arrives is read with the layout of the sounding data. *)
Theorem C79_derived_refuted site beg2021 : igra_path site beg2021 true <> archive_name site beg2021 true /\
  igra_path site beg2021 true = tx "derived-por/" ++ site ++ (if beg2021 then tx "-data-beg2021.txt" else tx "-data.txt") ++ tx "-drvd.txt.zip" /\
  igra_derived_layout (igra_suffix beg2021 true) = false.
Proof.
  split; [|split; destruct beg2021; reflexivity]. intros E. apply (f_equal (@List.length ascii)) in E. unfold igra_path, archive_name in E.
  destruct beg2021; cbn [igra_folder igra_suffix app] in E; rewrite !app_length in E; cbn in E; lia.
Qed.
Example C79_example : igra_path (tx "SPM00060018") false true = tx "derived-por/SPM00060018-data.txt-drvd.txt.zip". Proof. reflexivity. Qed.
