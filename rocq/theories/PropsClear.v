(** Claim C53: units and composition of the clear-sky absorption, over the reals. *)

From Coq Require Import ZArith Reals Lra Lia Psatz String List Bool.
Import ListNotations.
From Verif Require Import Arith PyBase Utils Absorption Clear Spec RealAux SolverGen PropsAbsN2 PropsLiq.
Local Open Scope string_scope.
Open Scope R_scope.

(** Specification: refractivity in ppm and absorption in Np/km are related by 0.182 f [dB/km per ppm] and
    ln(10)/10 [Np per dB]. *)
Definition npkm (f ppm : R) : R := 0.182 * f * (ln 10 / 10) * ppm.

Lemma db2np_pos : 0 < db2np (A:=RA).
Proof. unfold db2np. ra. replace (100 / 10) with 10 by lra. assert (0 < ln 10) by (rewrite <- ln_1; apply ln_increasing; lra). lra. Qed.

Lemma db2np_val : db2np (A:=RA) = ln 10 / 10.
Proof. unfold db2np. ra. replace (100 / 10) with 10 by lra. lra. Qed.

Lemma npkm_ppm f x : f <> 0 -> npkm f (x / db2np (A:=RA) / (0.182 * f)) = x.
Proof.
  intros Hf. unfold npkm. rewrite <- db2np_val. assert (D := db2np_pos). generalize dependent (db2np (A:=RA)). intros d D.
  replace 0.182 with (182 / 1000) by lra. field. ra. lra.
Qed.
Lemma npkm_ppm' f x : f <> 0 -> npkm f (div (a:=RA) (div (a:=RA) x (db2np (A:=RA))) (mul (a:=RA) (lit (Dec 182 1000)) f)) = x.
Proof. intros Hf. rewrite <- (npkm_ppm f x Hf) at 2. reflexivity. Qed.
Lemma npkm_add f x y : npkm f (x + y) = npkm f x + npkm f y.
Proof. unfold npkm. ring. Qed.
Lemma npkm_0 f : npkm f 0 = 0.
Proof. unfold npkm. ring. Qed.

(** Water vapour: the returned pair in Np/km is the sum over the lines times the number density, plus the continuum. *)
Definition line_npkm (m : string) (rho den summ : R) : R :=
  if str_in m ["R22SD"; "R23SD"; "R24"] then 1e-10 * (rho / 2.9915075e-23) * (summ / PI) else 3.1831e-05 * den * summ.

Theorem C53_h2o_units m ll pd vx ek f n c : f <> 0 ->
  h2o_absorption (A:=RA) m ll pd vx ek f = Ok (n, c) ->
  let e := h2o_env_of (A:=RA) m pd vx ek in
  (e_rho e = 0 /\ n = 0 /\ c = 0) \/
  (e_rho e <> 0 /\ exists summ con, h2o_summ (A:=RA) m ll e f = Some summ /\ h2o_con2 (A:=RA) m ll e vx f = Ok con /\
     npkm f n = line_npkm m (e_rho e) (e_den e) summ /\ npkm f c = con).
Proof.
  intros Hf H e. unfold h2o_absorption in H. fold e in H.
  destruct (Req_EM_T (e_rho e) 0) as [E|E].
  - left. match type of H with context [@eqb ?A ?a ?b] => replace (@eqb A a b) with true in H by (symmetry; apply Reqb_true; ra; lra) end.
    apply ok_inj in H. assert (H1 := f_equal fst H). assert (H2 := f_equal snd H). cbn [fst snd] in H1, H2. subst n c. ra. repeat split; auto; lra.
  - right. split; auto. match type of H with context [@eqb ?A ?a ?b] => replace (@eqb A a b) with false in H by (symmetry; apply Reqb_false; ra; lra) end.
    destruct (h2o_summ m ll e f) as [summ|]; [|discriminate]. apply bind_Ok in H. destruct H as (con & Ec & H). exists summ, con. split; auto. split; auto.
    apply ok_inj in H. assert (H1 := f_equal fst H). assert (H2 := f_equal snd H). cbn [fst snd] in H1, H2. clear H. subst n c.
    unfold line_npkm. split.
    + assert (HPI := PI_RGT_0).
      assert (X : forall a h q r s, q <> 0 -> h <> 0 -> a * r * s / (q * h) = a * (r / h) * (s / q)) by (intros; field; auto).
      unfold str_in. cbn [existsb]. 
      destruct (String.eqb m "R22SD"); [|destruct (String.eqb m "R23SD"); [|destruct (String.eqb m "R24") ]]; cbn [orb]; rewrite npkm_ppm' by auto; ra; try lra; rewrite X by lra; f_equal; f_equal; try lra; f_equal; lra.
    + apply npkm_ppm'. auto.
Qed.

(** Oxygen: in Np/km the returned pair is the resonant part and, for the models that keep it apart, the continuum. *)
Theorem C53_o2_units m ll pd vx ek f n c : f <> 0 ->
  o2_absorption (A:=RA) m ll pd vx ek f = (n, c) ->
  let q := o2_env_of (A:=RA) m ll pd vx ek in
  npkm f n = o2_abs (A:=RA) m q (o2_summ (A:=RA) m q ll f) f /\
  npkm f c = if str_in m ["R19"; "R19SD"; "R20"; "R20SD"; "R22"; "R22SD"; "R23"; "R24"] then 0 else o2_cont (A:=RA) m q f.
Proof.
  intros Hf H q. unfold o2_absorption in H. fold q in H.
  assert (H1 := f_equal fst H). assert (H2 := f_equal snd H). cbn [fst snd] in H1, H2. clear H. split.
  - rewrite <- H1. apply npkm_ppm'. auto.
  - rewrite <- H2. unfold o2_nocont_models. destruct (str_in m _); [|apply npkm_ppm'; auto].
    ra. replace (0 / 1) with 0 by lra. apply npkm_0.
Qed.

(** One level: the wet part is the water-vapour coefficient, the dry part oxygen + nitrogen + ozone, all in Np/km, evaluated
    with the dry pressure p - e. *)
Theorem C53_level g amu f p t e o3 aw ad :
  clearsky_level (A:=RA) g amu f p t e o3 = Ok (aw, ad) ->
  exists nw cw no co an ao,
    h2o_call (A:=RA) g amu ((p - e) / 10) (300 / t) (e / 10) f = Ok (nw, cw) /\
    o2_call (A:=RA) g amu ((p - e) / 10) (300 / t) (e / 10) f = Ok (no, co) /\
    n2_call (A:=RA) g t (p - e) f = Ok an /\
    o3_call (A:=RA) g amu t p f o3 = Ok ao /\
    aw = npkm f nw + npkm f cw /\ ad = (npkm f no + npkm f co) + an + ao.
Proof.
  unfold clearsky_level. cbv zeta. intros H.
  assert (E1 : sub (a:=RA) (div (a:=RA) p (lit (Dec 100 10))) (div (a:=RA) e (lit (Dec 100 10))) = (p - e) / 10) by (ra; lra).
  assert (E2 : div (a:=RA) (lit (Dec 3000 10)) t = 300 / t) by (ra; f_equal; lra).
  assert (E3 : div (a:=RA) e (lit (Dec 100 10)) = e / 10) by (ra; lra).
  rewrite E1, E2, E3 in H.
  assert (E4 : mul (a:=RA) ((p - e) / 10) (lit (Dec 10 1)) = p - e) by (ra; lra). rewrite E4 in H.
  assert (C : forall x y, mul (a:=RA) (mul (a:=RA) (mul (a:=RA) (lit (Dec 182 1000)) f) (add (a:=RA) x y)) (db2np (A:=RA)) = npkm f x + npkm f y).
  { intros x y. unfold npkm. rewrite <- db2np_val. cbn [mul add RA car]. generalize (db2np (A:=RA)). intros d. ra. lra. }
  apply bind_Ok in H. destruct H as ([nw cw] & Hw & H). apply bind_Ok in H. destruct H as ([no co] & Ho & H).
  apply bind_Ok in H. destruct H as (an & Hn & H). apply bind_Ok in H. destruct H as (ao & Hz & H). cbn [fst snd] in H.
  apply ok_inj in H. assert (H1 := f_equal fst H). assert (H2 := f_equal snd H). cbn [fst snd] in H1, H2.
  exists nw, cw, no, co, an, ao. repeat split; auto.
  - rewrite <- H1. apply C.
  - rewrite <- H2, C. reflexivity.
Qed.

(** Ozone contributes exactly when an ozone profile is given and the selected ozone model is one of those listed. *)
Theorem C53_ozone_absent (A : Arith) (g : globals A) amu t p f o3 :
  (o3 = None \/ ~ In (mname (g_o3 g)) o3_models) -> o3_call (A:=A) g amu t p f o3 = Ok (lit 0).
Proof.
  intros [->|H]; [reflexivity|]. destruct o3 as [n|]; [|reflexivity]. unfold o3_call.
  destruct (str_in (mname (g_o3 g)) o3_models) eqn:E; auto. exfalso. apply H. unfold str_in in E. apply existsb_exists in E.
  destruct E as (x & Hx & E). apply String.eqb_eq in E. rewrite E. exact Hx.
Qed.

Theorem C53_ozone_present (A : Arith) (g : globals A) t p f n ll : In (mname (g_o3 g)) o3_models -> g_o3ll g = Some ll ->
  o3_call (A:=A) g None t p f (Some n) = Ok (o3_absorption (A:=A) (mname (g_o3 g)) ll t p f n).
Proof.
  intros H E. unfold o3_call. replace (str_in (mname (g_o3 g)) o3_models) with true; [rewrite E; reflexivity|].
  symmetry. unfold str_in. apply existsb_exists. exists (mname (g_o3 g)). split; auto. apply String.eqb_refl.
Qed.

(** The whole profile: as many entries as levels, each computed from its own level only. *)
Theorem C53_profile (A : Arith) (g : globals A) amu p t e f o3 aw ad :
  List.length t = List.length p -> List.length e = List.length p -> (forall l, o3 = Some l -> List.length l = List.length p) ->
  clearsky_absorption (A:=A) g amu p t e f o3 = Ok (aw, ad) ->
  List.length aw = List.length p /\ List.length ad = List.length p /\
  forall i d, (i < List.length p)%nat ->
    clearsky_level (A:=A) g amu f (nth i p d) (nth i t d) (nth i e d) (option_map (fun l => nth i l d) o3) = Ok (nth i aw d, nth i ad d).
Proof.
  intros Ht He Ho H. unfold clearsky_absorption in H. apply bind_Ok in H. destruct H as (r & Hr & H). apply ok_inj in H.
  assert (H1 := f_equal fst H). assert (H2 := f_equal snd H). cbn [fst snd] in H1, H2. subst aw ad.
  assert (Lw : List.length (with_o3 (List.length p) o3) = List.length p).
  { unfold with_o3. destruct o3 as [l|]; [rewrite map_length; auto|apply repeat_length]. }
  assert (L : List.length (combine p (combine t (combine e (with_o3 (List.length p) o3)))) = List.length p) by (rewrite !combine_length; lia).
  assert (Lr : List.length r = List.length p) by (rewrite (mapM_length _ _ _ Hr); auto).
  rewrite !map_length. repeat split; auto. intros i d Hi.
  assert (N := mapM_nth _ _ r i (d, (d, (d, None))) (d, d) Hr). rewrite L in N. specialize (N Hi). cbv beta in N.
  rewrite combine_nth, combine_nth, combine_nth in N by (rewrite ?combine_length; lia). 
  replace (nth i (map fst r) d) with (fst (nth i r (d, d))) by (symmetry; apply (map_nth fst r (d, d) i)).
  replace (nth i (map snd r) d) with (snd (nth i r (d, d))) by (symmetry; apply (map_nth snd r (d, d) i)).
  rewrite <- surjective_pairing, <- N. f_equal.
  unfold with_o3. destruct o3 as [l|]; cbn [option_map].
  - rewrite nth_indep with (d' := Some d) by (rewrite map_length, (Ho l eq_refl); auto). rewrite map_nth. reflexivity.
  - rewrite nth_repeat. reflexivity.
Qed.

Example C53_example : exists n c, n2_call (A:=RA) (mkGlobals (A:=RA) (Some "R20") (Some "R20") (Some "R20") (Some "R20") (Some "R18") None None None true 1) 280 900 50 = Ok n /\
  o2_absorption (A:=RA) "R20" (mkO2LL (A:=RA) 0.8 0.56 []) 90 1.07 1 50 = (fst c, snd c) /\ npkm 50 (snd c) = 0.
Proof.
  destruct (proj1 (C54_names RA "R20" 280 900 50) ltac:(simpl; auto 20)) as [n En].
  exists n, (o2_absorption (A:=RA) "R20" (mkO2LL (A:=RA) 0.8 0.56 []) 90 1.07 1 50). split; [exact En|]. split; [apply surjective_pairing|].
  refine (proj2 (C53_o2_units "R20" (mkO2LL (A:=RA) 0.8 0.56 []) 90 1.07 1 50 _ _ _ (surjective_pairing _))). lra.
Qed.

Definition c53_g : globals RA :=
  mkGlobals (A:=RA) (Some "R98") (Some "R98") (Some "R98") (Some "R98") (Some "R18")
    (Some (mkH2OLL (A:=RA) 300 300 0 0 0 0 0 0 [])) (Some (mkO2LL (A:=RA) 0.8 0.56 [])) (Some (mkO3LL (A:=RA) 296 [])) true 1.

Example C53_level_example : exists aw ad, clearsky_level (A:=RA) c53_g None 50 900 280 10 (Some 1e18) = Ok (aw, ad).
Proof.
  assert (H : exists w, h2o_absorption (A:=RA) "R98" (mkH2OLL (A:=RA) 300 300 0 0 0 0 0 0 []) 
     (sub (a:=RA) (div (a:=RA) 900 (lit (Dec 100 10))) (div (a:=RA) 10 (lit (Dec 100 10)))) (div (a:=RA) (lit (Dec 3000 10)) 280) (div (a:=RA) 10 (lit (Dec 100 10))) 50 = Ok w).
  { unfold h2o_absorption. destruct (eqb _ _); [eexists; reflexivity|]. eexists. reflexivity. }
  destruct H as [w Hw]. unfold clearsky_level. cbv zeta. unfold h2o_call, over, c53_g. cbn [g_h2o g_h2oll]. rewrite Hw. cbn [bind].
  eexists. eexists. reflexivity.
Qed.
