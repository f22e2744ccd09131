(** Claims C119 and C120: oxygen absorption against molecular spectroscopy and the sum rules of line mixing, over the reals. *)

From Coq Require Import ZArith Reals Lra Lia Psatz String List Bool.
Import ListNotations.
From Verif Require Import Arith PyBase Utils Absorption Clear Spectrum Spec RealAux SolverGen LineData Lineshape PropsAbsN2 PropsLiq PropsClear PropsO2H2O PropsH2O SDShape PropsSD PropsData PropsCross.
Local Open Scope string_scope.
Open Scope R_scope.

(** ** Specification *)

(** Oxygen is 20.95 percent of dry air. *)
Definition oxygen_density (dry T : R) : R := 0.2095 * number_density dry T.
(** Effective pressure in bar; theta = 300 K / T, [expo] the exponent of the list. *)
Definition effective (m : string) (expo dry pv theta : R) : R :=
  let e := if String.eqb m "R98" then 1 else if String.eqb m "R03" then 0.9 else expo in
  let k := if str_in m ["R98"; "R03"; "R16"] then 1.1 else 1.2 in
  0.001 * (dry * Rpower theta e + k * pv * theta).
(** Two resonances with first-order mixing [y] and second-order mixing [g]. *)
Definition mixed_pair (w y g f0 shift f : R) : R :=
  (f / f0) * (f / f0) * ((w * g + (f - f0 - shift) * y) / ((f - f0 - shift) * (f - f0 - shift) + w * w) +
                         (w * g - (f + f0 + shift) * y) / ((f + f0 + shift) * (f + f0 + shift) + w * w)) / PI.
(** The zero-frequency (Debye) line of strength [s] and width [w]. *)
Definition nonresonant (s w f : R) : R := s * (f * f) * w / (f * f + w * w) / PI.
(** Line strength: a linear molecule, hence the exponent 2. *)
Definition o2_strength (k : o2_line RA) (theta : R) : R := o_s300 k * (theta * theta) * exp (- o_be k * (theta - 1)).

Definition first_order := ["R98"; "R03"; "R17"; "R18"; "R19"; "R19SD"].
Definition second_order := ["R16"; "R20"; "R20SD"; "R22"].

(** Cross section of one line; [p] the effective pressure, [pt] the total pressure in bar, [expo] the exponent of the list. *)
Definition o2_line_at (m : string) (expo theta p pt f : R) (k : o2_line RA) : R :=
  let t1 := theta - 1 in
  if str_in m first_order then
    let y := (if str_in m ["R98"; "R03"] then pt * Rpower theta expo else p) * (o_y300 k + o_v k * t1) in
    o2_strength k theta * mixed_pair (o_w300 k * p) y 1 (o_f k) 0 f
  else
    let y := p * (o_y0 k + o_y1 k * t1) in
    let g := 1 + p * p * (o_g0 k + o_g1 k * t1) in
    o2_strength k theta * mixed_pair (o_w300 k * p) y g (o_f k) (p * p * (o_dnu0 k + o_dnu1 k * t1)) f.

(** Strength of the non-resonant line times theta. *)
Definition debye_strength (m : string) : R := if str_in m ["R98"; "R03"] then 1.6e-17 else 1.584e-17.
(** Models that report the non-resonant line as a continuum of its own. *)
Definition apart (m : string) : bool := str_in m ["R98"; "R03"; "R16"; "R17"; "R18"].

(** ** C119 *)
Lemma o2_env_spec m (ll : o2_ll RA) pd vx ek : 0 < vx -> 0 <= ek -> In m (first_order ++ second_order ++ ["R23"; "R24"]) ->
  exists pv, 0.9984 * (10 * ek) <= pv <= 1.0001 * (10 * ek) /\
  let q := o2_env_of (A:=RA) m ll pd vx ek in let dry := 10 * (pd + ek) - pv in
  q_th q = vx /\ q_th1 q = vx - 1 /\ q_b q = Rpower vx (o_x ll) /\ q_pres q = 10 * (pd + ek) /\ q_presda q = dry /\ q_den q = effective m (o_x ll) dry pv vx /\ q_dfnr q = o_wb300 ll * q_den q /\
  q_pe1 q = (if String.eqb m "R23" then 0.99 else 1) * q_den q /\ q_pe2 q = q_pe1 q * q_pe1 q.
Proof.
  intros Hv He Hm.
  assert (PV : exists pv, 0.9984 * (10 * ek) <= pv <= 1.0001 * (10 * ek) /\ q_presda (o2_env_of (A:=RA) m ll pd vx ek) = 10 * (pd + ek) - pv).
  { unfold o2_env_of. cbn [q_presda]. ra. replace (3000 / 10) with 300 by lra. assert (V : 300 / vx <> 0) by (apply Rgt_not_eq, div_pos; lra). set (t := 300 / vx) in *. clearbody t.
    match goal with |- context [_ - ?x = _] => exists x end. split; [|lra].
    assert (C : forall r k, r <> 0 -> k <> 0 -> ek * (100 / 10) / (r * t) * t / k = ek * 10 * / (r * k)) by (intros; field; auto).
    assert (C' : forall r k, r <> 0 -> k * (ek * (100 / 10) / (r * t)) * t = ek * 10 * (k / r)) by (intros; field; auto).
    destruct (str_in m ["R22"; "R22SD"; "R23"; "R23SD"; "R24"]); [|destruct (str_in m ["R03"; "R16"; "R17"; "R18"; "R98"])]; [rewrite C' by lra|rewrite C by lra..]; nra. }
  destruct PV as (pv & P1 & P2). exists pv. split; [exact P1|]. cbv zeta.
  assert (TH : (300 / (300 / vx)) = vx) by (field; lra).
  assert (TH' : q_th (o2_env_of (A:=RA) m ll pd vx ek) = vx) by (unfold o2_env_of; cbn [q_th]; ra; replace (3000 / 10) with 300 by lra; exact TH).
  split; [exact TH'|]. split; [unfold o2_env_of; cbn [q_th1]; ra; replace (3000 / 10) with 300 by lra; rewrite TH; lra|].
  split; [unfold o2_env_of; cbn [q_b]; ra; replace (3000 / 10) with 300 by lra; rewrite TH; apply Rpowf_pos; exact Hv|].
  split; [unfold o2_env_of; cbn [q_pres]; ra; lra|]. split; [exact P2|].
  assert (DEN : (q_den (o2_env_of (A:=RA) m ll pd vx ek) : R) = effective m (o_x ll) (10 * (pd + ek) - pv) pv vx).
  { rewrite <- P2. assert (P3 : pv = 10 * (pd + ek) - q_presda (o2_env_of (A:=RA) m ll pd vx ek)) by lra. rewrite P3. clear P1 P2 P3.
    unfold effective, o2_env_of. cbn [q_den q_presda]. ra. replace (3000 / 10) with 300 by lra. rewrite TH.
    match goal with |- context [_ - ?x] => set (px := x) end. clearbody px. rewrite !Rpowf_pos by exact Hv.
    unfold first_order, second_order in Hm. cbn [In app] in Hm.
    repeat (destruct Hm as [<-|Hm]; [cbn [str_in existsb String.eqb Ascii.eqb Bool.eqb orb]; rewrite ?Rpower_1 by exact Hv; replace (9 / 10) with 0.9 by lra; lra|]); destruct Hm. }
  split; [exact DEN|]. split; [reflexivity|].
  split; unfold o2_env_of; cbn [q_pe1 q_pe2 q_den]; unfold first_order, second_order in Hm; cbn [In app] in Hm.
  - repeat (destruct Hm as [<-|Hm]; [cbn [str_in existsb String.eqb Ascii.eqb Bool.eqb orb]; ra; lra|]); destruct Hm.
  - repeat (destruct Hm as [<-|Hm]; [cbn [str_in existsb String.eqb Ascii.eqb Bool.eqb orb]; rewrite ?powi2; ra; reflexivity|]); destruct Hm.
Qed.

Lemma o2_line_code m (ll : o2_ll RA) (q : o2_env RA) (theta p P f : R) (k : o2_line RA) : In m (first_order ++ second_order) ->
  q_th1 q = theta - 1 -> q_den q = p -> q_pe2 q = p * p -> q_b q = Rpower theta (o_x ll) -> q_pres q = P ->
  theta * theta * (if str_in m first_order then o2_line_first (A:=RA) m q f k else o2_line_second (A:=RA) q f k) =
  PI * o2_line_at m (o_x ll) theta p (0.001 * P) f k.
Proof.
  intros Hm H1 H2 H3 H4 H5. assert (PP := PI_RGT_0).
  assert (G : forall st ex r1 a1 d1 a2 d2, theta * theta * (st * ex * (a1 / d1 + a2 / d2) * r1) = PI * (st * (theta * theta) * ex * (r1 * (a1 / d1 + a2 / d2) / PI))).
  { intros. set (x := a1 / d1). set (y := a2 / d2). field. lra. }
  unfold o2_line_at. destruct (str_in m first_order) eqn:EF.
  - unfold o2_line_first. cbv zeta. rewrite H1, H2, H4, H5, !powi2. unfold mixed_pair, o2_strength.
    assert (Y : (if str_in m ["R03"; "R98"] then mul (a:=RA) (mul (a:=RA) (mul (a:=RA) (lit (Dec 1 1000)) P) (Rpower theta (o_x ll))) (add (a:=RA) (o_y300 k) (mul (a:=RA) (o_v k) (theta - 1)))
       else mul (a:=RA) p (add (a:=RA) (o_y300 k) (mul (a:=RA) (o_v k) (theta - 1))))
       = (if str_in m ["R98"; "R03"] then 0.001 * P * Rpower theta (o_x ll) else p) * (o_y300 k + o_v k * (theta - 1))).
    { replace (str_in m ["R03"; "R98"]) with (str_in m ["R98"; "R03"]) by (unfold str_in; cbn [existsb]; destruct (String.eqb m "R98"), (String.eqb m "R03"); reflexivity).
      destruct (str_in m ["R98"; "R03"]); ra; [|reflexivity]. replace (1 / 1000) with 0.001 by lra. reflexivity. }
    rewrite Y. match type of Y with _ = ?v => generalize v end. intros y. ra.
    etransitivity; [apply G|]. rewrite !Rmult_1_r, !Rminus_0_r, !Rplus_0_r. reflexivity.
  - unfold o2_line_second. cbv zeta. rewrite H1, H2, H3, !powi2. unfold mixed_pair, o2_strength. ra. replace (10 / 10) with 1 by lra.
    etransitivity; [apply G|]. reflexivity.
Qed.

(** Oxygen, models R98 to R22: in Np/km the returned pair is 0.2095 of the number density of dry air times the cross section of the lines, with the zero-frequency
    line in the second component (older models) or added to the first (newer ones), within 0.5 percent; negative values are replaced by zero except in R98. *)
Theorem C119_oxygen m (ll : o2_ll RA) pd vx ek f n c : In m (first_order ++ second_order) -> 0 < vx -> 0 <= ek -> 0 < f ->
  o2_absorption (A:=RA) m ll pd vx ek f = (n, c) ->
  exists pv kappa, 0.9984 * (10 * ek) <= pv <= 1.0001 * (10 * ek) /\ 0.995 <= kappa <= 1.004 /\
  let theta := vx in let T := 300 / theta in let dry := 10 * (pd + ek) - pv in
  let p := effective m (o_x ll) dry pv theta in
  let lines := total (o2_line_at m (o_x ll) theta p (0.001 * (10 * (pd + ek))) f) (o_lines ll) in
  let zero := nonresonant (debye_strength m * theta) (o_wb300 ll * p) f in
  let both := kappa * (per_km * oxygen_density dry T * (lines + if apart m then 0 else zero)) in
  npkm f n = (if String.eqb m "R98" then both else Rmax both 0) /\
  npkm f c = if apart m then kappa * (per_km * oxygen_density dry T * zero) else 0.
Proof.
  intros Hm Hv He Hf H. destruct (C53_o2_units m ll pd vx ek f n c ltac:(lra) H) as [Hn Hc]. cbv zeta in Hn, Hc.
  destruct (o2_env_spec m ll pd vx ek Hv He ltac:(apply in_app_iff in Hm; apply in_app_iff; destruct Hm; [left|right; apply in_app_iff; left]; assumption)) as (pv & P1 & Q1 & Q2 & Q3 & Q4 & Q5 & Q6 & Q7 & Q8 & Q9). cbv zeta in *.
  assert (PP := PI_range). assert (PI0 := PI_RGT_0).
  set (q := o2_env_of m ll pd vx ek) in *.
  assert (N23 : String.eqb m "R23" = false) by (unfold first_order, second_order in Hm; cbn [In app] in Hm; repeat (destruct Hm as [<-|Hm]; [reflexivity|]); destruct Hm).
  assert (N24 : String.eqb m "R24" = false) by (unfold first_order, second_order in Hm; cbn [In app] in Hm; repeat (destruct Hm as [<-|Hm]; [reflexivity|]); destruct Hm).
  rewrite N23, Rmult_1_l in Q8. rewrite Q8 in Q9.
  set (dry := 10 * (pd + ek) - pv) in *. set (p := effective m (o_x ll) dry pv vx) in *.
  set (K := if str_in m ["R98"; "R03"] then 5.034 / 3.14159 else if str_in m ["R20"; "R20SD"; "R22"] then 1.004 * 1.6097 else 1.6097).
  exists pv, (PI * K / (0.2095 / (1.380649 * 300) * 1e4)). split; [exact P1|]. split.
  { unfold K. destruct (str_in m ["R98"; "R03"]); [|destruct (str_in m ["R20"; "R20SD"; "R22"])]; lra. }
  cbv zeta. fold dry. fold p.
  set (L := total (o2_line_at m (o_x ll) vx p (0.001 * (10 * (pd + ek))) f) (o_lines ll)).
  set (Z := nonresonant (debye_strength m * vx) (o_wb300 ll * p) f).
  assert (DEN : PI * K / (0.2095 / (1.380649 * 300) * 1e4) * (per_km * oxygen_density dry (300 / vx)) = PI * (K * 1e11 * dry * vx)).
  { unfold per_km, oxygen_density, number_density, k_B. clear. powers. set (k := K). clearbody k. destruct (Req_dec vx 0) as [->|N].
    - unfold Rdiv. rewrite Rinv_0. rewrite !Rmult_0_r, Rinv_0. lra.
    - field. repeat split; [exact N|lra|lra]. }
  assert (ZZ : forall s w, vx <> 0 -> PI * nonresonant (s * vx) w f = vx * vx * (s * f * f * w / (vx * (f * f + w * w)))).
  { intros s w N. unfold nonresonant. destruct (Req_dec (f * f + w * w) 0) as [E|E]; [nra|]. field. repeat split; try lra; nra. }
  assert (SUM : vx * vx * o2_summ (A:=RA) m q ll f = PI * (L + if apart m then 0 else Z)).
  { unfold o2_summ. rewrite N23, N24. cbv zeta.
    set (s0 := if str_in m ["R03"; "R16"; "R17"; "R18"; "R98"] then _ else _).
    assert (S0 : vx * vx * s0 = PI * (if apart m then 0 else Z)).
    { unfold s0, Z, debye_strength. rewrite Q1, Q7, Q6. unfold apart.
      replace (str_in m ["R98"; "R03"; "R16"; "R17"; "R18"]) with (str_in m ["R03"; "R16"; "R17"; "R18"; "R98"]) by (unfold str_in; cbn [existsb]; repeat match goal with |- context [String.eqb m ?x] => destruct (String.eqb m x) end; reflexivity).
      destruct (str_in m ["R03"; "R16"; "R17"; "R18"; "R98"]) eqn:EA; [ra; lra|].
      replace (str_in m ["R98"; "R03"]) with false by (revert EA; unfold str_in; cbn [existsb]; destruct (String.eqb m "R98"), (String.eqb m "R03"); rewrite ?orb_true_r; cbn; congruence).
      rewrite ZZ by lra. ra. apply f_equal. apply f_equal2; [|reflexivity]. powers. lra. }
    clearbody s0.
    assert (E : forall g : o2_line RA -> R, (forall k, vx * vx * g k = PI * o2_line_at m (o_x ll) vx p (0.001 * (10 * (pd + ek))) f k) -> vx * vx * sum_from (A:=RA) s0 (map g (o_lines ll)) = PI * (L + (if apart m then 0 else Z))).
    { intros g Hg. etransitivity; [apply f_equal; exact (sum_total g (o_lines ll) s0)|]. rewrite Rmult_plus_distr_l, S0, (total_scale g (o2_line_at m (o_x ll) vx p (0.001 * (10 * (pd + ek))) f) (PI / (vx * vx))); [fold L; field; lra|].
      intros k. apply Rmult_eq_reg_l with (vx * vx); [rewrite Hg; field; lra|nra]. }
    replace (str_in m ["R03"; "R98"; "R17"; "R18"; "R19"; "R19SD"]) with (str_in m first_order) by (unfold first_order, str_in; cbn [existsb]; repeat match goal with |- context [String.eqb m ?x] => destruct (String.eqb m x) end; reflexivity).
    assert (LC := fun k => o2_line_code m ll q vx p (10 * (pd + ek)) f k Hm Q2 Q6 ltac:(rewrite Q9, Q6; reflexivity) Q3 Q4).
    destruct (str_in m first_order); apply E; exact LC. }
  assert (BOTH : PI * K / (0.2095 / (1.380649 * 300) * 1e4) * (per_km * oxygen_density dry (300 / vx) * (L + (if apart m then 0 else Z))) = K * 1e11 * (o2_summ (A:=RA) m q ll f : R) * dry * (vx * vx * vx)).
  { rewrite <- Rmult_assoc, DEN. transitivity (K * 1e11 * dry * vx * (PI * (L + if apart m then 0 else Z))); [ring|]. rewrite <- SUM. ring. }
  rewrite BOTH, Hn, Hc. set (S := o2_summ m q ll f). clear BOTH SUM.
  assert (DZ : apart m = true -> PI * K / (0.2095 / (1.380649 * 300) * 1e4) * (per_km * oxygen_density dry (300 / vx) * Z) = o2_cont (A:=RA) m q f).
  { intros HA. rewrite <- Rmult_assoc, DEN. transitivity (K * 1e11 * dry * vx * (PI * Z)); [ring|]. unfold Z. rewrite ZZ by lra. unfold o2_cont. cbv zeta. rewrite Q1, Q5, Q7, Q6. fold p. unfold K, debye_strength.
    assert (A3 : forall x : R, powi (A:=RA) x 3 = x * x * x) by (intros; unfold powi; cbn; ra; lra). rewrite !A3.
    replace (str_in m ["R03"; "R98"]) with (str_in m ["R98"; "R03"]) by (unfold str_in; cbn [existsb]; destruct (String.eqb m "R98"), (String.eqb m "R03"); reflexivity).
    replace (str_in m ["R20"; "R20SD"; "R22"]) with false by (clear - Hm HA; unfold first_order, second_order in Hm; cbn [In app] in Hm; repeat (destruct Hm as [<-|Hm]; [first [reflexivity|discriminate HA]|]); destruct Hm).
    set (w := o_wb300 ll * p). destruct (str_in m ["R98"; "R03"]); ra; powers; set (D := vx * (f * f + w * w)); unfold Rdiv; generalize (/ D); intros; lra. }
  split.
  - clear DZ. unfold o2_abs. cbv zeta. rewrite Q1, Q5, N23, N24. assert (A3 : forall x : R, powi (A:=RA) x 3 = x * x * x) by (intros; unfold powi; cbn; ra; lra). rewrite !A3. unfold K. clearbody S dry. clear - Hm.
    assert (MX : forall x : R, maxv (A:=RA) x (lit (Dec 0 10)) = Rmax x 0) by (intros; unfold maxv; ra; unfold Rltb; destruct (Rlt_dec x (0 / 10)); [rewrite Rmax_right by lra; lra|rewrite Rmax_left by lra; reflexivity]).
    assert (M2 : forall x, 1004 / 1000 * Rmax (Rmax x 0) 0 = Rmax (1004 / 1000 * x) 0) by (intros x; destruct (Rle_dec x 0); [rewrite (Rmax_right x 0), !Rmax_right by lra; lra|rewrite !Rmax_left; rewrite ?Rmax_left; lra]).
    unfold first_order, second_order in Hm. cbn [In app] in Hm.
    repeat (destruct Hm as [<-|Hm]; [cbn [str_in existsb String.eqb Ascii.eqb Bool.eqb orb negb]; rewrite ?MX; ra; powers; first [lra|apply (f_equal (fun x => Rmax x 0)); lra|rewrite M2; apply (f_equal (fun x => Rmax x 0)); lra]|]); destruct Hm.
  - destruct (apart m) eqn:EA.
    + rewrite (DZ eq_refl). clear - Hm EA. unfold first_order, second_order in Hm. cbn [In app] in Hm.
      repeat (destruct Hm as [<-|Hm]; [first [reflexivity|discriminate EA]|]); destruct Hm.
    + clear - Hm EA. unfold first_order, second_order in Hm. cbn [In app] in Hm.
      repeat (destruct Hm as [<-|Hm]; [first [reflexivity|discriminate EA]|]); destruct Hm.
Qed.

(** ** C120: models R23 and R24 *)

(** Relative strength of a line in the sum rules. *)
Definition weight (theta : R) (k : o2_line RA) : R := o_s300 k * exp (- o_be k * (theta - 1)) / (o_f k * o_f k).
Definition linear (c0 c1 theta : R) : R := c0 + c1 * (theta - 1).
(** Pressure shift of a line. *)
Definition o2_shift (theta p : R) (k : o2_line RA) : R := p * p * linear (o_dnu0 k) (o_dnu1 k) theta.
(** A line with mixing coefficients [y] and [g] (per bar and per bar squared); [p] the effective pressure for the widths, [pm] the one for mixing and shifts. *)
Definition mixing_line (theta p pm y g f : R) (k : o2_line RA) : R :=
  o2_strength k theta * mixed_pair (o_w300 k * p) (pm * y) (1 + pm * pm * g) (o_f k) (o2_shift theta pm k) f.
(** What the speed-dependent shape of the 118-GHz line may add: nothing ten half-widths from the centre, else at most 4.56 percent of a Lorentz line. *)
Definition sd_addition (w y d delta : R) : Prop :=
  Rabs delta <= sqrt (1 + y * y) * (0.0456 * (w / (d * d + w * w))) /\ (10 * w <= Rabs d -> delta = 0).

Lemma fold_indexed {X} (F : R -> nat * X -> R) (G : X -> R) lo hi : (forall i x a, (lo <= i < hi)%nat -> F a (i, x) = a + G x) ->
  forall l s a, (lo <= s)%nat -> (s + List.length l <= hi)%nat -> fold_left F (combine (seq s (List.length l)) l) a = a + total G l.
Proof.
  intros HF. induction l as [|x l IH]; intros s a H1 H2; cbn [List.length seq combine fold_left total fold_right]; [lra|].
  cbn [List.length] in H2. rewrite HF by lia. rewrite IH by lia. fold (total G l). lra.
Qed.
Lemma filter_indexed {X} (P : nat -> bool) b lo hi : (forall i, (lo <= i < hi)%nat -> P i = b) ->
  forall (l : list X) s, (lo <= s)%nat -> (s + List.length l <= hi)%nat -> filter (fun '(i, _) => P i) (combine (seq s (List.length l)) l) = if b then combine (seq s (List.length l)) l else [].
Proof.
  intros HP. induction l as [|x l IH]; intros s H1 H2; cbn [List.length seq combine filter]; [destruct b; reflexivity|].
  cbn [List.length] in H2. rewrite HP by lia. rewrite IH by lia. destruct b; reflexivity.
Qed.
Lemma map_indexed {X Y} (g : X -> Y) (l : list X) : forall s, map (fun '(_, k) => g k) (combine (seq s (List.length l)) l) = map g l.
Proof. induction l as [|x l IH]; intros s; cbn [List.length seq combine map]; [reflexivity|]. rewrite IH. reflexivity. Qed.
Lemma combine_app {X Y} (a b : list X) (c d : list Y) : List.length a = List.length c -> combine (a ++ b)%list (c ++ d)%list = (combine a c ++ combine b d)%list.
Proof. revert c. induction a as [|x a IH]; intros [|y c] H; cbn in *; try discriminate; [reflexivity|]. rewrite IH by lia. reflexivity. Qed.
Lemma indexed_split {X} (l0 : X) band rest : List.length band = 37%nat ->
  indexed (l0 :: band ++ rest)%list = (0%nat, l0) :: (combine (seq 1 (List.length band)) band ++ combine (seq 38 (List.length rest)) rest)%list.
Proof.
  intros H. unfold indexed. cbn [List.length seq combine]. apply f_equal. rewrite app_length, seq_app, combine_app by (rewrite seq_length; reflexivity).
  rewrite H. reflexivity.
Qed.
Lemma in_1_37_band i : (1 <= i < 38)%nat -> in_1_37 i = true.
Proof. intros H. unfold in_1_37. destruct (Nat.ltb_spec 0 i), (Nat.leb_spec i 37); try lia; reflexivity. Qed.
Lemma in_1_37_rest i : (38 <= i)%nat -> in_1_37 i = false.
Proof. intros H. unfold in_1_37. destruct (Nat.ltb_spec 0 i), (Nat.leb_spec i 37); try lia; reflexivity. Qed.
Lemma band_indexed {X} (l0 : X) band rest : List.length band = 37%nat ->
  filter (fun '(i, _) => in_1_37 i) (indexed (l0 :: band ++ rest)%list) = combine (seq 1 (List.length band)) band.
Proof.
  intros H. rewrite (indexed_split l0 band rest H). cbn [filter in_1_37 Nat.ltb Nat.leb andb]. rewrite filter_app.
  rewrite (filter_indexed in_1_37 true 1 38) by (try lia; apply in_1_37_band).
  rewrite (filter_indexed in_1_37 false 38 (38 + List.length rest)) by (try lia; intros; apply in_1_37_rest; lia).
  apply app_nil_r.
Qed.
Lemma low_indexed {X} (l0 : X) band rest : List.length band = 37%nat ->
  filter (fun '(i, _) => Nat.leb i 37) (indexed (l0 :: band ++ rest)%list) = (0%nat, l0) :: combine (seq 1 (List.length band)) band.
Proof.
  intros H. rewrite (indexed_split l0 band rest H). cbn [filter]. change (Nat.leb 0 37) with true. apply f_equal. rewrite filter_app.
  rewrite (filter_indexed (fun i => Nat.leb i 37) true 1 38) by (try lia; intros; apply Nat.leb_le; lia).
  rewrite (filter_indexed (fun i => Nat.leb i 37) false 38 (38 + List.length rest)) by (try lia; intros; apply Nat.leb_gt; lia).
  apply app_nil_r.
Qed.

Lemma total_pos {X} (g : X -> R) l : l <> [] -> (forall x, In x l -> 0 < g x) -> 0 < total g l.
Proof.
  intros HN H. destruct l as [|x l]; [congruence|]. clear HN. revert x H. induction l as [|y l IH]; intros x H; cbn [total fold_right].
  - specialize (H x (or_introl eq_refl)). lra.
  - assert (0 < g x) by (apply H; left; reflexivity). assert (0 < total g (y :: l)) by (apply IH; intros z Hz; apply H; right; exact Hz).
    cbn [total fold_right] in *. lra.
Qed.
Lemma total_add {X} (g h : X -> R) l : total (fun x => g x + h x) l = total g l + total h l.
Proof. induction l as [|x l IH]; cbn [total fold_right]; [lra|]. fold (total g l) (total h l) (total (fun x => g x + h x) l). rewrite IH. lra. Qed.
Lemma total_ext {X} (g h : X -> R) l : (forall x, In x l -> g x = h x) -> total g l = total h l.
Proof. induction l as [|x l IH]; intros H; cbn [total fold_right]; [reflexivity|]. fold (total g l) (total h l). rewrite IH by (intros; apply H; right; assumption). rewrite H by (left; reflexivity). reflexivity. Qed.
Lemma total_times {X} (g : X -> R) c l : total (fun x => c * g x) l = c * total g l.
Proof. apply total_scale. reflexivity. Qed.

(** One line of the R23 and R24 branches, in the notation of the specification. *)
Lemma line_sd_code (f : R) i (a w y g fc : R) : i <> 0%nat ->
  o2_line_sd (A:=RA) f i a w y g fc = a * ((w * g + (f - fc) * y) / ((f - fc) * (f - fc) + w * w) + (w * g - (f + fc) * y) / ((f + fc) * (f + fc) + w * w)).
Proof. intros Hi. unfold o2_line_sd. destruct (Nat.eqb_spec i 0); [contradiction|]. cbn [andb]. cbv zeta. rewrite !powi2. ra. reflexivity. Qed.
Definition pair_shape (f a w y g fc : R) : R := a * ((w * g + (f - fc) * y) / ((f - fc) * (f - fc) + w * w) + (w * g - (f + fc) * y) / ((f + fc) * (f + fc) + w * w)).
Lemma line_sd_eq (f : R) i (a w y g fc a' y' g' fc' : R) : i <> 0%nat -> a = a' -> y = y' -> g = g' -> fc = fc' -> o2_line_sd (A:=RA) f i a w y g fc = pair_shape f a' w y' g' fc'.
Proof. intros Hi -> -> -> ->. apply line_sd_code. exact Hi. Qed.
Lemma line_sd_first (f a w y fc : R) : 0 < w -> exists delta, sd_addition w y (f - fc) delta /\
  o2_line_sd (A:=RA) f 0 a w y 1 fc = a * ((w * 1 + (f - fc) * y) / ((f - fc) * (f - fc) + w * w) + (w * 1 - (f + fc) * y) / ((f + fc) * (f + fc) + w * w) + delta).
Proof.
  intros Hw. unfold o2_line_sd. cbn [Nat.eqb andb]. cbv zeta. rewrite !powi2.
  assert (B : 0 <= sqrt (1 + y * y) * (0.0456 * (w / ((f - fc) * (f - fc) + w * w)))).
  { assert (0 < w / ((f - fc) * (f - fc) + w * w)) by (apply div_pos; [lra|]; assert (0 <= (f - fc) * (f - fc)) by apply Rle_0_sqr; nra). assert (S := sqrt_pos (1 + y * y)). nra. }
  destruct (ltb (a:=RA) (absv (a:=RA) (sub (a:=RA) f fc)) (mul (a:=RA) (lit (Dec 100 10)) w)) eqn:E.
  - change (Rltb (Rabs (f - fc)) (100 / 10 * w) = true) in E. unfold Rltb in E. destruct (Rlt_dec (Rabs (f - fc)) (100 / 10 * w)) as [L|]; [|discriminate].
    assert (K := C114_oxygen_shape w fc y f Hw ltac:(lra)). set (sd := o2_sd (A:=RA) w fc y f) in *. clearbody sd.
    exists (sd - mixed w y (f - fc)). split; [split|].
    + replace 0.0456 with (456 / 10000) by lra. replace (w / ((f - fc) * (f - fc) + w * w)) with (lorentz w (f - fc)) by (unfold lorentz; f_equal; lra). exact K.
    + intros. lra.
    + unfold mixed. replace (w * 1 + (f - fc) * y) with (w + y * (f - fc)) by lra. replace ((f - fc) * (f - fc) + w * w) with (w * w + (f - fc) * (f - fc)) by lra. ra. ring.
  - exists 0. split; [split; [rewrite Rabs_R0; exact B|reflexivity]|]. ra. rewrite Rplus_0_r. reflexivity.
Qed.

Lemma mixing_code (theta p pm y g f : R) (k : o2_line RA) (a0 : R) : a0 = theta * theta * o_s300 k * exp (- o_be k * (theta - 1)) / (o_f k * o_f k) -> let w := o_w300 k * p in let fc := o_f k + o2_shift theta pm k in
  f * f * (a0 * ((w * (1 + pm * pm * g) + (f - fc) * (pm * y)) / ((f - fc) * (f - fc) + w * w) + (w * (1 + pm * pm * g) - (f + fc) * (pm * y)) / ((f + fc) * (f + fc) + w * w))) = PI * mixing_line theta p pm y g f k.
Proof.
  intros -> w fc. assert (P := PI_RGT_0). unfold mixing_line, mixed_pair, o2_strength. fold w.
  replace (f - o_f k - o2_shift theta pm k) with (f - fc) by (unfold fc; ring). replace (f + o_f k + o2_shift theta pm k) with (f + fc) by (unfold fc; ring).
  set (u := (w * (1 + pm * pm * g) + (f - fc) * (pm * y)) / ((f - fc) * (f - fc) + w * w)). set (v := (w * (1 + pm * pm * g) - (f + fc) * (pm * y)) / ((f + fc) * (f + fc) + w * w)).
  assert (I : / (o_f k * o_f k) = / o_f k * / o_f k) by (destruct (Req_dec (o_f k) 0) as [->|N]; [rewrite Rmult_0_r, Rinv_0; ring|field; exact N]).
  unfold Rdiv. rewrite I. generalize (/ o_f k). intros i. field. lra.
Qed.

(** The extra term of the first line in the cross section. *)
Definition first_extra (theta delta f : R) (k : o2_line RA) : R := o2_strength k theta * ((f / o_f k) * (f / o_f k) * delta / PI).

Lemma effective_pos m expo dry pv theta : 0 < dry -> 0 <= pv -> 0 < theta -> 0 < effective m expo dry pv theta.
Proof.
  intros H1 H2 H3. unfold effective. cbv zeta. set (e := if String.eqb m "R98" then _ else _).
  assert (P : 0 < Rpower theta e) by apply exp_pos. destruct (str_in m ["R98"; "R03"; "R16"]); apply Rmult_lt_0_compat; try lra; nra.
Qed.

Lemma o2_sum_R24 (ll : o2_ll RA) (q : o2_env RA) (theta p f : R) l0 band rest : o_lines ll = (l0 :: band ++ rest)%list -> List.length band = 37%nat ->
  (forall k, In k band -> 0 < o_f k /\ 0 < o_s300 k) -> 0 < o_w300 l0 * p -> 0 < theta -> 0 < f ->
  q_th q = theta -> q_th1 q = theta - 1 -> q_pe1 q = p -> q_pe2 q = p * p ->
  exists (Y G : o2_line RA -> R) (delta : R),
  (exists c, forall k, Y k = 0.99 * linear (o_y300 k) (o_y1 k) theta - c / o_f k) /\
  (exists r, forall k, G k = linear (o_g0 k) (o_g1 k) theta - r * weight theta k) /\
  let y0 := 0.99 * linear (o_y300 l0) (o_y1 l0) theta in
  2 * theta * (weight theta l0 * (o_w300 l0 + y0 * o_f l0) + total (fun k : o2_line RA => weight theta k * (o_w300 k + Y k * o_f k)) band) + 1.584e-17 * o_wb300 ll = 0 /\
  total (fun k : o2_line RA => weight theta k * G k) band = 0 /\
  sd_addition (o_w300 l0 * p) (p * y0) (f - (o_f l0 + o2_shift theta p l0)) delta /\
  f * f * theta * (o2_summ_R24 (A:=RA) q ll f : R) =
    PI * (nonresonant (1.584e-17 * theta) (o_wb300 ll * p) f + (mixing_line theta p p y0 0 f l0 + first_extra theta delta f l0) +
          total (fun k : o2_line RA => mixing_line theta p p (Y k) (G k) f k) band +
          total (fun k : o2_line RA => mixing_line theta p p (0.99 * linear (o_y300 k) (o_y1 k) theta) 0 f k) rest).
Proof.
  intros HL H37 HB HW Ht Hf Q1 Q2 Q3 Q4. assert (PP := PI_RGT_0). unfold o2_summ_R24. cbv zeta. rewrite HL, (band_indexed l0 band rest H37), (low_indexed l0 band rest H37), (indexed_split l0 band rest H37).
  rewrite Q1, Q2, Q3, Q4.
  set (a := fun k : o2_line RA => div (a:=RA) (mul (a:=RA) (mul (a:=RA) (o_s300 k) (expf (a:=RA) (mul (a:=RA) (opp (a:=RA) (o_be k)) (theta - 1)))) theta) (powi (A:=RA) (o_f k) 2)).
  assert (Ea : forall k, a k = theta * weight theta k) by (intros k; unfold a, weight; rewrite powi2; ra; unfold Rdiv; ring).
  set (y := fun k : o2_line RA => mul (a:=RA) (lit (Dec 99 100)) (add (a:=RA) (o_y300 k) (mul (a:=RA) (o_y1 k) (theta - 1)))).
  assert (Ey : forall k, y k = 0.99 * linear (o_y300 k) (o_y1 k) theta) by (intros k; unfold y, linear; ra; lra).
  set (g := fun k : o2_line RA => add (a:=RA) (o_g0 k) (mul (a:=RA) (o_g1 k) (theta - 1))).
  assert (Eg : forall k, g k = linear (o_g0 k) (o_g1 k) theta) by (intros k; reflexivity).
  cbn [map].
  set (LB := combine (seq 1 (List.length band)) band).
  assert (NB : band <> []) by (intros ->; discriminate).
  assert (WB : forall k, In k band -> 0 < weight theta k).
  { intros k Hk. destruct (HB k Hk). unfold weight. apply div_pos; [|nra]. apply Rmult_lt_0_compat; [lra|apply exp_pos]. }
  set (T1 := total (weight theta) band). assert (P1 : 0 < T1) by (apply total_pos; assumption).
  set (T2 := total (fun k => weight theta k * weight theta k) band). assert (P2 : 0 < T2) by (apply total_pos; [assumption|intros k Hk; specialize (WB k Hk); nra]).
  set (y0 := 0.99 * linear (o_y300 l0) (o_y1 l0) theta).
  set (SY := 1.584e-17 * o_wb300 ll + 2 * theta * (weight theta l0 * (o_w300 l0 + y0 * o_f l0) + total (fun k => weight theta k * (o_w300 k + 0.99 * linear (o_y300 k) (o_y1 k) theta * o_f k)) band)).
  set (SG := total (fun k => weight theta k * linear (o_g0 k) (o_g1 k) theta) band).
  match goal with |- context [div (a:=RA) (sum_from (A:=RA) (mul (a:=RA) (lit (Dec 1584 100000000000000000000)) (o_wb300 ll)) ?l) ?d] =>
    set (sumy2 := div (a:=RA) (sum_from (A:=RA) (mul (a:=RA) (lit (Dec 1584 100000000000000000000)) (o_wb300 ll)) l) d) end.
  assert (E1 : (sumy2 : R) = SY / (2 * (theta * T1))).
  { unfold sumy2, LB. rewrite !map_indexed.
    assert (N : sum_from (A:=RA) (mul (a:=RA) (lit (Dec 1584 100000000000000000000)) (o_wb300 ll)) (map (fun k : o2_line RA => mul (a:=RA) (mul (a:=RA) (lit (Dec 20 10)) (a k)) (add (a:=RA) (o_w300 k) (mul (a:=RA) (y k) (o_f k)))) (l0 :: band)) = SY).
    { etransitivity; [exact (sum_total (fun k : o2_line RA => mul (a:=RA) (mul (a:=RA) (lit (Dec 20 10)) (a k)) (add (a:=RA) (o_w300 k) (mul (a:=RA) (y k) (o_f k)))) (l0 :: band) _)|]. unfold SY.
      apply f_equal2; [powers; ra; apply f_equal2; [lra|reflexivity]|].
      rewrite (total_scale _ (fun k : o2_line RA => weight theta k * (o_w300 k + 0.99 * linear (o_y300 k) (o_y1 k) theta * o_f k)) (2 * theta)); [reflexivity|].
      intros k. rewrite Ea, Ey. ra. lra. }
    assert (D : mul (a:=RA) (lit (Dec 20 10)) (sum_from (A:=RA) (lit (Dec 0 10)) (map a band)) = 2 * (theta * T1)).
    { etransitivity; [apply f_equal; exact (sum_total a band _)|]. rewrite (total_scale a (weight theta) theta) by exact Ea. ra. fold T1. lra. }
    exact (f_equal2 Rdiv N D). }
  clearbody sumy2.
  match goal with |- context [div (a:=RA) (sum_from (A:=RA) ?z ?l) (sum_from (A:=RA) ?z' ?l')] => set (ratio := div (a:=RA) (sum_from (A:=RA) z l) (sum_from (A:=RA) z' l')) end.
  assert (E2 : (ratio : R) = SG / (theta * T2)).
  { unfold ratio, LB. rewrite !map_indexed.
    assert (N : sum_from (A:=RA) (lit (Dec 0 10)) (map (fun k : o2_line RA => mul (a:=RA) (a k) (g k)) band) = theta * SG).
    { etransitivity; [exact (sum_total (fun k : o2_line RA => mul (a:=RA) (a k) (g k)) band _)|]. rewrite (total_scale _ (fun k : o2_line RA => weight theta k * linear (o_g0 k) (o_g1 k) theta) theta); [fold SG; ra; lra|].
      intros k. ra. rewrite Ea, Eg. ring. }
    assert (D : sum_from (A:=RA) (lit (Dec 0 10)) (map (fun k : o2_line RA => powi (A:=RA) (a k) 2) band) = theta * theta * T2).
    { etransitivity; [exact (sum_total (fun k : o2_line RA => powi (A:=RA) (a k) 2) band _)|]. rewrite (total_scale _ (fun k : o2_line RA => weight theta k * weight theta k) (theta * theta)); [fold T2; ra; lra|].
      intros k. rewrite powi2. ra. rewrite Ea. ring. }
    etransitivity; [exact (f_equal2 Rdiv N D)|]. field. lra. }
  clearbody ratio.
  exists (fun k : o2_line RA => 0.99 * linear (o_y300 k) (o_y1 k) theta - SY / (2 * (theta * T1)) / o_f k), (fun k : o2_line RA => linear (o_g0 k) (o_g1 k) theta - SG / T2 * weight theta k).
  cbn [fold_left]. rewrite fold_left_app.
  change (in_1_37 0) with false. cbv iota.
  assert (C1 : (lit (a:=RA) (Dec 10 10) : R) = 1) by (ra; lra). rewrite C1.
  assert (EA : forall k, theta * a k = theta * theta * o_s300 k * exp (- o_be k * (theta - 1)) / (o_f k * o_f k)) by (intros k; rewrite Ea; unfold weight, Rdiv; ring).
  match goal with |- context [o2_line_sd (A:=RA) f 0 ?a0 ?w ?y ?g ?fc] => destruct (line_sd_first f a0 w y fc HW) as (delta & D1 & D2); set (L0 := o2_line_sd (A:=RA) f 0 a0 w y g fc) in * end.
  exists delta. split; [eexists; reflexivity|]. split; [eexists; reflexivity|].
  split; [|split; [|split]].
  - rewrite (total_ext _ (fun k : o2_line RA => weight theta k * (o_w300 k + 0.99 * linear (o_y300 k) (o_y1 k) theta * o_f k) + - (SY / (2 * (theta * T1))) * weight theta k)).
    + rewrite total_add, total_times. fold T1. set (X := total _ band). replace (- (SY / (2 * (theta * T1))) * T1) with (- SY / (2 * theta)) by (field; lra).
      rewrite Rmult_plus_distr_l, (Rmult_plus_distr_l _ X). replace (2 * theta * (- SY / (2 * theta))) with (- SY) by (field; lra). unfold SY. fold X. ring.
    + intros k Hk. destruct (HB k Hk). field. lra.
  - rewrite (total_ext _ (fun k : o2_line RA => weight theta k * linear (o_g0 k) (o_g1 k) theta + - (SG / T2) * (weight theta k * weight theta k))) by (intros; ring).
    rewrite total_add, total_times. fold T2. fold SG. field. lra.
  - assert (Y0 : mul (a:=RA) p (mul (a:=RA) (lit (Dec 99 100)) (add (a:=RA) (o_y300 l0) (mul (a:=RA) (o_y1 l0) (theta - 1)))) = p * y0) by (exact (f_equal (Rmult p) (Ey l0))). rewrite Y0 in D1. exact D1.
  - match goal with |- context [fold_left ?F LB _] => set (Fo := F) end.
    set (Yb := fun k : o2_line RA => 0.99 * linear (o_y300 k) (o_y1 k) theta - SY / (2 * (theta * T1)) / o_f k).
    set (Gb := fun k : o2_line RA => linear (o_g0 k) (o_g1 k) theta - SG / T2 * weight theta k).
    set (Yr := fun k : o2_line RA => 0.99 * linear (o_y300 k) (o_y1 k) theta).
    set (fc := fun k : o2_line RA => o_f k + o2_shift theta p k).
    assert (FC : forall k, add (a:=RA) (o_f k) (mul (a:=RA) (p * p) (add (a:=RA) (o_dnu0 k) (mul (a:=RA) (o_dnu1 k) (theta - 1)))) = fc k) by reflexivity.
    assert (FB : forall acc, fold_left Fo LB acc = acc + total (fun k : o2_line RA => pair_shape f (a k) (o_w300 k * p) (p * Yb k) (1 + p * p * Gb k) (fc k)) band).
    { intros acc. apply (fold_indexed Fo (fun k : o2_line RA => pair_shape f (a k) (o_w300 k * p) (p * Yb k) (1 + p * p * Gb k) (fc k)) 1 38); [|lia|lia].
      intros i k b Hi. unfold Fo. rewrite in_1_37_band by lia. apply (f_equal (Rplus b)). apply line_sd_eq; [lia|reflexivity| | |reflexivity].
      - apply (f_equal (Rmult p)). unfold Yb. rewrite <- E1, <- Ey. reflexivity.
      - apply (f_equal (Rplus 1)). apply (f_equal (Rmult (p * p))). unfold Gb. rewrite <- Eg. transitivity (g k - a k * ratio); [reflexivity|]. rewrite Ea, E2. field. lra. }
    assert (FR : forall acc, fold_left Fo (combine (seq 38 (List.length rest)) rest) acc = acc + total (fun k : o2_line RA => pair_shape f (a k) (o_w300 k * p) (p * Yr k) (1 + p * p * 0) (fc k)) rest).
    { intros acc. apply (fold_indexed Fo (fun k : o2_line RA => pair_shape f (a k) (o_w300 k * p) (p * Yr k) (1 + p * p * 0) (fc k)) 38 (38 + List.length rest)); [|lia|lia].
      intros i k b Hi. unfold Fo. rewrite in_1_37_rest by lia. apply (f_equal (Rplus b)). apply line_sd_eq; [lia|reflexivity| |lra|reflexivity].
      exact (f_equal (Rmult p) (Ey k)). }
    assert (SH : forall k y g, f * f * theta * pair_shape f (a k) (o_w300 k * p) (p * y) (1 + p * p * g) (fc k) = PI * mixing_line theta p p y g f k).
    { intros k yy gg. rewrite <- (mixing_code theta p p yy gg f k (theta * a k) (EA k)). cbv zeta. fold (fc k). unfold pair_shape. ring. }
    assert (ST : forall Y G l, f * f * theta * total (fun k : o2_line RA => pair_shape f (a k) (o_w300 k * p) (p * Y k) (1 + p * p * G k) (fc k)) l = PI * total (fun k : o2_line RA => mixing_line theta p p (Y k) (G k) f k) l).
    { intros YY GG l. rewrite <- !total_times. apply total_ext. intros k _. apply SH. }
    rewrite FR, FB. clear FB FR Fo.
    set (ZC := div (a:=RA) _ _).
    assert (EZ : f * f * theta * ZC = PI * nonresonant (1.584e-17 * theta) (o_wb300 ll * p) f).
    { unfold ZC, nonresonant. ra. powers. set (w := o_wb300 ll * p). assert (0 < f * f + w * w) by nra. set (D := f * f + w * w) in *. clearbody D.
      replace (1584 / 100000000000000000000) with (1.584 / 100000000000000000) by lra. set (cc := 1.584 / 100000000000000000). clearbody cc. field. lra. }
    clearbody ZC.
    assert (EL : f * f * theta * L0 = PI * (mixing_line theta p p y0 0 f l0 + first_extra theta delta f l0)).
    { rewrite D2. rewrite (Rmult_plus_distr_l PI), <- SH. unfold pair_shape, first_extra.
      assert (Y0 : mul (a:=RA) p (mul (a:=RA) (lit (Dec 99 100)) (add (a:=RA) (o_y300 l0) (mul (a:=RA) (o_y1 l0) (theta - 1)))) = p * y0) by (exact (f_equal (Rmult p) (Ey l0))). rewrite Y0. rewrite FC. fold (a l0).
      replace (1 + p * p * 0) with 1 by lra.
      change (mul (a:=RA) (o_w300 l0) p) with (o_w300 l0 * p). set (w := o_w300 l0 * p). set (F := fc l0). set (u := _ / _ + _ / _). clearbody u. replace (o2_strength l0 theta * (f / o_f l0 * (f / o_f l0) * delta / PI)) with (f * f * (theta * a l0) * delta / PI); [field; lra|].
      rewrite EA. unfold o2_strength, Rdiv. rewrite Rinv_mult. ring. }
    clearbody L0. change (add (a:=RA) ZC L0) with (ZC + L0). rewrite !(Rmult_plus_distr_l (f * f * theta)), EZ, EL, ST, (ST Yr (fun _ => 0)). unfold Yb, Gb, Yr. cbv beta. ring.
Qed.

Lemma total_app {X} (g : X -> R) l l' : total g (l ++ l')%list = total g l + total g l'.
Proof. unfold total. induction l as [|x l IH]; simpl; [ring|]. rewrite IH. ring. Qed.
Lemma maxv_0 (x : R) : maxv (A:=RA) x (lit (Dec 0 10)) = Rmax x 0.
Proof. unfold maxv. ra. unfold Rltb. destruct (Rlt_dec x (0 / 10)); [rewrite Rmax_right by lra; lra|rewrite Rmax_left by lra; reflexivity]. Qed.

Lemma o2_sum_R23 (ll : o2_ll RA) (q : o2_env RA) (theta p f : R) l0 band rest : o_lines ll = (l0 :: band ++ rest)%list -> List.length band = 37%nat ->
  (forall k, In k band -> 0 < o_f k /\ 0 < o_s300 k) -> 0 < o_w300 l0 * p -> 0 < theta -> 0 < f ->
  q_th q = theta -> q_th1 q = theta - 1 -> q_den q = p -> q_pe1 q = 0.99 * p -> q_pe2 q = 0.99 * p * (0.99 * p) -> q_dfnr q = o_wb300 ll * p ->
  let pm := 0.99 * p in
  exists (G : o2_line RA -> R) (delta : R),
  (exists c, forall k, G k = linear (o_g0 k) (o_g1 k) theta - c) /\
  let y := fun k : o2_line RA => linear (o_y300 k) (o_y1 k) theta in
  total (fun k : o2_line RA => weight theta k * G k) band = 0 /\
  sd_addition (o_w300 l0 * p) (pm * y l0) (f - (o_f l0 + o2_shift theta pm l0)) delta /\
  f * f * (theta * theta) * (o2_summ_R23 (A:=RA) q ll f : R) =
    PI * (Rmax (nonresonant (1.584e-17 * theta) (o_wb300 ll * p) f + (mixing_line theta p pm (y l0) 0 f l0 + first_extra theta delta f l0) +
                total (fun k : o2_line RA => mixing_line theta p pm (y k) (G k) f k) band) 0 +
          total (fun k : o2_line RA => mixing_line theta p pm (y k) 0 f k) rest).
Proof.
  intros HL H37 HB HW Ht Hf Q1 Q2 Q3 Q4 Q5 Q6 pm. assert (PP := PI_RGT_0). unfold o2_summ_R23. cbv zeta. rewrite HL, (band_indexed l0 band rest H37), (indexed_split l0 band rest H37).
  rewrite Q1, Q2, Q3, Q4, Q5, Q6. fold pm.
  set (a := fun k : o2_line RA => div (a:=RA) (mul (a:=RA) (o_s300 k) (expf (a:=RA) (mul (a:=RA) (opp (a:=RA) (o_be k)) (theta - 1)))) (powi (A:=RA) (o_f k) 2)).
  assert (Ea : forall k, a k = weight theta k) by (intros k; unfold a, weight; rewrite powi2; reflexivity).
  set (y := fun k : o2_line RA => linear (o_y300 k) (o_y1 k) theta).
  set (g := fun k : o2_line RA => add (a:=RA) (o_g0 k) (mul (a:=RA) (o_g1 k) (theta - 1))).
  assert (Eg : forall k, g k = linear (o_g0 k) (o_g1 k) theta) by (intros k; reflexivity).
  cbn [map].
  set (LB := combine (seq 1 (List.length band)) band).
  assert (NB : band <> []) by (intros ->; discriminate).
  assert (WB : forall k, In k band -> 0 < weight theta k).
  { intros k Hk. destruct (HB k Hk). unfold weight. apply div_pos; [|nra]. apply Rmult_lt_0_compat; [lra|apply exp_pos]. }
  set (T1 := total (weight theta) band). assert (P1 : 0 < T1) by (apply total_pos; assumption).
  set (SG := total (fun k => weight theta k * linear (o_g0 k) (o_g1 k) theta) band).
  match goal with |- context [div (a:=RA) (sum_from (A:=RA) ?z ?l) (sum_from (A:=RA) ?z' ?l')] => set (ratio := div (a:=RA) (sum_from (A:=RA) z l) (sum_from (A:=RA) z' l')) end.
  assert (E2 : (ratio : R) = SG / T1).
  { unfold ratio, LB. rewrite !map_indexed.
    assert (N : sum_from (A:=RA) (lit (Dec 0 10)) (map (fun k : o2_line RA => mul (a:=RA) (a k) (g k)) band) = SG).
    { etransitivity; [exact (sum_total (fun k : o2_line RA => mul (a:=RA) (a k) (g k)) band _)|]. rewrite (total_ext _ (fun k : o2_line RA => weight theta k * linear (o_g0 k) (o_g1 k) theta)); [fold SG; ra; lra|].
      intros k _. ra. rewrite Ea, Eg. ring. }
    assert (D : sum_from (A:=RA) (lit (Dec 0 10)) (map a band) = T1).
    { etransitivity; [exact (sum_total a band _)|]. rewrite (total_ext _ (weight theta)) by (intros; apply Ea). fold T1. ra. lra. }
    exact (f_equal2 Rdiv N D). }
  clearbody ratio.
  exists (fun k : o2_line RA => linear (o_g0 k) (o_g1 k) theta - SG / T1).
  cbn [fold_left]. rewrite fold_left_app.
  change (in_1_37 0) with false. cbv iota. change (Nat.eqb 0 37) with false. cbv iota.
  assert (C1 : (lit (a:=RA) (Dec 10 10) : R) = 1) by (ra; lra). rewrite C1.
  assert (EA : forall k, theta * theta * a k = theta * theta * o_s300 k * exp (- o_be k * (theta - 1)) / (o_f k * o_f k)) by (intros k; rewrite Ea; unfold weight, Rdiv; ring).
  match goal with |- context [o2_line_sd (A:=RA) f 0 ?a0 ?w ?y ?g ?fc] => destruct (line_sd_first f a0 w y fc HW) as (delta & D1 & D2); set (L0 := o2_line_sd (A:=RA) f 0 a0 w y g fc) in * end.
  exists delta. split; [eexists; reflexivity|].
  split; [|split].
  - rewrite (total_ext _ (fun k : o2_line RA => weight theta k * linear (o_g0 k) (o_g1 k) theta + - (SG / T1) * weight theta k)) by (intros; ring).
    rewrite total_add, total_times. fold T1. fold SG. field. lra.
  - exact D1.
  - match goal with |- context [fold_left ?F LB _] => set (Fo := F) end.
    set (Gb := fun k : o2_line RA => linear (o_g0 k) (o_g1 k) theta - SG / T1).
    set (fc := fun k : o2_line RA => o_f k + o2_shift theta pm k).
    assert (FC : forall k, add (a:=RA) (o_f k) (mul (a:=RA) (pm * pm) (add (a:=RA) (o_dnu0 k) (mul (a:=RA) (o_dnu1 k) (theta - 1)))) = fc k) by reflexivity.
    set (vb := fun k : o2_line RA => pair_shape f (a k) (o_w300 k * p) (pm * y k) (1 + pm * pm * Gb k) (fc k)).
    assert (FB : forall acc, fold_left Fo LB acc = Rmax (acc + total vb band) 0).
    { intros acc. destruct (exists_last NB) as (b & k37 & EB). unfold LB. rewrite EB. rewrite app_length, seq_app, combine_app by (rewrite seq_length; reflexivity).
      assert (L36 : List.length b = 36%nat) by (rewrite EB, app_length in H37; cbn in H37; lia).
      assert (VB : forall i k c, (1 <= i < 38)%nat -> add (a:=RA) c (o2_line_sd (A:=RA) f i (a k) (mul (a:=RA) (o_w300 k) p) (mul (a:=RA) pm (add (a:=RA) (o_y300 k) (mul (a:=RA) (o_y1 k) (theta - 1)))) (add (a:=RA) 1 (mul (a:=RA) (pm * pm) (sub (a:=RA) (g k) ratio))) (add (a:=RA) (o_f k) (mul (a:=RA) (pm * pm) (add (a:=RA) (o_dnu0 k) (mul (a:=RA) (o_dnu1 k) (theta - 1)))))) = c + vb k).
      { intros i k c Hi. apply (f_equal (Rplus c)). apply line_sd_eq; [lia|reflexivity|reflexivity| |reflexivity].
        apply (f_equal (Rplus 1)). apply (f_equal (Rmult (pm * pm))). unfold Gb. rewrite <- E2. reflexivity. }
      rewrite fold_left_app. rewrite (fun H => fold_indexed Fo vb 1 37 H b); [| |lia|lia].
      - rewrite L36. cbn [List.length seq combine fold_left]. unfold Fo at 1. rewrite in_1_37_band by lia. change (Nat.eqb (1 + 36) 37) with true. cbv iota. etransitivity; [apply (f_equal (fun x => maxv (A:=RA) x (lit (Dec 0 10)))); apply VB; lia|].
        rewrite maxv_0, total_app. cbn [total fold_right]. f_equal. lra.
      - intros i k c Hi. unfold Fo. rewrite in_1_37_band by lia. replace (Nat.eqb i 37) with false by (symmetry; apply Nat.eqb_neq; lia). cbv iota. apply VB. lia. }
    assert (FR : forall acc, fold_left Fo (combine (seq 38 (List.length rest)) rest) acc = acc + total (fun k : o2_line RA => pair_shape f (a k) (o_w300 k * p) (pm * y k) (1 + pm * pm * 0) (fc k)) rest).
    { intros acc. apply (fold_indexed Fo (fun k : o2_line RA => pair_shape f (a k) (o_w300 k * p) (pm * y k) (1 + pm * pm * 0) (fc k)) 38 (38 + List.length rest)); [|lia|lia].
      intros i k b Hi. unfold Fo. rewrite in_1_37_rest by lia. replace (Nat.eqb i 37) with false by (symmetry; apply Nat.eqb_neq; lia). cbv iota. apply (f_equal (Rplus b)). apply line_sd_eq; [lia|reflexivity|reflexivity|lra|reflexivity]. }
    assert (SH : forall k y g, f * f * (theta * theta) * pair_shape f (a k) (o_w300 k * p) (pm * y) (1 + pm * pm * g) (fc k) = PI * mixing_line theta p pm y g f k).
    { intros k yy gg. rewrite <- (mixing_code theta p pm yy gg f k (theta * theta * a k) (EA k)). cbv zeta. fold (fc k). unfold pair_shape. ring. }
    assert (ST : forall Y G l, f * f * (theta * theta) * total (fun k : o2_line RA => pair_shape f (a k) (o_w300 k * p) (pm * Y k) (1 + pm * pm * G k) (fc k)) l = PI * total (fun k : o2_line RA => mixing_line theta p pm (Y k) (G k) f k) l).
    { intros YY GG l. rewrite <- !total_times. apply total_ext. intros k _. apply SH. }
    rewrite FR, FB. clear FB FR Fo. unfold vb. clear vb.
    set (ZC := div (a:=RA) _ _).
    assert (EZ : f * f * (theta * theta) * ZC = PI * nonresonant (1.584e-17 * theta) (o_wb300 ll * p) f).
    { unfold ZC, nonresonant. ra. powers. set (w := o_wb300 ll * p). assert (0 < f * f + w * w) by nra. set (D := f * f + w * w) in *. clearbody D.
      replace (1584 / 100000000000000000000) with (1.584 / 100000000000000000) by lra. set (cc := 1.584 / 100000000000000000). clearbody cc. field. lra. }
    clearbody ZC.
    assert (EL : f * f * (theta * theta) * L0 = PI * (mixing_line theta p pm (y l0) 0 f l0 + first_extra theta delta f l0)).
    { rewrite D2. rewrite (Rmult_plus_distr_l PI), <- SH. unfold pair_shape, first_extra. rewrite FC. fold (a l0).
      change (mul (a:=RA) pm (add (a:=RA) (o_y300 l0) (mul (a:=RA) (o_y1 l0) (theta - 1)))) with (pm * y l0).
      replace (1 + pm * pm * 0) with 1 by lra.
      change (mul (a:=RA) (o_w300 l0) p) with (o_w300 l0 * p). set (w := o_w300 l0 * p). set (F := fc l0). set (u := _ / _ + _ / _). clearbody u. replace (o2_strength l0 theta * (f / o_f l0 * (f / o_f l0) * delta / PI)) with (f * f * (theta * theta * a l0) * delta / PI); [field; lra|].
      rewrite EA. unfold o2_strength, Rdiv. rewrite Rinv_mult. ring. }
    clearbody L0. change (add (a:=RA) ZC L0) with (ZC + L0).
    assert (C0 : 0 < f * f * (theta * theta)) by (apply Rmult_lt_0_compat; nra).
    rewrite (Rmult_plus_distr_l (f * f * (theta * theta))), (ST y (fun _ => 0)), (Rmult_plus_distr_l PI). f_equal.
    rewrite <- !RmaxRmult by lra. rewrite !Rmult_0_r. rewrite !(Rmult_plus_distr_l (f * f * (theta * theta))), EZ, EL, ST. apply (f_equal (fun x => Rmax x 0)). unfold Gb, y. cbv beta. ring.
Qed.

(** Common steps: pressures, prefactor and units for R23 and R24. *)
Lemma o2_prefactor (dry vx X : R) : 0 < vx -> PI * 1.6097 / (0.2095 / (1.380649 * 300) * 1e4) * (per_km * oxygen_density dry (300 / vx) * X) = 1.6097e11 * dry * vx * (PI * X).
Proof.
  intros Hv. unfold per_km, oxygen_density, number_density, k_B. powers. generalize PI. intros pi. field. repeat split; lra.
Qed.
Lemma kappa_24 : 0.9997 <= PI * 1.6097 / (0.2095 / (1.380649 * 300) * 1e4) <= 1.
Proof. assert (P := PI_range). lra. Qed.

(** R24: in Np/km the absorption of oxygen is 0.2095 of the number density of dry air times the cross section of the non-resonant line, the 118-GHz line, the 37 lines
    of the 60-GHz band and the lines above 300 GHz, within 0.03 percent.  The mixing coefficients in use are those of the list lowered by a multiple of 1/f and of the line
    strength: they obey the two sum rules (the mixed band neither gains nor loses strength) at every temperature. *)
Theorem C120_R24 (ll : o2_ll RA) pd vx ek f n c l0 band rest :
  o_lines ll = (l0 :: band ++ rest)%list -> List.length band = 37%nat -> (forall k, In k band -> 0 < o_f k /\ 0 < o_s300 k) -> 0 < o_w300 l0 ->
  0 < vx -> 0 < pd -> 0 <= ek <= 1000 * pd -> 0 < f ->
  o2_absorption (A:=RA) "R24" ll pd vx ek f = (n, c) ->
  exists pv kappa, 0.9984 * (10 * ek) <= pv <= 1.0001 * (10 * ek) /\ 0.9997 <= kappa <= 1 /\
  let theta := vx in let dry := 10 * (pd + ek) - pv in let p := effective "R24" (o_x ll) dry pv theta in
  exists (Y G : o2_line RA -> R) (delta : R),
  (exists d, forall k, Y k = 0.99 * linear (o_y300 k) (o_y1 k) theta - d / o_f k) /\
  (exists r, forall k, G k = linear (o_g0 k) (o_g1 k) theta - r * weight theta k) /\
  let y := fun k : o2_line RA => 0.99 * linear (o_y300 k) (o_y1 k) theta in
  2 * theta * (weight theta l0 * (o_w300 l0 + y l0 * o_f l0) + total (fun k : o2_line RA => weight theta k * (o_w300 k + Y k * o_f k)) band) + debye_strength "R24" * o_wb300 ll = 0 /\
  total (fun k : o2_line RA => weight theta k * G k) band = 0 /\
  sd_addition (o_w300 l0 * p) (p * y l0) (f - (o_f l0 + o2_shift theta p l0)) delta /\
  npkm f n = Rmax (kappa * (per_km * oxygen_density dry (300 / theta) *
    (nonresonant (debye_strength "R24" * theta) (o_wb300 ll * p) f + (mixing_line theta p p (y l0) 0 f l0 + first_extra theta delta f l0) +
     total (fun k : o2_line RA => mixing_line theta p p (Y k) (G k) f k) band + total (fun k : o2_line RA => mixing_line theta p p (y k) 0 f k) rest))) 0 /\
  npkm f c = 0.
Proof.
  intros HL H37 HB HW Hv Hpd He Hf H. destruct (C53_o2_units "R24" ll pd vx ek f n c ltac:(lra) H) as [Hn Hc]. cbv zeta in Hn, Hc.
  destruct (o2_env_spec "R24" ll pd vx ek Hv (proj1 He) ltac:(cbn; auto 20)) as (pv & P1 & Q1 & Q2 & Q3 & Q4 & Q5 & Q6 & Q7 & Q8 & Q9).
  exists pv, (PI * 1.6097 / (0.2095 / (1.380649 * 300) * 1e4)). split; [exact P1|]. split; [exact kappa_24|]. cbv zeta.
  set (q := o2_env_of "R24" ll pd vx ek) in *. set (dry := 10 * (pd + ek) - pv) in *. set (p := effective "R24" (o_x ll) dry pv vx) in *.
  assert (Hp : 0 < p) by (apply effective_pos; unfold dry; lra).
  change (String.eqb "R24" "R23") with false in Q8. cbv iota in Q8. rewrite Rmult_1_l, Q6 in Q8. rewrite Q8 in Q9.
  destruct (o2_sum_R24 ll q vx p f l0 band rest HL H37 HB ltac:(nra) Hv Hf Q1 Q2 Q8 Q9) as (Y & G & delta & A1 & A2 & A3 & A4 & A5 & A6). cbv zeta in A3, A5, A6.
  exists Y, G, delta. split; [exact A1|]. split; [exact A2|]. change (debye_strength "R24") with 1.584e-17. split; [exact A3|]. split; [exact A4|]. split; [exact A5|]. split; [|exact Hc].
  rewrite Hn, o2_prefactor, <- A6 by exact Hv. unfold o2_abs. cbv zeta. rewrite Q1, Q5, powi2. change (o2_summ "R24" q ll f) with (o2_summ_R24 (A:=RA) q ll f). set (S := o2_summ_R24 (A:=RA) q ll f). clearbody S.
  change (str_in "R24" ["R20"; "R20SD"; "R22"; "R22SD"]) with false. change (String.eqb "R24" "R98") with false. change (str_in "R24" ["R03"; "R98"]) with false. change (String.eqb "R24" "R24") with true. cbn [negb].
  rewrite maxv_0. apply (f_equal (fun x => Rmax x 0)). ra. powers. lra.
Qed.

(** R23: as R24 with the mixing and shifts at 0.99 of the pressure, one sum rule, and the sum up to the 60-GHz band (the first 38 lines) not below zero. *)
Theorem C120_R23 (ll : o2_ll RA) pd vx ek f n c l0 band rest :
  o_lines ll = (l0 :: band ++ rest)%list -> List.length band = 37%nat -> (forall k, In k band -> 0 < o_f k /\ 0 < o_s300 k) -> 0 < o_w300 l0 ->
  0 < vx -> 0 < pd -> 0 <= ek <= 1000 * pd -> 0 < f ->
  o2_absorption (A:=RA) "R23" ll pd vx ek f = (n, c) ->
  exists pv kappa, 0.9984 * (10 * ek) <= pv <= 1.0001 * (10 * ek) /\ 0.9997 <= kappa <= 1 /\
  let theta := vx in let dry := 10 * (pd + ek) - pv in let p := effective "R23" (o_x ll) dry pv theta in let pm := 0.99 * p in
  exists (G : o2_line RA -> R) (delta : R),
  (exists d, forall k, G k = linear (o_g0 k) (o_g1 k) theta - d) /\
  let y := fun k : o2_line RA => linear (o_y300 k) (o_y1 k) theta in
  total (fun k : o2_line RA => weight theta k * G k) band = 0 /\
  sd_addition (o_w300 l0 * p) (pm * y l0) (f - (o_f l0 + o2_shift theta pm l0)) delta /\
  npkm f n = Rmax (kappa * (per_km * oxygen_density dry (300 / theta) *
    (Rmax (nonresonant (debye_strength "R23" * theta) (o_wb300 ll * p) f + (mixing_line theta p pm (y l0) 0 f l0 + first_extra theta delta f l0) +
           total (fun k : o2_line RA => mixing_line theta p pm (y k) (G k) f k) band) 0 +
     total (fun k : o2_line RA => mixing_line theta p pm (y k) 0 f k) rest))) 0 /\
  npkm f c = 0.
Proof.
  intros HL H37 HB HW Hv Hpd He Hf H. destruct (C53_o2_units "R23" ll pd vx ek f n c ltac:(lra) H) as [Hn Hc]. cbv zeta in Hn, Hc.
  destruct (o2_env_spec "R23" ll pd vx ek Hv (proj1 He) ltac:(cbn; auto 20)) as (pv & P1 & Q1 & Q2 & Q3 & Q4 & Q5 & Q6 & Q7 & Q8 & Q9).
  exists pv, (PI * 1.6097 / (0.2095 / (1.380649 * 300) * 1e4)). split; [exact P1|]. split; [exact kappa_24|]. cbv zeta.
  set (q := o2_env_of "R23" ll pd vx ek) in *. set (dry := 10 * (pd + ek) - pv) in *. set (p := effective "R23" (o_x ll) dry pv vx) in *.
  assert (Hp : 0 < p) by (apply effective_pos; unfold dry; lra).
  change (String.eqb "R23" "R23") with true in Q8. cbv iota in Q8. rewrite Q6 in Q7, Q8. rewrite Q8 in Q9.
  destruct (o2_sum_R23 ll q vx p f l0 band rest HL H37 HB ltac:(nra) Hv Hf Q1 Q2 Q6 Q8 Q9 Q7) as (G & delta & A1 & A2 & A3 & A4). cbv zeta in A2, A3, A4.
  exists G, delta. split; [exact A1|]. change (debye_strength "R23") with 1.584e-17. split; [exact A2|]. split; [exact A3|]. split; [|exact Hc].
  rewrite Hn, o2_prefactor, <- A4 by exact Hv. unfold o2_abs. cbv zeta. rewrite Q1, Q5. change (o2_summ "R23" q ll f) with (o2_summ_R23 (A:=RA) q ll f). set (S := o2_summ_R23 (A:=RA) q ll f). clearbody S.
  change (str_in "R23" ["R20"; "R20SD"; "R22"; "R22SD"]) with false. change (String.eqb "R23" "R98") with false. change (str_in "R23" ["R03"; "R98"]) with false. change (String.eqb "R23" "R24") with false. change (String.eqb "R23" "R23") with true. cbn [negb].
  assert (A33 : forall x : R, powi (A:=RA) x 3 = x * x * x) by (intros; unfold powi; cbn; ra; lra).
  rewrite maxv_0, A33. apply (f_equal (fun x => Rmax x 0)). ra. powers. lra.
Qed.

(** The lists of R23 and R24 have the form the two theorems ask for: the 118-GHz line, 37 lines between 50 and 69 GHz, eleven above 233 GHz. *)
Definition shape_ok (rows : list (list dec)) : bool :=
  match rows with
  | [] => false
  | r :: rows' => (inb 118.7503%dec 118.7503%dec (nth 1 r 0%dec) && Nat.eqb (List.length rows') 48 && forallb (fun r => inb 50%dec 69%dec (nth 1 r 0%dec)) (firstn 37 rows') && forallb (fun r => inb 233%dec 896%dec (nth 1 r 0%dec)) (skipn 37 rows'))%bool
  end.
Lemma tables_ok : forallb (fun t => if str_in (fst t) ["R23"; "R24"] then shape_ok (snd t) else true) o2_tables = true.
Proof. vm_cast_no_check (eq_refl true). Qed.

Theorem C120_shipped m ll : In m ["R23"; "R24"] -> shipped_o2 (A:=RA) m = Some ll ->
  exists l0 band rest, o_lines ll = (l0 :: band ++ rest)%list /\ List.length band = 37%nat /\ List.length rest = 11%nat /\
  (o_f l0 : R) = 118.7503 /\ (0 < o_w300 l0) /\ (forall k, In k band -> 0 < o_f k /\ 0 < o_s300 k) /\ (forall k, In k band -> 50 <= o_f k <= 69) /\ (forall k, In k rest -> 233 <= o_f k <= 896).
Proof.
  intros Hm H. destruct (C117_oxygen m ll H) as (R1 & _). destruct (o2_table m ll H) as (rows & T & L).
  assert (P := tables_ok). apply (proj1 (forallb_forall _ _)) with (x := (m, rows)) in P; [|exact T]. cbn [fst snd] in P.
  replace (str_in m ["R23"; "R24"]) with true in P by (cbn [In] in Hm; destruct Hm as [<-|[<-|[]]]; reflexivity).
  destruct rows as [|r rows]; [discriminate P|]. unfold shape_ok in P. rewrite !andb_true_iff in P. destruct P as (((P1 & P2) & P3) & P4). clear T H Hm.
  inversion L as [|l0 r' ls rows' E0 L' EL ER]. subst r' rows'. rewrite <- EL in *. apply Nat.eqb_eq in P2. clear L EL.
  assert (LL := same_length _ _ _ L').
  exists l0, (firstn 37 ls), (skipn 37 ls). rewrite (firstn_skipn 37 ls). split; [reflexivity|]. split; [rewrite firstn_length; lia|]. split; [rewrite skipn_length; lia|].
  assert (SUB1 : forall k, In k (firstn 37 ls) -> In k (l0 :: ls)) by (intros k Hk; right; rewrite <- (firstn_skipn 37 ls); apply in_or_app; left; exact Hk).
  assert (F1 : Forall2 (row_of m) (firstn 37 ls) (firstn 37 rows) /\ Forall2 (row_of m) (skipn 37 ls) (skipn 37 rows)).
  { generalize 37%nat. clear - L'. induction L' as [|x y l l' Hx L IH]; intros n; [rewrite !firstn_nil, !skipn_nil; split; constructor|].
    destruct n as [|n]; [split; [constructor|cbn; constructor; assumption]|]. cbn [firstn skipn]. destruct (IH n). split; [constructor; assumption|assumption]. }
  destruct F1 as [F1 F2].
  split; [|split; [|split; [|split]]].
  - apply inb_R in P1. destruct E0 as (E & _). rewrite E. unfold within, litR in *. lra.
  - destruct (R1 l0 (or_introl eq_refl)) as (_ & _ & _ & W & _). unfold within in W. lra.
  - intros k Hk. destruct (R1 k (SUB1 k Hk)) as (A & B & _). unfold within in A, B. split; [lra|]. revert B. powers. lra.
  - intros k Hk. destruct (of_line _ _ _ k F1 Hk) as (r1 & Hr & E & _). apply (proj1 (forallb_forall _ _)) with (x := r1) in P3; [|exact Hr]. apply inb_R in P3. rewrite E. unfold within, litR in *. lra.
  - intros k Hk. destruct (of_line _ _ _ k F2 Hk) as (r1 & Hr & E & _). apply (proj1 (forallb_forall _ _)) with (x := r1) in P4; [|exact Hr]. apply inb_R in P4. rewrite E. unfold within, litR in *. lra.
Qed.

(** ** Examples *)
Example C119_oxygen_example : exists ll n c, shipped_o2 (A:=RA) "R19" = Some ll /\ o2_absorption (A:=RA) "R19" ll 90 1.05 1 60 = (n, c) /\
  exists pv kappa, 0.9984 * (10 * 1) <= pv <= 1.0001 * (10 * 1) /\ 0.995 <= kappa <= 1.004 /\ npkm 60 c = 0.
Proof.
  destruct (shipped_o2 (A:=RA) "R19") as [ll|] eqn:E; [|discriminate E].
  exists ll, (fst (o2_absorption (A:=RA) "R19" ll 90 1.05 1 60)), (snd (o2_absorption (A:=RA) "R19" ll 90 1.05 1 60)).
  split; [reflexivity|]. split; [apply surjective_pairing|].
  destruct (C119_oxygen "R19" ll 90 1.05 1 60 _ _ ltac:(cbn; auto 20) ltac:(lra) ltac:(lra) ltac:(lra) (surjective_pairing _)) as (pv & kappa & A & B & C). cbv zeta in C. exists pv, kappa.
  split; [exact A|]. split; [exact B|]. exact (proj2 C).
Qed.
Example C120_R24_example : exists ll l0 band rest, shipped_o2 (A:=RA) "R24" = Some ll /\ o_lines ll = (l0 :: band ++ rest)%list /\
  exists Y : o2_line RA -> R, 2 * 1.05 * (weight 1.05 l0 * (o_w300 l0 + 0.99 * linear (o_y300 l0) (o_y1 l0) 1.05 * o_f l0) + total (fun k : o2_line RA => weight 1.05 k * (o_w300 k + Y k * o_f k)) band) + 1.584e-17 * o_wb300 ll = 0.
Proof.
  destruct (shipped_o2 (A:=RA) "R24") as [ll|] eqn:E; [|discriminate E].
  destruct (C120_shipped "R24" ll ltac:(cbn; auto) E) as (l0 & band & rest & H1 & H2 & _ & _ & H3 & H4 & _).
  exists ll, l0, band, rest. split; [reflexivity|]. split; [exact H1|].
  destruct (C120_R24 ll 90 1.05 1 60 _ _ l0 band rest H1 H2 H4 H3 ltac:(lra) ltac:(lra) ltac:(lra) ltac:(lra) (surjective_pairing _)) as (pv & kappa & A & B & Y & G & d & _ & _ & C & _). exists Y. exact C.
Qed.
Example C120_R23_example : exists ll l0 band rest, shipped_o2 (A:=RA) "R23" = Some ll /\ o_lines ll = (l0 :: band ++ rest)%list /\
  exists G : o2_line RA -> R, total (fun k : o2_line RA => weight 1.05 k * G k) band = 0.
Proof.
  destruct (shipped_o2 (A:=RA) "R23") as [ll|] eqn:E; [|discriminate E].
  destruct (C120_shipped "R23" ll ltac:(cbn; auto) E) as (l0 & band & rest & H1 & H2 & _ & _ & H3 & H4 & _).
  exists ll, l0, band, rest. split; [reflexivity|]. split; [exact H1|].
  destruct (C120_R23 ll 90 1.05 1 60 _ _ l0 band rest H1 H2 H4 H3 ltac:(lra) ltac:(lra) ltac:(lra) ltac:(lra) (surjective_pairing _)) as (pv & kappa & A & B & G & d & _ & C & _). exists G. exact C.
Qed.
