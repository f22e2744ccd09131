(** Claims C118 to C122: absorption coefficients against molecular spectroscopy, over the reals.  The coefficient of a gas is its number density (kinetic gas
    theory) times a sum of line strengths and line shapes; the numerical prefactors of the code, which differ from release to release, are compared with the
    physical constants. *)

From Coq Require Import ZArith Reals Lra Lia Psatz String List Bool Machin.
Import ListNotations.
From Verif Require Import Arith PyBase Utils Absorption Clear Spectrum Spec RealAux SolverGen LineData Lineshape PropsAbsN2 PropsLiq PropsClear PropsO2H2O PropsH2O SDShape PropsSD PropsSDWater.
Local Open Scope string_scope.
Open Scope R_scope.

(** ** Specification *)

(** Boltzmann's constant in J/K. *)
Definition k_B : R := 1.380649e-23.
(** Molecules per cubic centimetre of a gas of partial pressure [p] hPa at [T] K. *)
Definition number_density (p T : R) : R := p * 100 / (k_B * T) * 1e-6.
(** Lorentz shape of half-width [w] at the distance [d] from the centre, integral one. *)
Definition lorentzian (w d : R) : R := w / (PI * (d * d + w * w)).
(** Van Vleck-Weisskopf pair of resonances at +-(f0 + shift), cut off at 750 GHz and lowered to zero there. *)
Definition clipped (w d : R) : R := if Rlt_dec (Rabs d) 750 then lorentzian w d - lorentzian w 750 else 0.
Definition vvw (w f0 shift f : R) : R := (f / f0) * (f / f0) * (clipped w (f - f0 - shift) + clipped w (f + f0 + shift)).
(** Sum over a list. *)
Definition total {X} (g : X -> R) (l : list X) : R := fold_right (fun x s => g x + s) 0 l.
(** Strengths are in cm2 Hz, frequencies in GHz, coefficients in Np/km. *)
Definition per_km : R := 1e-4.

(** Line strength at the temperature T0/theta. *)
Definition strength (s b expo theta : R) : R := s * Rpower theta expo * exp (b * (1 - theta)).
(** Half-width of a water-vapour line for partial pressures [pd] and [pv] (hPa) of dry air and vapour. *)
Definition width_of (l : h2o_line RA) (pd pv theta : R) : R := h_w0 l * pd * Rpower theta (h_x l) + h_w0s l * pv * Rpower theta (h_xs l).
(** Pressure shift: none in R98, a fraction of the width in R03 (of the whole width) and R16, R17 (of the air-broadened one), measured coefficients later. *)
Definition shift_of (m : string) (l : h2o_line RA) (pd pv theta : R) : R :=
  if String.eqb m "R98" then 0
  else if String.eqb m "R03" then h_sr l * width_of l pd pv theta
  else if str_in m ["R16"; "R17"] then h_sr l * (h_w0 l * pd * Rpower theta (h_x l))
  else if String.eqb m "R18" then h_sh l * pd * Rpower theta (h_xh l) + h_shs l * pv * Rpower theta (h_xhs l)
  else h_sh l * pd * (1 - h_aair l * ln theta) * Rpower theta (h_xh l) + h_shs l * pv * (1 - h_aself l * ln theta) * Rpower theta (h_xhs l).

(** Powers of ten in literals. *)
Ltac powers := repeat match goal with |- context [Z.pow_pos ?b ?e] => let v := eval vm_compute in (Z.pow_pos b e) in change (Z.pow_pos b e) with v end.

(** ** Bounds of pi *)
Lemma PI_range : 3.14159 < PI < 3.1416.
Proof.
  assert (H := PI_2_3_7_ineq 3). destruct H as [H1 H2].
  unfold sum_f_R0, tg_alt, PI_2_3_7_tg, Ratan_seq in *. cbn in H1, H2. lra.
Qed.

(** ** Water vapour *)

(** The vapour pressure the code works with is that of its argument (kPa) within 0.16 percent, the rest of the total pressure is dry air; T = 300 K / vx. *)
Lemma env_pressures m pd vx ek : 0 < vx -> 0 <= ek -> let e := h2o_env_of (A:=RA) m pd vx ek in
  0.9984 * (10 * ek) <= e_pvap e <= 1.0001 * (10 * ek) /\ e_pda e + e_pvap e = 10 * (pd + ek) /\ e_t e = 300 / vx /\ e_rho e = ek * 10 / (0.0831451 / 18.01528 * (300 / vx)).
Proof.
  intros Hv He e. unfold e, h2o_env_of, k_Rwatvap. cbn [e_t e_pvap e_pda e_rho]. ra. replace (3000 / 10) with 300 by lra.
  assert (V : 300 / vx <> 0) by (apply Rgt_not_eq, div_pos; lra).
  split; [|split; [destruct (str_in m ["R22SD"; "R23SD"; "R24"; "MWL24"]), (str_in m ["R03"; "R16"; "R17"; "R98"]); lra|split; [reflexivity|]]].
  - set (t := 300 / vx) in *. clearbody t.
    assert (C : forall r k, r <> 0 -> k <> 0 -> ek * (100 / 10) / (r * t) * t / k = ek * 10 * / (r * k)) by (intros; field; auto).
    assert (C' : forall r k, r <> 0 -> k * (ek * (100 / 10) / (r * t)) * t = ek * 10 * (k / r)) by (intros; field; auto).
    destruct (str_in m ["R22SD"; "R23SD"; "R24"; "MWL24"]); [|destruct (str_in m ["R03"; "R16"; "R17"; "R98"])]; [rewrite C' by lra|rewrite C by lra..]; nra.
  - f_equal; [lra|]. f_equal. lra.
Qed.

Lemma local_clipped closed (w d : R) : local_line (A:=RA) closed w (powi (A:=RA) w 2) (div (a:=RA) w (add (a:=RA) (lit (Dec 5625000 10)) (powi (A:=RA) w 2))) d = PI * clipped w d.
Proof.
  assert (P := PI_RGT_0). unfold local_line. rewrite !powi2. ra. unfold clipped, lorentzian.
  assert (E : forall x, PI * (w / (PI * (x * x + w * w))) = w / (x * x + w * w)).
  { intros x. destruct (Req_dec w 0) as [->|N]; [unfold Rdiv; ring|]. assert (0 < w * w) by nra. assert (0 <= x * x) by nra. field. split; lra. }
  replace (5625000 / 10 + w * w) with (750 * 750 + w * w) by lra.
  destruct (Rlt_dec (Rabs d) 750) as [L|L].
  - rewrite Rmult_minus_distr_l, !E. destruct closed; [rewrite Rleb_true by lra|rewrite Rltb_true by lra]; reflexivity.
  - destruct closed; [|rewrite Rltb_false by lra; lra]. destruct (Rleb_spec (Rabs d) (7500 / 10)); [|lra].
    assert (D : Rabs d = 750) by lra. replace (d * d) with (Rabs d * Rabs d) by (rewrite <- Rabs_mult; apply Rabs_pos_eq; nra). rewrite D. lra.
Qed.

Lemma sum_total {X} (g : X -> R) l a : sum_from (A:=RA) a (map g l) = a + total g l.
Proof.
  unfold sum_from. revert a. induction l as [|x l IH]; intros a; cbn [map fold_left total fold_right]; [ra; lra|].
  rewrite IH. fold (total g l). ra. lra.
Qed.
Lemma total_scale {X} (g h : X -> R) c l : (forall x, g x = c * h x) -> total g l = c * total h l.
Proof. intros H. induction l as [|x l IH]; cbn [total fold_right]; [lra|]. fold (total g l) (total h l). rewrite IH, H. lra. Qed.

Lemma line_std m (e : h2o_env RA) (f theta : R) (l : h2o_line RA) : In m std_models -> 0 < theta ->
  (h2o_line_std (A:=RA) m e f theta (ln theta) (Rpower theta 2.5) l : R) =
  PI * (strength (h_s1 l) (h_b2 l) 2.5 theta * vvw (width_of l (e_pda e) (e_pvap e) theta) (h_fl l) (shift_of m l (e_pda e) (e_pvap e) theta) f).
Proof.
  intros Hm Ht. unfold h2o_line_std. cbv zeta.
  match goal with |- context [local_line ?c ?w ?q ?b ?d] => set (W := w) end.
  assert (EW : (W : R) = width_of l (e_pda e) (e_pvap e) theta) by (unfold W, width_of; ra; rewrite !Rpowf_pos by auto; reflexivity).
  match goal with |- context [sub (sub f (h_fl l)) ?x] => set (sh := x) end.
  assert (ES : (sh : R) = shift_of m l (e_pda e) (e_pvap e) theta).
  { unfold sh, shift_of. fold W. rewrite <- EW. clear EW. clearbody W. unfold std_models in Hm. cbn [In] in Hm.
    repeat (destruct Hm as [<-|Hm]; [cbn [str_in existsb String.eqb Ascii.eqb Bool.eqb orb]; ra; rewrite ?Rpowf_pos by auto; try reflexivity; try lra|]); destruct Hm. }
  fold W. rewrite !local_clipped. rewrite EW, ES. clear. unfold strength, vvw. rewrite powi2. ra. replace (10 / 10) with 1 by lra. unfold Rdiv. ring.
Qed.

(** ** Claim C118 *)

Lemma kappa_range (b : bool) : 0.9975 <= PI * ((if b then 3.335 else 3.344) * (3.1831 * 1.380649 / (0.0831451 / 18.01528) / 10000)) <= 1.0005.
Proof. assert (P := PI_range). destruct b; lra. Qed.

(** Standard models: in Np/km the lines of water vapour are number density times cross section within 0.25 percent. *)
Theorem C118_water_lines m (ll : h2o_ll RA) pd vx ek f n c : In m std_models -> 0 < h_reftline ll -> 0 < vx -> 0 < ek -> 0 < f ->
  h2o_absorption (A:=RA) m ll pd vx ek f = Ok (n, c) ->
  exists pv kappa, 0.9984 * (10 * ek) <= pv <= 1.0001 * (10 * ek) /\ 0.9975 <= kappa <= 1.0005 /\
  let T := 300 / vx in let theta := h_reftline ll / T in let dry := 10 * (pd + ek) - pv in
  npkm f n = kappa * (per_km * number_density (10 * ek) T *
    total (fun l : h2o_line RA => strength (h_s1 l) (h_b2 l) 2.5 theta * vvw (width_of l dry pv theta) (h_fl l) (shift_of m l dry pv theta) f) (h_lines ll)).
Proof.
  intros Hm Hr Hv He Hf H. destruct (env_pressures m pd vx ek Hv ltac:(lra)) as (E1 & E2 & E3 & E4).
  destruct (C53_h2o_units m ll pd vx ek f n c ltac:(lra) H) as [(Z & _)|(_ & s & con & Hs & _ & Hn & _)]; cbv zeta in *.
  { exfalso. rewrite E4 in Z. assert (0 < ek * 10 / (0.0831451 / 18.01528 * (300 / vx))); [|lra]. apply div_pos; [lra|]. apply Rmult_lt_0_compat; [lra|apply div_pos; lra]. }
  set (e := h2o_env_of m pd vx ek) in *. set (T := 300 / vx) in *. assert (HT : 0 < T) by (apply div_pos; lra). set (theta := h_reftline ll / T).
  assert (Hth : 0 < theta) by (apply div_pos; lra).
  assert (S : s = PI * total (fun l : h2o_line RA => strength (h_s1 l) (h_b2 l) 2.5 theta * vvw (width_of l (e_pda e) (e_pvap e) theta) (h_fl l) (shift_of m l (e_pda e) (e_pvap e) theta) f) (h_lines ll)).
  { unfold h2o_summ in Hs. destruct (std_cases m Hm) as (C1 & C2 & _). rewrite C1, C2 in Hs. injection Hs as <-. etransitivity; [apply sum_total|]. rewrite (total_scale _ (fun l : h2o_line RA => strength (h_s1 l) (h_b2 l) 2.5 theta * vvw (width_of l (e_pda e) (e_pvap e) theta) (h_fl l) (shift_of m l (e_pda e) (e_pvap e) theta) f) PI).
    - ra. lra.
    - intros l. rewrite <- (line_std m e f theta l Hm Hth). assert (TE : h_reftline ll / (3000 / 10 / vx) = theta) by (unfold theta, T; f_equal; f_equal; lra).
      rewrite TE. rewrite Rpowf_pos by exact Hth. replace (25 / 10) with 2.5 by lra. reflexivity. }
  assert (P := PI_range).
  set (D := e_den e) in *. assert (HD : D = (if str_in m ["R03"; "R16"; "R98"] then 3.335e+16 else 3.344e+16) * (ek * 10 / (0.0831451 / 18.01528 * T))).
  { unfold D, e, h2o_env_of. cbn [e_den]. rewrite <- E4. unfold e, h2o_env_of. cbn [e_rho]. destruct (str_in m ["R03"; "R16"; "R98"]); ra; (apply f_equal2; [powers; lra|reflexivity]). }
  exists (e_pvap e), (PI * ((if str_in m ["R03"; "R16"; "R98"] then 3.335 else 3.344) * (3.1831 * 1.380649 / (0.0831451 / 18.01528) / 10000))).
  split; [exact E1|]. split; [apply kappa_range|].
  replace (10 * (pd + ek) - e_pvap e) with (e_pda e) by lra. rewrite Hn. unfold line_npkm.
  replace (str_in m ["R22SD"; "R23SD"; "R24"]) with false by (unfold std_models in Hm; cbn [In] in Hm; intuition subst; reflexivity).
  rewrite HD, S. set (X := total _ _). unfold per_km, number_density, k_B. destruct (str_in m ["R03"; "R16"; "R98"]); powers; field; lra.
Qed.

(** Speed-dependent models: near the centre of a line the Lorentz shape is corrected by a factor. *)
Definition resonance (c w d : R) : R := if Rlt_dec (Rabs d) 750 then c * lorentzian w d - lorentzian w 750 else 0.
Definition vvw_corrected (c w f0 shift f : R) : R := (f / f0) * (f / f0) * (resonance c w (f - f0 - shift) + clipped w (f + f0 + shift)).
Definition correction (c : R) : Prop := 0.88 <= c <= 1.12.

Lemma line_sd m ll (e : h2o_env RA) (f theta : R) i (l : h2o_line RA) : In m sd_models -> 0 < theta -> tame m ll e theta i l ->
  exists c, correction c /\
  (h2o_line_sd (A:=RA) m ll e f theta (ln theta) (Rpower theta 2.5) i l : R) =
  PI * (strength (h_s1 l) (h_b2 l) 2.5 theta * vvw_corrected c (width_of l (e_pda e) (e_pvap e) theta) (h_fl l) (shift_of m l (e_pda e) (e_pvap e) theta) f).
Proof.
  intros Hm Ht HT. unfold h2o_line_sd. cbv zeta.
  match goal with |- context [local_line ?c ?w ?q ?b ?d] => set (W := w) end.
  match goal with |- context [ltb (a:=RA) (lit (Dec 0 1)) ?w2] => set (W2 := w2) end.
  assert (EW : (W : R) = width_of l (e_pda e) (e_pvap e) theta) by (unfold W, width_of; ra; rewrite !Rpowf_pos by auto; reflexivity).
  assert (EW2 : (W2 : R) = halfwidth2 m e theta l).
  { unfold W2, halfwidth2. destruct (str_in m h2o_delta2_models); [|reflexivity]. ra. rewrite !Rpowf_pos by auto. unfold Rltb. destruct (Rlt_dec (0/1) (h_w2 l)), (Rlt_dec 0 (h_w2 l)); try lra. }
  match goal with |- context [sub (sub f (h_fl l)) ?x] => set (sh := x) end.
  assert (ES : (sh : R) = shift_of m l (e_pda e) (e_pvap e) theta).
  { unfold sh, shift_of. clear - Ht Hm. unfold sd_models in Hm. cbn [In] in Hm.
    repeat (destruct Hm as [<-|Hm]; [cbn [str_in existsb String.eqb Ascii.eqb Bool.eqb orb]; ra; rewrite ?Rpowf_pos by auto; replace (10 / 10) with 1 by lra; reflexivity|]); destruct Hm. }
  unfold tame in HT. change (halfwidth e theta l) with (width_of l (e_pda e) (e_pvap e) theta) in HT. rewrite <- EW2, <- EW in HT. rewrite <- EW, <- ES. clear EW EW2 ES. clearbody W W2 sh.
  pose (d := (f - h_fl l - sh)%R); change (sub (a:=RA) (sub (a:=RA) f (h_fl l)) sh) with d.
  match goal with |- context [if ?b then sd_line ?a1 ?a2 ?a3 ?a4 ?a5 ?a6 ?a7 ?a8 ?a9 else ?r] => assert (G : exists c, correction c /\ ((if b then sd_line a1 a2 a3 a4 a5 a6 a7 a8 a9 else r) : R) = PI * resonance c W d) end.
  { match goal with |- context [if ?b then _ else _] => destruct b eqn:EB end.
    - apply andb_true_iff in EB. destruct EB as [B1 B2]. ra. destruct (Rltb_spec (0/1) W2); [|discriminate].
      match type of B2 with Rltb ?a ?b = true => destruct (Rltb_spec a b) as [BD|]; [|discriminate] end.
      destruct HT as [HT|[HT HT2]]; [lra|]. assert (W0 : 0 < W) by (unfold mild in HT; lra).
      assert (K := C114_water_within m ll e i l W W2 (W / (5625000 / 10 + powi (A:=RA) W 2)) d HT ltac:(unfold d in *; ra; lra)).
      assert (LP : 0 < lorentz W d). { unfold lorentz. apply div_pos; [exact W0|]. assert (0 < W * W) by nra. assert (X := Rle_0_sqr d). unfold Rsqr in X. lra. }
      rewrite powi2 in *. set (sd := sd_line _ _ _ _ _ _ _ _ _) in *. set (base := W / (5625000 / 10 + _)) in *.
      exists ((sd + base) / lorentz W d). split.
      + split; [apply (Rmult_le_reg_r (lorentz W d)); [exact LP|]|apply (Rmult_le_reg_r (lorentz W d)); [exact LP|]]; unfold Rdiv; rewrite Rmult_assoc, Rinv_l by lra; lra.
      + unfold resonance. destruct (Rlt_dec (Rabs d) 750) as [_|N]; [|exfalso; apply N; unfold d in *; ra; lra].
        assert (P := PI_RGT_0). unfold lorentzian. replace (PI * (d * d + W * W)) with (PI * (W * W + d * d)) by ring.
        replace (W / (PI * (W * W + d * d))) with (lorentz W d / PI).
        2:{ unfold lorentz. field. assert (0 < W * W) by nra. assert (X := Rle_0_sqr d). unfold Rsqr in X. split; lra. }
        replace (W / (PI * (750 * 750 + W * W))) with (base / PI).
        2:{ unfold base. assert (0 < W * W) by nra. replace (5625000 / 10) with (750 * 750) by lra. field. split; lra. }
        assert (GEN : forall x b y : R, 0 < y -> x = PI * ((x + b) / y * (y / PI) - b / PI)) by (intros; field; split; lra).
        exact (GEN sd base (lorentz W d) LP).
    - exists 1. split; [unfold correction; lra|]. etransitivity; [apply local_clipped|]. unfold clipped, resonance. rewrite Rmult_1_l. reflexivity. }
  destruct G as (c & C1 & C2). exists c. split; [exact C1|]. unfold vvw_corrected.
  match goal with |- context [if ?b then sd_line ?a1 ?a2 ?a3 ?a4 ?a5 ?a6 ?a7 ?a8 ?a9 else ?r] => set (res := (if b then sd_line a1 a2 a3 a4 a5 a6 a7 a8 a9 else r)) end.
  rewrite local_clipped. change (res = PI * resonance c W d) in C2. rewrite C2. clear. unfold strength. rewrite powi2. unfold d. ra. replace (10 / 10) with 1 by lra. unfold Rdiv. ring.
Qed.

Lemma sd_sum m ll (e : h2o_env RA) (f theta : R) (ls : list (h2o_line RA)) k : In m sd_models -> 0 < theta -> (forall i l, nth_error ls i = Some l -> tame m ll e theta (k + i)%nat l) ->
  exists cs, List.length cs = List.length ls /\ Forall correction cs /\
  total (fun p : nat * h2o_line RA => let (i, l) := p in h2o_line_sd (A:=RA) m ll e f theta (ln theta) (Rpower theta 2.5) i l : R) (combine (seq k (List.length ls)) ls) =
  PI * total (fun p : R * h2o_line RA => let (c, l) := p in strength (h_s1 l) (h_b2 l) 2.5 theta * vvw_corrected c (width_of l (e_pda e) (e_pvap e) theta) (h_fl l) (shift_of m l (e_pda e) (e_pvap e) theta) f) (combine cs ls).
Proof.
  intros Hm Ht. revert k. induction ls as [|l ls IH]; intros k HT.
  - exists []. repeat split; [constructor|cbn; lra].
  - destruct (line_sd m ll e f theta k l Hm Ht) as (c & C1 & C2); [replace k with (k + 0)%nat by lia; apply HT; reflexivity|].
    destruct (IH (S k)) as (cs & L & F & E); [intros i x Hx; replace (S k + i)%nat with (k + S i)%nat by lia; apply HT; exact Hx|].
    exists (c :: cs). split; [cbn; lia|]. split; [constructor; assumption|]. cbn [List.length seq combine total fold_right]. unfold total in E. rewrite E, C2. ring.
Qed.

Definition kappa_of (m : string) : R :=
  if str_in m ["R22SD"; "R23SD"; "R24"] then 1.380649e-23 / (0.0831451 / 18.01528) / 2.9915075e-23 / 100 else PI * (3.344 * (3.1831 * 1.380649 / (0.0831451 / 18.01528) / 10000)).
Lemma kappa_of_range m : 0.9999 <= kappa_of m <= 1.0005.
Proof. assert (P := PI_range). unfold kappa_of. destruct (str_in m _); powers; lra. Qed.

(** Models with speed-dependent shapes and their shipped lists, between 100 K and 385 K and up to 1100 hPa: the same, with a correction between 0.88 and 1.12 of the resonance. *)
Theorem C118_water_lines_sd m (ll : h2o_ll RA) pd vx ek f n c : In m sd_models -> shipped_h2o (A:=RA) m = Some ll -> 0 < vx -> 100 <= 300 / vx <= 385 -> 0 <= pd -> 0 < ek -> pd + ek <= 110 -> 0 < f ->
  h2o_absorption (A:=RA) m ll pd vx ek f = Ok (n, c) ->
  exists pv kappa cs, 0.9984 * (10 * ek) <= pv <= 1.0001 * (10 * ek) /\ 0.9999 <= kappa <= 1.0005 /\ List.length cs = List.length (h_lines ll) /\ Forall correction cs /\
  let T := 300 / vx in let theta := h_reftline ll / T in let dry := 10 * (pd + ek) - pv in
  npkm f n = kappa * (per_km * number_density (10 * ek) T *
    total (fun p : R * h2o_line RA => let (c, l) := p in strength (h_s1 l) (h_b2 l) 2.5 theta * vvw_corrected c (width_of l dry pv theta) (h_fl l) (shift_of m l dry pv theta) f) (combine cs (h_lines ll))).
Proof.
  intros Hm Hl Hv HT Hp He Hpe Hf H. destruct (env_pressures m pd vx ek Hv ltac:(lra)) as (E1 & E2 & E3 & E4).
  destruct (h2o_env_range m pd vx ek Hv Hp ltac:(lra)) as (_ & _ & V3 & V4 & _).
  destruct (sd_lists_good m ll Hm Hl) as (_ & _ & Hr & _ & _).
  destruct (C53_h2o_units m ll pd vx ek f n c ltac:(lra) H) as [(Z & _)|(_ & s & con & Hs & _ & Hn & _)]; cbv zeta in *.
  { exfalso. rewrite E4 in Z. assert (0 < ek * 10 / (0.0831451 / 18.01528 * (300 / vx))); [|lra]. apply div_pos; [lra|]. apply Rmult_lt_0_compat; [lra|apply div_pos; lra]. }
  set (e := h2o_env_of (A:=RA) m pd vx ek) in *. set (T := 300 / vx) in *. set (theta := h_reftline ll / T).
  assert (Hth : 0 < theta) by (apply div_pos; lra).
  destruct (sd_sum m ll e f theta (h_lines ll) 0 Hm Hth) as (cs & L & F & E).
  { intros i l Hi. unfold theta. rewrite <- E3. apply tame_shipped; auto; lra. }
  assert (S : s = PI * total (fun p : R * h2o_line RA => let (c, l) := p in strength (h_s1 l) (h_b2 l) 2.5 theta * vvw_corrected c (width_of l (e_pda e) (e_pvap e) theta) (h_fl l) (shift_of m l (e_pda e) (e_pvap e) theta) f) (combine cs (h_lines ll))).
  { rewrite <- E. clear E. unfold h2o_summ in Hs. replace (startswith m h2o_sd_models) with true in Hs by (unfold sd_models in Hm; cbn [In] in Hm; intuition subst; reflexivity).
    cbv zeta in Hs. assert (Hs' := f_equal (fun o : option (car RA) => match o with Some x => x : R | None => 0 end) Hs). cbv beta iota in Hs'. rewrite <- Hs'. etransitivity; [apply sum_total|].
    rewrite (total_scale _ (fun p : nat * h2o_line RA => let (i, l) := p in h2o_line_sd (A:=RA) m ll e f theta (ln theta) (Rpower theta 2.5) i l : R) 1).
    - ra. lra.
    - intros (i & l). rewrite Rmult_1_l. assert (TE : h_reftline ll / e_t e = theta) by (unfold theta; rewrite E3; reflexivity).
      change (div (a:=RA) (h_reftline ll) (e_t e)) with (h_reftline ll / e_t e). rewrite TE. apply (f_equal (fun x : R => h2o_line_sd (A:=RA) m ll e f theta (ln theta) x i l : R)).
      ra. unfold Rpower. replace (25 / 10) with 2.5 by lra. reflexivity. }
  exists (e_pvap e), (kappa_of m), cs. split; [exact E1|]. split; [apply kappa_of_range|]. split; [exact L|]. split; [exact F|].
  replace (10 * (pd + ek) - e_pvap e) with (e_pda e) by lra. rewrite Hn. unfold line_npkm, kappa_of.
  assert (P := PI_RGT_0). assert (TP : 0 < T) by (apply div_pos; lra). rewrite S. set (X := total _ _). destruct (str_in m ["R22SD"; "R23SD"; "R24"]).
  - rewrite E4. unfold per_km, number_density, k_B. powers. field. lra.
  - assert (HD : e_den e = 3.344e+16 * (ek * 10 / (0.0831451 / 18.01528 * T))).
    { rewrite <- E4. unfold e, h2o_env_of. cbn [e_den e_rho]. replace (str_in m ["R03"; "R16"; "R98"]) with false by (unfold sd_models in Hm; cbn [In] in Hm; intuition subst; reflexivity).
      ra. apply f_equal2; [powers; lra|reflexivity]. }
    rewrite HD. unfold per_km, number_density, k_B. powers. field. lra.
Qed.
