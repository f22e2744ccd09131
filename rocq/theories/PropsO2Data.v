(** Claims C48, C55 and C57 on the line lists that ship with the package. *)

From Coq Require Import ZArith QArith Qreals Reals Lra Lia Psatz String List Bool.
Import ListNotations.
From Verif Require Import Arith PyBase Utils Absorption Clear Spectrum Spec RealAux SolverGen LineData Lineshape Registry PropsAbsN2 PropsLiq PropsClear PropsO2H2O.
Local Open Scope string_scope.
Open Scope R_scope.

(** ** The data base *)

Ltac sdec := repeat match goal with |- context [String.eqb ?m ?s] => destruct (String.eqb_spec m s) as [->|?]; [cbn; intuition congruence|] end.

(** Its groups are the ones of Registry.v. *)
Theorem C48_shipped_registered (A : Arith) : registered (@shipped A).
Proof.
  intros m. unfold shipped. cbn [db_h2o db_o2 db_o3]. unfold shipped_h2o, shipped_o2, shipped_o3. cbv zeta.
  split; [|split]; sdec; cbn; intuition congruence.
Qed.

(** ** C55 for R98 *)

Definition decQ (d : dec) : Q := match d with Dec n p => Qmake n p end.
Lemma litR_Q d : litR d = Q2R (decQ d).
Proof. destruct d. reflexivity. Qed.

(** Exact rational value of one R98 line at 300 K and 1000 hPa of dry air. *)
Definition lineQ (f : Q) (k : dec * dec * dec * dec) : Q :=
  let '(fl, s, w, y) := k in
  let fl := decQ fl in let s := decQ s in let w := decQ w in let y := decQ y in
  let sf1 := ((w + (f - fl) * y) / ((f - fl) * (f - fl) + w * w))%Q in
  let sf2 := ((w - (f + fl) * y) / ((f + fl) * (f + fl) + w * w))%Q in
  (s * (sf1 + sf2) * ((f / fl) * (f / fl)))%Q.

Lemma Q2R_div' a b : Q2R (a / b) = Q2R a / Q2R b.
Proof.
  destruct (Qeq_dec b 0) as [E|E]; [|apply Q2R_div; auto].
  assert (Eb : Q2R b = 0) by (rewrite (Qeq_eqR _ _ E); unfold Q2R; cbn; lra).
  rewrite Eb. unfold Rdiv. rewrite Rinv_0, Rmult_0_r.
  assert (a / b == 0)%Q as ->%Qeq_eqR by (unfold Qdiv; rewrite E; cbn; ring). unfold Q2R; cbn; lra.
Qed.

Lemma lineQ_R f fl s w y : 
  let l := litR in
  Q2R (lineQ f (fl, s, w, y)) =
  l s * ((l w + (Q2R f - l fl) * l y) / ((Q2R f - l fl) * (Q2R f - l fl) + l w * l w)
       + (l w - (Q2R f + l fl) * l y) / ((Q2R f + l fl) * (Q2R f + l fl) + l w * l w)) * ((Q2R f / l fl) * (Q2R f / l fl)).
Proof.
  cbv zeta. unfold lineQ. rewrite !litR_Q.
  rewrite ?Q2R_mult, ?Q2R_plus, ?Q2R_div', ?Q2R_plus, ?Q2R_minus, ?Q2R_mult, ?Q2R_plus, ?Q2R_minus. reflexivity.
Qed.

(** Upper bound with thirty-six decimals: keeps the numbers small. *)
Definition upQ (x : Q) : Z := (- ((- Qnum x * 10 ^ 36) / Zpos (Qden x)))%Z.
Lemma upQ_R x : Q2R x <= IZR (upQ x) / IZR (10 ^ 36).
Proof.
  destruct x as [n d]. unfold Q2R, upQ. cbn [Qnum Qden].
  set (K := (10 ^ 36)%Z). assert (HK : (0 < K)%Z) by reflexivity. clearbody K.
  set (u := (- n * K / Zpos d)%Z). assert (L : (Zpos d * u <= - n * K)%Z) by (apply Z.mul_div_le; lia). clearbody u.
  assert (HKR : 0 < IZR K) by (apply (IZR_lt 0); auto). assert (Hd : 0 < IZR (Zpos d)) by (apply (IZR_lt 0); lia).
  apply (Rmult_le_reg_r (IZR K)); auto. unfold Rdiv at 1. rewrite Rmult_assoc, (Rmult_assoc _ (/ IZR K)), Rinv_l, Rmult_1_r by lra.
  apply (Rmult_le_reg_r (IZR (Zpos d))); auto.
  replace (IZR n * (/ IZR (Zpos d) * IZR K) * IZR (Zpos d)) with (IZR n * IZR K) by (field; lra).
  rewrite <- !mult_IZR. apply IZR_le. lia.
Qed.

Fixpoint sumZ (l : list Z) : Z := match l with [] => 0%Z | x :: r => (x + sumZ r)%Z end.
Lemma sum_up l (a : R) : sum_from (A:=RA) a (map Q2R l) <= a + IZR (sumZ (map upQ l)) / IZR (10 ^ 36).
Proof.
  revert a. induction l as [|x r IH]; intros a; cbn [map sumZ]; [unfold sum_from; cbn [fold_left]; lra|].
  unfold sum_from in *. cbn [fold_left]. eapply Rle_trans; [apply IH|]. assert (U := upQ_R x). rewrite plus_IZR. ra. lra.
Qed.

Lemma env98 x wb ls : o2_env_of (A:=RA) "R98" (mkO2LL x wb ls) 100 1 0 = mkO2Env (A:=RA) 1 0 1 1000 1000 1 1 1 wb.
Proof.
  unfold o2_env_of. cbn [str_in String.eqb Ascii.eqb Bool.eqb existsb orb o_x o_wb300]. cbv zeta. ra.
  replace (3000 / 10 / (3000 / 10 / 1)) with 1 by field.
  assert (E : Rpowf 1 x = 1) by (rewrite Rpowf_pos by lra; unfold Rpower; rewrite ln_1, Rmult_0_r, exp_0; reflexivity).
  rewrite E. f_equal; try field.
Qed.

Lemma line98 f x wb i : Q2R f <> 0 ->
  o2_line_first (A:=RA) "R98" (mkO2Env (A:=RA) 1 0 1 1000 1000 1 1 1 wb) (Q2R f)
    (o2_first (A:=RA) o2_f_R98 o2_s300_R98 o2_be_R98 o2_w300_R98 o2_y300_R98 x i) =
  Q2R (lineQ f (nth i o2_f_R98 0%dec, nth i o2_s300_R98 0%dec, nth i o2_w300_R98 0%dec, nth i o2_y300_R98 0%dec)).
Proof.
  intros _. rewrite lineQ_R. cbv zeta. unfold o2_line_first, o2_first, col.
  cbn [str_in String.eqb Ascii.eqb Bool.eqb existsb orb q_den q_pres q_b q_th1 o_f o_s300 o_be o_w300 o_y300 o_v]. cbv zeta. rewrite !powi2.
  change (@lit RA) with litR.
  set (fl := litR (nth i o2_f_R98 0%dec)). set (s := litR (nth i o2_s300_R98 0%dec)). set (be := litR (nth i o2_be_R98 0%dec)).
  set (w := litR (nth i o2_w300_R98 0%dec)). set (y := litR (nth i o2_y300_R98 0%dec)). set (v := litR (nth i x 0%dec)).
  clearbody fl s be w y v. ra. rewrite !Rmult_0_r, exp_0.
  replace (1 / 1000 * 1000 * 1 * (y + 0)) with y by field. rewrite !Rmult_1_r. reflexivity.
Qed.

Definition r98Z (f : Q) : Z :=
  sumZ (map (fun i => upQ (lineQ f (nth i o2_f_R98 0%dec, nth i o2_s300_R98 0%dec, nth i o2_w300_R98 0%dec, nth i o2_y300_R98 0%dec)))
    (seq 0 (List.length o2_f_R98))).

Lemma summ98 f ll : shipped_o2 (A:=RA) "R98" = Some ll -> Q2R f <> 0 ->
  o2_summ (A:=RA) "R98" (o2_env_of "R98" ll 100 1 0) ll (Q2R f) <= IZR (r98Z f) / IZR (10 ^ 36).
Proof.
  intros H Hf. unfold shipped_o2 in H. rewrite String.eqb_refl in H. injection H as <-. unfold o2_load. rewrite env98.
  unfold o2_summ. cbn [str_in String.eqb Ascii.eqb Bool.eqb existsb orb o_lines]. cbv zeta. unfold r98Z. rewrite map_map.
  erewrite (map_ext _ (fun i => Q2R _)); [|intros i; apply line98; auto].
  rewrite <- (map_map _ Q2R), <- (map_map _ upQ). refine (Rle_trans _ _ _ (sum_up _ _) _). apply Req_le. ra. lra.
Qed.

(** The two parts in Np/km. *)
Lemma parts98 f ll n c : shipped_o2 (A:=RA) "R98" = Some ll -> 0 < Q2R f -> o2_absorption (A:=RA) "R98" ll 100 1 0 (Q2R f) = (n, c) ->
  npkm (Q2R f) n <= 503400000000 * (IZR (r98Z f) / IZR (10 ^ 36)) * 1000 / 3.14159 /\
  npkm (Q2R f) c <= 1.6e-17 * 0.561 * (503400000000 * 1000 / 3.14159).
Proof.
  intros E Hf H. destruct (C53_o2_units "R98" ll 100 1 0 (Q2R f) n c ltac:(lra) H) as [H1 H2]. cbv zeta in H1, H2.
  assert (S := summ98 f ll E ltac:(lra)). set (s := o2_summ _ _ _ _) in *. clearbody s.
  assert (E0 := E). unfold shipped_o2 in E0. rewrite String.eqb_refl in E0. injection E0 as <-. unfold o2_load in *. rewrite env98 in H1, H2.
  split.
  - rewrite H1. unfold o2_abs. cbn [str_in String.eqb Ascii.eqb Bool.eqb existsb orb negb q_th q_presda]. cbv zeta. rewrite powi3. ra. lra.
  - rewrite H2. unfold o2_cont. cbn [str_in String.eqb Ascii.eqb Bool.eqb existsb orb negb q_th q_presda q_dfnr]. cbv zeta. rewrite powi3.
    assert (W : 0 < @lit RA o2_wb300_R98 <= 561 / 1000) by (change (0 < litR o2_wb300_R98 <= 561 / 1000); unfold litR, o2_wb300_R98; lra).
    set (wb := @lit RA o2_wb300_R98) in *. clearbody wb. set (g := Q2R f) in *. clearbody g. ra.
    assert (G2 : 0 < g * g) by nra. rewrite !Rmult_1_r, !Rmult_1_l. assert (W2 : 0 < wb * wb) by nra.
    assert (X : g * g / (g * g + wb * wb) <= 1).
    { apply (Rmult_le_reg_r (g * g + wb * wb)); [lra|]. unfold Rdiv at 1. rewrite Rmult_assoc, Rinv_l; lra. }
    match goal with |- ?k * g * g * wb / ?d * ?h <= _ => replace (k * g * g * wb / d * h) with (k * h * (wb * (g * g / d))) by (field; lra) end.
    assert (wb * (g * g / (g * g + wb * wb)) <= 561 / 1000).
    { replace (561 / 1000) with (561 / 1000 * 1) by lra. apply Rmult_le_compat; try lra. apply Rlt_le, div_pos; lra. }
    lra.
Qed.

Lemma npkm_lt f x y : 0 < f -> npkm f x + npkm f y < 0 -> x + y < 0.
Proof.
  intros Hf H. unfold npkm in H. assert (D := db2np_pos). rewrite db2np_val in D.
  assert (0 < 0.182 * f * (ln 10 / 10)) by (apply Rmult_lt_0_compat; lra).
  destruct (Rlt_le_dec (x + y) 0); auto. exfalso. nra.
Qed.

(** The oxygen line absorption of R98 as shipped is negative at 200 GHz for dry air of 300 K and 1000 hPa, and at
    1500 GHz the sum of lines and continuum is negative too: the claim that oxygen absorption is non-negative fails
    for R98. *)
Theorem C55_R98_lines_refuted : exists ll n c, db_o2 (@shipped RA) "R98" = Some ll /\
  o2_absorption (A:=RA) "R98" ll 100 1 0 200 = (n, c) /\ n < 0.
Proof.
  destruct (shipped_o2 (A:=RA) "R98") as [ll|] eqn:E; [|discriminate E].
  destruct (o2_absorption (A:=RA) "R98" ll 100 1 0 200) as [n c] eqn:H. exists ll, n, c. split; [exact E|]. split; [exact H|].
  assert (F : Q2R 200 = 200) by (unfold Q2R; cbn; lra). rewrite <- F in H.
  destruct (parts98 200 ll n c E ltac:(lra) H) as [H1 _].
  assert (N : IZR (r98Z 200) <= -1) by (apply (IZR_le _ (-1)); vm_compute; discriminate).
  set (z := IZR (r98Z 200)) in *. clearbody z.
  assert (L := npkm_lt (Q2R 200) n 0). rewrite npkm_0 in L. rewrite F in *.
  enough (n + 0 < 0) by lra. apply L; [lra|]. lra.
Qed.

Theorem C55_R98_total_refuted : exists ll n c, db_o2 (@shipped RA) "R98" = Some ll /\
  o2_absorption (A:=RA) "R98" ll 100 1 0 1500 = (n, c) /\ n + c < 0.
Proof.
  destruct (shipped_o2 (A:=RA) "R98") as [ll|] eqn:E; [|discriminate E].
  destruct (o2_absorption (A:=RA) "R98" ll 100 1 0 1500) as [n c] eqn:H. exists ll, n, c. split; [exact E|]. split; [exact H|].
  assert (F : Q2R 1500 = 1500) by (unfold Q2R; cbn; lra). rewrite <- F in H.
  destruct (parts98 1500 ll n c E ltac:(lra) H) as [H1 H2].
  assert (N : IZR (r98Z 1500) <= IZR (- 9000000000000000000)) by (apply IZR_le; vm_compute; discriminate).
  set (z := IZR (r98Z 1500)) in *. clearbody z.
  apply (npkm_lt (Q2R 1500)); [lra|]. lra.
Qed.

(** All the other shipped oxygen lists meet the hypothesis of [C55_o2_nonnegative]. *)
Lemma shipped_o2_wb m ll : shipped_o2 (A:=RA) m = Some ll -> 0 <= o_wb300 ll.
Proof.
  unfold shipped_o2. intros H. repeat destruct (String.eqb m _); try discriminate H; apply (f_equal (fun o : option (o2_ll RA) => match o with Some l => o_wb300 l : R | None => 0 end)) in H;
   cbv beta iota in H; rewrite <- H; unfold o2_load; cbn [o_wb300]; change (@lit RA) with litR; match goal with |- 0 <= litR ?d => unfold d, litR; lra end.
Qed.

Theorem C55_shipped_nonnegative m ll pd vx ek f n c : db_o2 (@shipped RA) m = Some ll -> m <> "R98"%string ->
  0 < vx -> 0 <= pd -> 0 <= ek -> 0 < f -> o2_absorption (A:=RA) m ll pd vx ek f = (n, c) -> 0 <= n /\ 0 <= c.
Proof. intros H Hm Hv Hp He Hf. apply C55_o2_nonnegative; auto. exact (shipped_o2_wb m ll H). Qed.

Example C55_example : exists ll n c, db_o2 (@shipped RA) "R24" = Some ll /\ o2_absorption (A:=RA) "R24" ll 95 (300 / 280) 1 183 = (n, c) /\ 0 <= n /\ 0 <= c.
Proof.
  destruct (shipped_o2 (A:=RA) "R24") as [ll|] eqn:E; [|discriminate E].
  destruct (o2_absorption (A:=RA) "R24" ll 95 (300 / 280) 1 183) as [n c] eqn:H. exists ll, n, c. split; [exact E|]. split; [exact H|].
  eapply C55_shipped_nonnegative; [exact E|discriminate|..|exact H]; lra.
Qed.
