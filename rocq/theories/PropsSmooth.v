(** Claim C129: spectra of absorption without jumps, over the reals. *)

From Coq Require Import ZArith Reals Lra Lia Psatz String List Bool.
Import ListNotations.
From Verif Require Import Arith PyBase Utils Absorption Clear Spectrum Spec RealAux SolverGen LineData PropsAbsN2 PropsLiq PropsClear PropsO2H2O PropsH2O PropsCross PropsCrossO2 PropsO3 PropsData PropsCrossMore Lineshape FinGas.
From Coq Require Import Sorted.
Local Open Scope string_scope.
Open Scope R_scope.

(** ** Specification *)

(** [k] does not jump at [f0]. *)
Definition unbroken (k : R -> R) (f0 : R) : Prop :=
  forall eps, 0 < eps -> exists delta, 0 < delta /\ forall f, Rabs (f - f0) < delta -> Rabs (k f - k f0) < eps.

(** ** Continuity *)

Lemma unbroken_of k f0 : continuity_pt k f0 -> unbroken k f0.
Proof.
  intros H eps He. destruct (H eps He) as (d & Hd & K). exists d. split; [exact Hd|]. intros f Hf.
  destruct (Req_dec f f0) as [->|N]; [replace (k f0 - k f0) with 0 by ring; rewrite Rabs_R0; exact He|].
  apply K. split; [split; [exact I|congruence]|exact Hf].
Qed.

Lemma unbroken_near k k' f0 : 0 < f0 -> (forall f, 0 < f -> k f = k' f) -> unbroken k' f0 -> unbroken k f0.
Proof.
  intros Hf E H eps He. destruct (H eps He) as (d & Hd & K). exists (Rmin d f0). split; [apply Rmin_pos; assumption|].
  intros f Hl. assert (M1 := Rmin_l d f0). assert (M2 := Rmin_r d f0). assert (P : 0 < f) by (apply Rabs_def2 in Hl; lra).
  rewrite !E by assumption. apply K. lra.
Qed.

Lemma c_const c x : continuity_pt (fun _ => c) x.
Proof. apply continuity_pt_const. intros a b. reflexivity. Qed.
Lemma c_id x : continuity_pt (fun f => f) x.
Proof. apply derivable_continuous_pt, derivable_pt_id. Qed.
Lemma c_exp u x : continuity_pt u x -> continuity_pt (fun f => exp (u f)) x.
Proof. intros H. apply (continuity_pt_comp u exp); [exact H|]. apply derivable_continuous_pt, derivable_pt_exp. Qed.
Lemma c_abs u x : continuity_pt u x -> continuity_pt (fun f => Rabs (u f)) x.
Proof. intros H. apply (continuity_pt_comp u Rabs); [exact H|]. apply Rcontinuity_abs. Qed.
Lemma c_ext k k' x : (forall f, k f = k' f) -> continuity_pt k' x -> continuity_pt k x.
Proof. intros E H eps He. destruct (H eps He) as (d & Hd & K). exists d. split; [exact Hd|]. intros f Hf. rewrite !E. apply K. exact Hf. Qed.
Lemma c_max u x : continuity_pt u x -> continuity_pt (fun f => Rmax (u f) 0) x.
Proof.
  intros H. apply c_ext with (fun f => (u f + Rabs (u f)) * / 2).
  - intros f. unfold Rmax. destruct (Rle_dec (u f) 0) as [L|L]; [rewrite Rabs_left1 by lra|rewrite Rabs_right by lra]; lra.
  - apply (continuity_pt_mult (fun f => u f + Rabs (u f)) (fun _ => / 2)); [|apply c_const].
    apply (continuity_pt_plus u (fun f => Rabs (u f))); [exact H|apply c_abs; exact H].
Qed.
Lemma c_inv u x : u x <> 0 -> continuity_pt u x -> continuity_pt (fun f => / u f) x.
Proof. intros N H. apply (continuity_pt_inv u); assumption. Qed.

Lemma c_sq u x : continuity_pt u x -> continuity_pt (fun f => powi (A:=RA) (u f) 2) x.
Proof. intros H. apply c_ext with (fun f => u f * u f); [intros; apply powi2|]. apply (continuity_pt_mult u u); exact H. Qed.

Ltac cont := lazymatch goal with
  | |- continuity_pt (fun _ => ?c) _ => apply c_const
  | |- continuity_pt (fun x => x) _ => apply c_id
  | |- continuity_pt (fun x => @?a x + @?b x) _ => apply (continuity_pt_plus a b); cont
  | |- continuity_pt (fun x => @?a x - @?b x) _ => apply (continuity_pt_minus a b); cont
  | |- continuity_pt (fun x => @?a x * @?b x) _ => apply (continuity_pt_mult a b); cont
  | |- continuity_pt (fun x => - @?a x) _ => apply (continuity_pt_opp a); cont
  | |- continuity_pt (fun x => @?a x / @?b x) _ => apply (continuity_pt_mult a (fun x => / b x)); cbv beta; cont
  | |- continuity_pt (fun x => / @?a x) _ => apply (c_inv a); [cbv beta|cont]
  | |- continuity_pt (fun x => powi (@?a x) 2) _ => apply (c_sq a); cont
  | |- continuity_pt (fun x => exp (@?a x)) _ => apply (c_exp a); cont
  | |- continuity_pt (fun x => Rmax (@?a x) 0) _ => apply (c_max a); cont
  | |- _ => idtac
  end.

Lemma c_total {X} (g : R -> X -> R) l x : (forall k, In k l -> continuity_pt (fun f => g f k) x) -> continuity_pt (fun f => total (g f) l) x.
Proof.
  induction l as [|k l IH]; intros H; cbn [total fold_right]; [apply c_const|].
  apply (continuity_pt_plus (fun f => g f k) (fun f => total (g f) l)); [apply H; left; reflexivity|apply IH; intros; apply H; right; assumption].
Qed.

(** ** Water vapour *)

(** Subtracting the value at the cut-off makes the wing end at zero. *)
Lemma clipped_max w d : 0 <= w -> clipped w d = Rmax (lorentzian w d - lorentzian w 750) 0.
Proof.
  intros Hw. assert (P := PI_RGT_0). unfold clipped, lorentzian.
  destruct (Req_dec w 0) as [->|N].
  { unfold Rdiv. rewrite !Rmult_0_l, Rminus_0_r, Rmax_left by lra. destruct (Rlt_dec _ _); reflexivity. }
  assert (W : 0 < w * w) by nra. assert (D : 0 <= d * d) by nra.
  assert (M : forall a b, 0 <= a <= b -> w / (PI * (b + w * w)) <= w / (PI * (a + w * w))).
  { intros a b H. unfold Rdiv. apply Rmult_le_compat_l; [lra|]. apply Rinv_le_contravar; [apply Rmult_lt_0_compat; lra|apply Rmult_le_compat_l; lra]. }
  assert (S : d * d = Rabs d * Rabs d) by (rewrite <- Rabs_mult, Rabs_right by lra; reflexivity). assert (A := Rabs_pos d).
  destruct (Rlt_dec (Rabs d) 750) as [L|L].
  - rewrite Rmax_left; [reflexivity|]. assert (Q := M (d * d) (750 * 750) ltac:(nra)). lra.
  - rewrite Rmax_right; [reflexivity|]. assert (Q := M (750 * 750) (d * d) ltac:(nra)). lra.
Qed.

Lemma c_clipped w u x : 0 <= w -> continuity_pt u x -> continuity_pt (fun f => clipped w (u f)) x.
Proof.
  intros Hw Hu. apply c_ext with (fun f => Rmax (lorentzian w (u f) - lorentzian w 750) 0); [intros; apply clipped_max; exact Hw|].
  apply c_max. apply (continuity_pt_minus (fun f => lorentzian w (u f)) (fun _ => lorentzian w 750)); [|apply c_const].
  assert (P := PI_RGT_0). destruct (Req_dec w 0) as [->|N].
  { apply c_ext with (fun _ => 0); [intros; unfold lorentzian, Rdiv; ring|apply c_const]. }
  unfold lorentzian. assert (W : 0 < w * w) by nra. cont; try exact Hu.
  apply Rgt_not_eq, Rmult_lt_0_compat; [lra|]. assert (0 <= u x * u x) by nra. lra.
Qed.

Lemma c_vvw w f0 shift x : 0 <= w -> continuity_pt (vvw w f0 shift) x.
Proof.
  intros Hw. unfold vvw.
  apply (continuity_pt_mult (fun f => f / f0 * (f / f0)) (fun f => clipped w (f - f0 - shift) + clipped w (f + f0 + shift))).
  - unfold Rdiv. cont.
  - apply (continuity_pt_plus (fun f => clipped w (f - f0 - shift)) (fun f => clipped w (f + f0 + shift))); apply c_clipped; try exact Hw; cont.
Qed.

(** Water vapour in Np/km: one function of frequency, without jumps. *)
Lemma water_curve m (ll : h2o_ll RA) pd vx ek : In m std_models -> good_h2o ll -> 0 < vx -> 0 <= pd -> 0 <= ek ->
  exists k, (forall f, 0 < f -> exists n c, h2o_absorption (A:=RA) m ll pd vx ek f = Ok (n, c) /\ npkm f n + npkm f c = k f) /\ forall f0, 0 < f0 -> continuity_pt k f0.
Proof.
  intros Hm G Hv Hp He. destruct (env_pressures m pd vx ek Hv He) as (E1 & E2 & E3 & E4). set (e := h2o_env_of (A:=RA) m pd vx ek) in *.
  assert (Hr := gh_reftline _ G). assert (TP : 0 < 300 / vx) by (apply div_pos; lra).
  set (theta := h_reftline ll / (300 / vx)). assert (TH : 0 < theta) by (apply div_pos; assumption).
  destruct (Req_EM_T (e_rho e) 0) as [Z|Z].
  { exists (fun _ => 0). split; [|intros; apply c_const]. intros f Hf. destruct (std_returns m ll pd vx ek f Hm) as (n & c & H). exists n, c. split; [exact H|].
    destruct (C53_h2o_units m ll pd vx ek f n c ltac:(lra) H) as [(_ & -> & ->)|(N & _)]; [rewrite npkm_0; lra|]. cbv zeta in N. fold e in N. contradiction. }
  destruct (std_cases m Hm) as (S1 & S2 & S3).
  set (lines := fun f => total (fun l : h2o_line RA => PI * (strength (h_s1 l) (h_b2 l) 2.5 theta * vvw (width_of l (e_pda e) (e_pvap e) theta) (h_fl l) (shift_of m l (e_pda e) (e_pvap e) theta) f)) (h_lines ll)).
  assert (HS : forall f, h2o_summ (A:=RA) m ll e f = Some (lines f)).
  { intros f. unfold h2o_summ. rewrite S1, S2. cbv zeta. f_equal.
    replace (div (a:=RA) (h_reftline ll) (e_t e)) with theta by (unfold theta; ra; rewrite E3; reflexivity).
    match goal with |- context [map (h2o_line_std m e f theta (lnf ?a) ?b) _] => replace b with (Rpower theta 2.5) by (ra; rewrite Rpowf_pos by assumption; f_equal; lra) end.
    rewrite (sum_total (h2o_line_std (A:=RA) m e f theta (ln theta) (Rpower theta 2.5))).
    replace (lit (Dec 0 10) : car RA) with 0 by (ra; lra). rewrite Rplus_0_l. unfold lines.
    induction (h_lines ll) as [|l ls IH]; [reflexivity|]. cbn [total fold_right]. f_equal; [apply line_std; assumption|exact IH]. }
  set (con := fun f => h2o_con1 (A:=RA) m ll e vx f).
  assert (HC : forall f, h2o_con2 (A:=RA) m ll e vx f = Ok (con f)).
  { intros f. unfold h2o_con2. unfold std_models in Hm. cbn [In] in Hm. repeat (destruct Hm as [<-|Hm]; [reflexivity|]). destruct Hm. }
  exists (fun f => line_npkm m (e_rho e) (e_den e) (lines f) + con f). split.
  - intros f Hf. destruct (std_returns m ll pd vx ek f Hm) as (n & c & H). exists n, c. split; [exact H|].
    destruct (C53_h2o_units m ll pd vx ek f n c ltac:(lra) H) as [(Z' & _)|(_ & s & k & Hs & Hk & -> & ->)]; [contradiction|].
    change (h2o_env_of (A:=RA) m pd vx ek) with e in Hs, Hk. rewrite HS in Hs. rewrite HC in Hk. apply ok_inj in Hk. injection Hs as <-. subst k. reflexivity.
  - intros f0 Hf.
    assert (CL : continuity_pt lines f0).
    { apply (c_total (fun f (l : h2o_line RA) => PI * (strength (h_s1 l) (h_b2 l) 2.5 theta * vvw (width_of l (e_pda e) (e_pvap e) theta) (h_fl l) (shift_of m l (e_pda e) (e_pvap e) theta) f))).
      intros l Hl. assert (GL := proj1 (Forall_forall _ _) (gh_lines _ G) l Hl).
      apply (continuity_pt_mult (fun _ => PI) (fun f => strength (h_s1 l) (h_b2 l) 2.5 theta * vvw _ (h_fl l) _ f)); [apply c_const|].
      apply (continuity_pt_mult (fun _ => strength (h_s1 l) (h_b2 l) 2.5 theta) (vvw _ (h_fl l) _)); [apply c_const|]. apply c_vvw.
      destruct (h2o_env_range m pd vx ek Hv Hp He) as (_ & _ & PV & PD & _). change (h2o_env_of (A:=RA) m pd vx ek) with e in PV, PD.
      unfold width_of. assert (R1 := exp_pos (h_x l * ln theta)). assert (R2 := exp_pos (h_xs l * ln theta)).
      apply Rplus_le_le_0_compat; (apply Rmult_le_pos; [|apply Rlt_le; assumption]); apply Rmult_le_pos; try assumption; apply GL. }
    apply (continuity_pt_plus (fun f => line_npkm m (e_rho e) (e_den e) (lines f)) con).
    + unfold line_npkm. destruct (str_in m ["R22SD"; "R23SD"; "R24"]); cont; exact CL || assumption.
    + unfold con, h2o_con1. cbv zeta. destruct (str_in m ["R03"; "R98"]); [|replace (String.eqb m "MWL24") with false by (unfold std_models in Hm; cbn [In] in Hm; repeat (destruct Hm as [<-|Hm]; [reflexivity|]); destruct Hm)]; ra; cont.
Qed.

(** ** Oxygen *)

Lemma c_first m (q : o2_env RA) (k : o2_line RA) x : 0 < (q_den q : R) -> 0 < (o_w300 k : R) -> continuity_pt (fun f => o2_line_first (A:=RA) m q f k) x.
Proof.
  intros Hq Hk. assert (W : 0 < o_w300 k * q_den q) by (apply Rmult_lt_0_compat; assumption).
  unfold o2_line_first. cbv zeta. ra.
  set (w := o_w300 k * q_den q) in *. clearbody w. assert (W2 : 0 < w * w) by nra.
  cont; rewrite ?powi2; match goal with |- ?a * ?a + _ <> 0 => assert (0 <= a * a) by apply Rle_0_sqr; lra end.
Qed.
Lemma c_second (q : o2_env RA) (k : o2_line RA) x : 0 < (q_den q : R) -> 0 < (o_w300 k : R) -> continuity_pt (fun f => o2_line_second (A:=RA) q f k) x.
Proof.
  intros Hq Hk. assert (W : 0 < o_w300 k * q_den q) by (apply Rmult_lt_0_compat; assumption).
  unfold o2_line_second. cbv zeta. ra.
  set (w := o_w300 k * q_den q) in *. clearbody w. assert (W2 : 0 < w * w) by nra.
  cont; rewrite ?powi2; match goal with |- ?a * ?a + _ <> 0 => assert (0 <= a * a) by apply Rle_0_sqr; lra end.
Qed.

Lemma c_debye s th w x : 0 < th -> 0 < w -> continuity_pt (fun f => s * f * f * w / (th * (f * f + w * w))) x.
Proof.
  intros Ht Hw. cont. assert (0 < w * w) by nra. assert (0 <= x * x) by nra. apply Rgt_not_eq, Rmult_lt_0_compat; lra.
Qed.

Definition o2_sound (ll : o2_ll RA) : Prop := 0 < (o_wb300 ll : R) /\ Forall (fun k : o2_line RA => 0 < (o_w300 k : R)) (o_lines ll).

Lemma o2_curve m (ll : o2_ll RA) pd vx ek : In m (first_order ++ second_order) -> o2_sound ll -> 0 < vx -> 0 < pd -> 0 <= ek <= 1000 * pd ->
  exists k, (forall f, 0 < f -> exists n c, o2_absorption (A:=RA) m ll pd vx ek f = (n, c) /\ npkm f n + npkm f c = k f) /\ forall f0, 0 < f0 -> continuity_pt k f0.
Proof.
  intros Hm [Gw Gl] Hv Hp He.
  destruct (o2_env_spec m ll pd vx ek Hv (proj1 He) ltac:(apply in_app_iff in Hm; apply in_app_iff; destruct Hm; [left|right; apply in_app_iff; left]; assumption)) as (pv & P1 & Q1 & _ & _ & _ & _ & Q6 & Q7 & _). cbv zeta in *.
  set (q := o2_env_of (A:=RA) m ll pd vx ek) in *.
  assert (DN : 0 < (q_den q : R)).
  { rewrite Q6. unfold effective. cbv zeta. set (dry := 10 * (pd + ek) - pv). assert (DP : 0 < dry) by (unfold dry; lra).
    set (ex := if String.eqb m "R98" then _ else _). assert (RP : 0 < Rpower vx ex) by apply exp_pos.
    assert (0 < dry * Rpower vx ex) by (apply Rmult_lt_0_compat; assumption).
    destruct (str_in m ["R98"; "R03"; "R16"]); [assert (0 <= 1.1 * pv * vx) by (apply Rmult_le_pos; lra)|assert (0 <= 1.2 * pv * vx) by (apply Rmult_le_pos; lra)]; lra. }
  assert (DF : 0 < (q_dfnr q : R)) by (rewrite Q7; apply Rmult_lt_0_compat; assumption).
  assert (TH : 0 < (q_th q : R)) by (rewrite Q1; exact Hv).
  exists (fun f => o2_abs (A:=RA) m q (o2_summ (A:=RA) m q ll f) f + if str_in m ["R19"; "R19SD"; "R20"; "R20SD"; "R22"; "R22SD"; "R23"; "R24"] then 0 else o2_cont (A:=RA) m q f).
  split.
  - intros f Hf. destruct (o2_absorption (A:=RA) m ll pd vx ek f) as [n c] eqn:H. exists n, c. split; [reflexivity|].
    destruct (C53_o2_units m ll pd vx ek f n c ltac:(lra) H) as [-> ->]. reflexivity.
  - intros f0 Hf.
    assert (CS : continuity_pt (fun f => o2_summ (A:=RA) m q ll f) f0).
    { assert (CT : forall (s0 : R -> R) (g : R -> o2_line RA -> R), continuity_pt s0 f0 -> (forall k, In k (o_lines ll) -> continuity_pt (fun f => g f k) f0) ->
        continuity_pt (fun f => sum_from (A:=RA) (s0 f) (map (g f) (o_lines ll))) f0).
      { intros s0 g H0 Hg. eapply c_ext; [intros f; apply sum_total|]. apply (continuity_pt_plus s0 (fun f => total (g f) (o_lines ll))); [exact H0|apply c_total; exact Hg]. }
      assert (C0 : continuity_pt (fun f => if str_in m ["R03"; "R16"; "R17"; "R18"; "R98"] then lit (a:=RA) (Dec 0 10) else
         div (a:=RA) (mul (a:=RA) (mul (a:=RA) (mul (a:=RA) (lit (Dec 1584 100000000000000000000)) f) f) (q_dfnr q)) (mul (a:=RA) (q_th q) (add (a:=RA) (mul (a:=RA) f f) (mul (a:=RA) (q_dfnr q) (q_dfnr q))))) f0).
      { destruct (str_in m ["R03"; "R16"; "R17"; "R18"; "R98"]); [apply c_const|]. ra. apply c_debye; assumption. }
      rewrite Forall_forall in Gl.
      unfold o2_summ. cbv zeta. destruct (str_in m ["R03"; "R98"; "R17"; "R18"; "R19"; "R19SD"]).
      { apply CT; [exact C0|]. intros k Hk. apply c_first; [exact DN|apply Gl; exact Hk]. }
      replace (String.eqb m "R23") with false by (unfold first_order, second_order in Hm; cbn [In app] in Hm; repeat (destruct Hm as [<-|Hm]; [reflexivity|]); destruct Hm).
      replace (String.eqb m "R24") with false by (unfold first_order, second_order in Hm; cbn [In app] in Hm; repeat (destruct Hm as [<-|Hm]; [reflexivity|]); destruct Hm).
      apply CT; [exact C0|]. intros k Hk. apply c_second; [exact DN|apply Gl; exact Hk]. }
    set (S := fun f : R => o2_summ (A:=RA) m q ll f : R) in *. change (continuity_pt S f0) in CS.
    apply (continuity_pt_plus (fun f => o2_abs (A:=RA) m q (S f) f) (fun f => if _ : bool then 0 else o2_cont (A:=RA) m q f)).
    + unfold o2_abs. cbv zeta.
      replace (String.eqb m "R23") with false by (unfold first_order, second_order in Hm; cbn [In app] in Hm; repeat (destruct Hm as [<-|Hm]; [reflexivity|]); destruct Hm).
      replace (String.eqb m "R24") with false by (unfold first_order, second_order in Hm; cbn [In app] in Hm; repeat (destruct Hm as [<-|Hm]; [reflexivity|]); destruct Hm).
      assert (MX : forall u : R -> R, continuity_pt u f0 -> continuity_pt (fun f => maxv (A:=RA) (u f) (lit (Dec 0 10))) f0).
      { intros u Hu. eapply c_ext; [|apply (c_max u); exact Hu]. intros f. apply maxv_0. }
      assert (B : continuity_pt (fun f => if str_in m ["R03"; "R98"] then div (a:=RA) (mul (a:=RA) (mul (a:=RA) (mul (a:=RA) (lit (Dec 503400000000 1)) (S f)) (q_presda q)) (powi (A:=RA) (q_th q) 3)) (lit (Dec 314159 100000))
         else mul (a:=RA) (mul (a:=RA) (mul (a:=RA) (lit (Dec 160970000000 1)) (S f)) (q_presda q)) (powi (A:=RA) (q_th q) 3)) f0).
      { destruct (str_in m ["R03"; "R98"]); ra; cont; exact CS || assumption. }
      destruct (str_in m ["R03"; "R98"]), (negb (String.eqb m "R98")), (str_in m ["R20"; "R20SD"; "R22"; "R22SD"]);
        repeat first [exact B | apply MX | (apply (continuity_pt_mult (fun _ => lit (a:=RA) (Dec 1004 1000))); [apply c_const|])].
    + destruct (str_in m _); [apply c_const|]. unfold o2_cont. cbv zeta. destruct (str_in m ["R03"; "R98"]); ra;
        (match goal with |- continuity_pt (fun f => _ * ?c) _ => apply (continuity_pt_mult (fun f => _) (fun _ => c)) end; [apply c_debye; assumption|apply c_const]).
Qed.

(** ** Nitrogen *)

Lemma n2_curve m t p : In m n2_models -> 0 < t -> exists k, (forall f, n2_absorption (A:=RA) m t p f = Ok (k f)) /\ forall f0, continuity_pt k f0.
Proof.
  intros Hm Ht. destruct (string_dec m "MWL24") as [->|N].
  - eexists. split; [intros f; apply n2_mwl; exact Ht|]. intros f0. cbv beta. unfold mwl_spec, Rpower, mwl_m0, mwl_aa. cont;
      match goal with |- 1 + ?a * ?a <> 0 => assert (0 <= a * a) by (apply Rle_0_sqr); lra end.
  - destruct (n2_coef m) as [[l x] n] eqn:E. eexists. split; [intros f; rewrite n2_std by assumption; rewrite E; reflexivity|]. intros f0. cbv beta.
    unfold n2_fdep. destruct (String.eqb m "R98"); cont. match goal with |- 1 + ?a * ?a <> 0 => assert (0 <= a * a) by (apply Rle_0_sqr); lra end.
Qed.

(** ** C129 *)

(** Dry and wet absorption of one level without ozone, models R98 to R20 (water vapour) and R98 to R22 (oxygen): functions of frequency without jumps. *)
Theorem C129_level (g : globals RA) mw mo mn lw lo p t e : g_h2o g = Some mw -> g_h2oll g = Some lw -> In mw std_models -> good_h2o lw ->
  g_o2 g = Some mo -> g_o2ll g = Some lo -> In mo (first_order ++ second_order) -> o2_sound lo -> g_n2 g = Some mn -> In mn n2_models ->
  0 < t -> 0 <= e < p -> e <= 1000 * (p - e) ->
  exists aw ad : R -> R, (forall f, 0 < f -> clearsky_level (A:=RA) g None f p t e None = Ok (aw f, ad f)) /\
    forall f0, 0 < f0 -> unbroken aw f0 /\ unbroken ad f0.
Proof.
  intros Gw Gl Hw Lw Go Gol Ho Lo Gn Hn Ht He Hpe.
  assert (V : 0 < 300 / t) by (apply div_pos; lra).
  destruct (water_curve mw lw ((p - e) / 10) (300 / t) (e / 10) Hw Lw V ltac:(lra) ltac:(lra)) as (kw & W1 & W2).
  destruct (o2_curve mo lo ((p - e) / 10) (300 / t) (e / 10) Ho Lo V ltac:(lra) ltac:(lra)) as (ko & O1 & O2).
  destruct (n2_curve mn t (p - e) Hn Ht) as (kn & N1 & N2).
  exists kw, (fun f => ko f + kn f). split.
  - intros f Hf. destruct (W1 f Hf) as (nw & cw & EW & VW). destruct (O1 f Hf) as (no & co & EO & VO).
    assert (R : exists r, clearsky_level (A:=RA) g None f p t e None = Ok r).
    { unfold clearsky_level. cbv zeta. unfold h2o_call, o2_call, n2_call, o3_call, over. rewrite Gw, Gl, Go, Gol, Gn. cbn [mname].
      match goal with |- context [h2o_absorption mw lw ?a ?b ?c f] => destruct (std_returns mw lw a b c f Hw) as (n & c' & ->) end. cbn [bind].
      match goal with |- context [n2_absorption mn ?a ?b f] => assert (X : exists v, n2_absorption (A:=RA) mn a b f = Ok v) by (apply (proj1 (C54_names RA mn a b f)); exact Hn); destruct X as (v & X) end.
      destruct mn as [|c0 s0]; [eexists; reflexivity|]. rewrite X. eexists. reflexivity. }
    destruct R as ([aw ad] & R). destruct (C53_level g None f p t e None aw ad R) as (nw' & cw' & no' & co' & an & ao & H1 & H2 & H3 & H4 & -> & ->).
    unfold h2o_call, over in H1. rewrite Gw, Gl in H1. rewrite EW in H1. apply ok_inj in H1. injection H1 as <- <-.
    unfold o2_call, over in H2. rewrite Go, Gol in H2. cbn [mname] in H2. rewrite EO in H2. apply ok_inj in H2. injection H2 as <- <-.
    unfold n2_call in H3. rewrite Gn in H3. assert (H3' : n2_absorption (A:=RA) mn t (p - e) f = Ok an).
    { destruct mn as [|c0 s0]; [exfalso; unfold n2_models in Hn; cbn [In] in Hn; repeat (destruct Hn as [Hn|Hn]; [discriminate|]); destruct Hn|exact H3]. }
    rewrite N1 in H3'. apply ok_inj in H3'. subst an. cbn in H4. apply ok_inj in H4. subst ao. rewrite R, VW, VO. do 2 f_equal. ra. lra.
  - intros f0 Hf. split; apply unbroken_of; [apply W2; exact Hf|]. apply (continuity_pt_plus ko kn); [apply O2; exact Hf|apply N2].
Qed.

(** With the shipped lists every sounding level is covered. *)
Theorem C129_shipped m p t e (g : globals RA) : In m std_models -> g_h2o g = Some m -> g_o2 g = Some m -> g_n2 g = Some m ->
  g_h2oll g = db_h2o (@shipped RA) m -> g_o2ll g = db_o2 (@shipped RA) m -> 0 < t -> 0 <= e < p -> e <= 1000 * (p - e) ->
  exists aw ad : R -> R, (forall f, 0 < f -> clearsky_level (A:=RA) g None f p t e None = Ok (aw f, ad f)) /\
    forall f0, 0 < f0 -> unbroken aw f0 /\ unbroken ad f0.
Proof.
  intros Hm G1 G2 G3 G4 G5 Ht He Hp.
  assert (Mo : In m plain_o2_names) by (unfold std_models, plain_o2_names in *; cbn [In] in *; tauto).
  destruct (shipped_h2o_D m Hm) as (xw & lw & _ & W2 & _ & W4 & _). destruct (shipped_o2_D m Mo) as (_ & xo & lo & _ & O2 & _ & O4 & O5).
  apply (C129_level g m m m lw lo); auto; try congruence.
  - unfold first_order, second_order, std_models in *. cbn [In app] in *. tauto.
  - split; [exact O5|]. eapply Forall_impl; [|exact O4]. intros k (_ & K). exact K.
  - unfold n2_models, std_models in *. cbn [In] in *. tauto.
Qed.

Lemma total_zero {X} (g : X -> R) l : (forall x, In x l -> 0 <= g x) -> 0 <= total g l.
Proof.
  induction l as [|x l IH]; intros H; cbn [total fold_right]; [lra|]. assert (A := H x (or_introl eq_refl)).
  assert (B := IH (fun y Hy => H y (or_intror Hy))). unfold total in B. lra.
Qed.

(** Ozone: lines count only within 1 GHz, so that the absorption jumps: 1 GHz below the lowest line it is positive and at every lower frequency zero. *)
Theorem C129_ozone_refuted m (ll : o3_ll RA) t p n : ~ In m ["R22"; "R22SD"] -> db_o3 (@shipped RA) m = Some ll -> 0 < t -> 0 < p -> 0 < n ->
  exists f0, 95 <= f0 <= 1000 /\ 0 < o3_absorption (A:=RA) m ll t p f0 n /\ (forall f, 0 < f < f0 -> o3_absorption (A:=RA) m ll t p f n = 0) /\
    ~ unbroken (fun f => o3_absorption (A:=RA) m ll t p f n) f0.
Proof.
  intros Hm H Ht Hp Hn. destruct (C121_shipped m ll H) as (S & G & Hr). destruct (C117_ozone m ll H) as (D & _).
  destruct (z_lines ll) as [|l0 ls] eqn:E.
  { exfalso. change (shipped_o3 (A:=RA) m = Some ll) in H. unfold shipped_o3 in H.
    assert (X : forall mtx rl, mtx <> [] -> Some (o3_load (A:=RA) mtx rl) = Some ll -> False).
    { intros mtx rl N K. apply (f_equal (fun o : option (o3_ll RA) => match o with Some l => z_lines l | None => [] end)) in K. cbn [o3_load z_lines] in K. rewrite E in K. apply map_eq_nil in K. contradiction. }
    destruct (String.eqb m "R18"); [refine (X _ _ _ H); discriminate|]. destruct (String.eqb m "R22"); [refine (X _ _ _ H); discriminate|].
    destruct (String.eqb m "R23"); [refine (X _ _ _ H); discriminate|discriminate]. }
  destruct (D l0 (or_introl eq_refl)) as (D1 & D2 & D3 & D4 & D5). unfold PropsData.within, MHz in *.
  set (f0 := z_fl l0 - 1). exists f0. split; [unfold f0; lra|].
  assert (Hth : 0 < z_reftline ll / t) by (apply div_pos; assumption). assert (P := PI_RGT_0).
  assert (Z : forall f, 0 < f < f0 -> o3_absorption (A:=RA) m ll t p f n = 0).
  { intros f Hf. destruct (C121_ozone m ll t p f n) as (ka & kd & _ & _ & V); rewrite ?E; auto; try lra. cbv zeta in V. rewrite V, E.
    replace (filter (PropsO3.within f) (l0 :: ls)) with (@nil (o3_line RA)); [cbn [total fold_right]; lra|]. symmetry.
    assert (Q : forall l, In l (l0 :: ls) -> PropsO3.within f l = false).
    { intros l Hl. assert (B : z_fl l0 <= z_fl l).
      { destruct Hl as [<-|Hl]; [lra|]. apply StronglySorted_inv in S. destruct S as [_ S]. exact (proj1 (Forall_forall _ _) S l Hl). }
      unfold PropsO3.within. destruct (Rle_dec _ _) as [C|C]; [|reflexivity]. exfalso. unfold f0 in Hf. assert (A := Rle_abs (z_fl l - f)). lra. }
    clear -Q. induction (l0 :: ls) as [|a r IH]; [reflexivity|]. cbn [filter]. rewrite (Q a (or_introl eq_refl)). apply IH. intros l Hl. apply Q. right. exact Hl. }
  assert (PO : 0 < o3_absorption (A:=RA) m ll t p f0 n).
  { destruct (C121_ozone m ll t p f0 n) as (ka & kd & K1 & K2 & V); rewrite ?E; auto; try (unfold f0; lra). cbv zeta in V. rewrite V, E.
    assert (W0 : PropsO3.within f0 l0 = true) by (apply within_true; unfold f0; replace (z_fl l0 - (z_fl l0 - 1)) with 1 by ring; rewrite Rabs_R1; lra).
    cbn [filter]. rewrite W0. cbn [total fold_right].
    assert (T0 : forall l, In l (l0 :: ls) -> 0 < z_fl l -> 0 <= f0 -> let x := strength (z_s1 l) (z_b l) 2.5 (z_reftline ll / t) * ((f0 / z_fl l) * (f0 / z_fl l) * lorentzian (joint_width (o3_width l p (z_reftline ll / t)) (kd * (ln 2 * doppler2 (z_fl l) t))) (f0 - z_fl l)) in 0 <= x /\ (0 < f0 -> 0 < x)).
    { intros l Hl Hz Hf. destruct (D l Hl) as (L1 & L2 & L3 & L4 & L5).
      assert (SP : 0 < strength (z_s1 l) (z_b l) 2.5 (z_reftline ll / t)).
      { unfold strength. apply Rmult_lt_0_compat; [|apply exp_pos]. apply Rmult_lt_0_compat; [|apply exp_pos]. powers. lra. }
      assert (WP : 0 < joint_width (o3_width l p (z_reftline ll / t)) (kd * (ln 2 * doppler2 (z_fl l) t))).
      { unfold joint_width. assert (A := R_sqrt.sqrt_pos (0.2166 * (o3_width l p (z_reftline ll / t) * o3_width l p (z_reftline ll / t)) + kd * (ln 2 * doppler2 (z_fl l) t))).
        assert (B : 0 < o3_width l p (z_reftline ll / t)) by (unfold o3_width; apply Rmult_lt_0_compat; [apply Rmult_lt_0_compat; [powers; lra|assumption]|apply exp_pos]). lra. }
      assert (LP : 0 < lorentzian (joint_width (o3_width l p (z_reftline ll / t)) (kd * (ln 2 * doppler2 (z_fl l) t))) (f0 - z_fl l)).
      { unfold lorentzian. set (w := joint_width _ _) in *. apply div_pos; [exact WP|]. apply Rmult_lt_0_compat; [exact P|]. assert (0 <= (f0 - z_fl l) * (f0 - z_fl l)) by apply Rle_0_sqr. assert (0 < w * w) by (apply Rmult_lt_0_compat; exact WP). lra. }
      cbv zeta. split.
      - apply Rmult_le_pos; [lra|]. apply Rmult_le_pos; [apply Rle_0_sqr|lra].
      - intros Q. apply Rmult_lt_0_compat; [exact SP|]. apply Rmult_lt_0_compat; [|exact LP]. apply Rmult_lt_0_compat; apply div_pos; assumption. }
    rewrite Forall_forall in G.
    assert (A := proj2 (T0 l0 (or_introl eq_refl) (proj1 (G l0 (or_introl eq_refl))) ltac:(unfold f0; lra)) ltac:(unfold f0; lra)). cbv zeta in A.
    match goal with |- context [fold_right ?g 0 ?l] => assert (B : 0 <= fold_right g 0 l) end.
    { apply (total_zero _ (filter (PropsO3.within f0) ls)). intros x Hx. apply filter_In in Hx. apply (T0 x (or_intror (proj1 Hx)) (proj1 (G x (or_intror (proj1 Hx))))). unfold f0. lra. }
    match goal with |- 0 < _ * (_ * (?a + ?b)) => set (u := a) in *; set (v := b) in * end.
    assert (GS : 0 < ground_state t) by (unfold ground_state; replace (- (1008 / t)) with (- 1008 / t) by (unfold Rdiv; lra); apply qvinv_pos; exact Ht).
    apply Rmult_lt_0_compat; [lra|]. apply Rmult_lt_0_compat; [|lra]. apply Rmult_lt_0_compat; [|exact GS]. unfold per_km. powers. apply Rmult_lt_0_compat; [lra|]. apply Rmult_lt_0_compat; lra. }
  split; [exact PO|]. split; [exact Z|]. intros U. destruct (U _ PO) as (d & Hd & K).
  assert (F : 0 < f0) by (unfold f0; lra).
  assert (M1 := Rmin_l d f0). assert (M2 := Rmin_r d f0). assert (M3 := Rmin_pos d f0 Hd F). set (mn := Rmin d f0) in *. clearbody mn.
  specialize (K (f0 - mn / 2)). rewrite Z in K by lra. rewrite Rabs_left1 in K by lra. specialize (K ltac:(lra)). rewrite Rabs_left1 in K by lra. lra.
Qed.

Example C129_example : exists g : globals RA, exists aw ad : R -> R, (forall f, 0 < f -> clearsky_level (A:=RA) g None f 1000 288 12 None = Ok (aw f, ad f)) /\ unbroken aw 22.235 /\ unbroken ad 118.75.
Proof.
  pose (g := mkGlobals (A:=RA) (Some "R17") (Some "R17") (Some "R17") (Some "R17") None (db_h2o (@shipped RA) "R17") (db_o2 (@shipped RA) "R17") None true 1). exists g.
  destruct (C129_shipped "R17" 1000 288 12 g ltac:(unfold std_models; cbn [In]; tauto) eq_refl eq_refl eq_refl eq_refl eq_refl ltac:(lra) ltac:(lra) ltac:(lra)) as (aw & ad & H1 & H2).
  exists aw, ad. split; [exact H1|]. split; [apply (H2 22.235)|apply (H2 118.75)]; lra.
Qed.
