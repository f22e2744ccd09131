(** Claim C150: nearby frequencies and soundings have nearby absorption, over the reals. *)

From Coq Require Import ZArith Reals Lra Lia Psatz String List Bool.
From Coquelicot Require Import Coquelicot.
Import ListNotations.
From Verif Require Import Arith PyBase Utils Absorption Clear Spectrum Spec RealAux SolverGen LineData PropsAbsN2 PropsLiq PropsClear PropsO2H2O PropsH2O PropsCross PropsCrossO2 PropsCrossMore Lineshape FinGas PropsSmooth.
Local Open Scope string_scope.
Open Scope R_scope.

(** ** Specification *)

(** A level of a sounding: pressure and vapour pressure in hPa, temperature in K; some dry air. *)
Definition sky (f p t e : R) : Prop := 0 < f /\ 0 < t /\ 0 <= e < p /\ e <= 1000 * (p - e).
Definition within4 (d f p t e f' p' t' e' : R) : Prop := Rabs (f' - f) < d /\ Rabs (p' - p) < d /\ Rabs (t' - t) < d /\ Rabs (e' - e) < d.
(** [k] of nearby arguments is nearby. *)
Definition joint (k : R -> R -> R -> R -> R) (f p t e : R) : Prop :=
  forall eps, 0 < eps -> exists delta, 0 < delta /\
    forall f' p' t' e', sky f' p' t' e' -> within4 delta f p t e f' p' t' e' -> Rabs (k f' p' t' e' - k f p t e) < eps.

(** ** Continuity on any space *)

Section Cont.
Context {U : UniformSpace}.
Definition kc (u : U -> R) (x : U) : Prop := @continuous U R_UniformSpace u x.

Lemma k_const c x : kc (fun _ => c) x. Proof. apply continuous_const. Qed.
Lemma k_plus u v x : kc u x -> kc v x -> kc (fun s => u s + v s) x.
Proof. intros A B. exact (@continuous_plus U R_AbsRing R_NormedModule u v x A B). Qed.
Lemma k_mult u v x : kc u x -> kc v x -> kc (fun s => u s * v s) x.
Proof. intros A B. exact (@continuous_mult U R_AbsRing u v x A B). Qed.
Lemma k_opp u x : kc u x -> kc (fun s => - u s) x.
Proof. intros A. exact (@continuous_opp U R_AbsRing R_NormedModule u x A). Qed.
Lemma k_minus u v x : kc u x -> kc v x -> kc (fun s => u s - v s) x.
Proof. intros A B. exact (@continuous_minus U R_AbsRing R_NormedModule u v x A B). Qed.
Lemma k_inv u x : u x <> 0 -> kc u x -> kc (fun s => / u s) x.
Proof. intros N A. apply (@continuous_comp U R_UniformSpace R_UniformSpace u Rinv x A). apply continuous_Rinv. exact N. Qed.
Lemma k_exp u x : kc u x -> kc (fun s => exp (u s)) x.
Proof. intros A. apply (@continuous_comp U R_UniformSpace R_UniformSpace u exp x A). apply continuous_exp. Qed.
Lemma k_ln u x : 0 < u x -> kc u x -> kc (fun s => ln (u s)) x.
Proof. intros N A. apply (@continuous_comp U R_UniformSpace R_UniformSpace u ln x A). apply continuous_ln. exact N. Qed.
Lemma k_ext u v x : (forall s, u s = v s) -> kc v x -> kc u x.
Proof. intros E A. apply (continuous_ext v); [intros; symmetry; apply E|exact A]. Qed.
Lemma k_max u x : kc u x -> kc (fun s => Rmax (u s) 0) x.
Proof.
  intros A. apply (k_ext _ (fun s => (u s + Rabs (u s)) * / 2)).
  - intros s. unfold Rmax. destruct (Rle_dec (u s) 0) as [L|L]; [rewrite Rabs_left1 by lra|rewrite Rabs_right by lra]; lra.
  - apply k_mult; [|apply k_const]. apply k_plus; [exact A|]. apply (@continuous_comp U R_UniformSpace R_UniformSpace u Rabs x A). apply continuous_Rabs.
Qed.
Lemma k_rpower u v x : 0 < u x -> kc u x -> kc v x -> kc (fun s => Rpower (u s) (v s)) x.
Proof. intros N A B. unfold Rpower. apply k_exp, k_mult; [exact B|]. apply k_ln; assumption. Qed.
Lemma k_sq u x : kc u x -> kc (fun s => powi (A:=RA) (u s) 2) x.
Proof. intros A. apply (k_ext _ (fun s => u s * u s)); [intros; apply powi2|]. apply k_mult; exact A. Qed.
Lemma k_cube u x : kc u x -> kc (fun s => powi (A:=RA) (u s) 3) x.
Proof. intros A. apply (k_ext _ (fun s => u s * u s * u s)); [intros; apply powi3|]. apply k_mult; [apply k_mult; exact A|exact A]. Qed.
Lemma k_total {X} (g : U -> X -> R) l x : (forall k, In k l -> kc (fun s => g s k) x) -> kc (fun s => total (g s) l) x.
Proof.
  induction l as [|k l IH]; intros H; cbn [total fold_right]; [apply k_const|].
  apply (k_plus (fun s => g s k) (fun s => total (g s) l)); [apply H; left; reflexivity|apply IH; intros; apply H; right; assumption].
Qed.
End Cont.

(** Positivity and non-zero side conditions remain. *)
Ltac kont := lazymatch goal with
  | H : kc ?u ?x |- kc ?u ?x => exact H
  | H : kc ?u ?x |- kc (fun s => ?u s) ?x => exact H
  | |- kc (fun _ => ?c) _ => apply k_const
  | |- kc (fun x => @?a x + @?b x) _ => apply (k_plus a b); cbv beta; kont
  | |- kc (fun x => @?a x - @?b x) _ => apply (k_minus a b); cbv beta; kont
  | |- kc (fun x => @?a x * @?b x) _ => apply (k_mult a b); cbv beta; kont
  | |- kc (fun x => - @?a x) _ => apply (k_opp a); cbv beta; kont
  | |- kc (fun x => @?a x / @?b x) _ => apply (k_mult a (fun x => / b x)); cbv beta; kont
  | |- kc (fun x => / @?a x) _ => apply (k_inv a); cbv beta; [|kont]
  | |- kc (fun x => powi (@?a x) 2) _ => apply (k_sq a); cbv beta; kont
  | |- kc (fun x => powi (@?a x) 3) _ => apply (k_cube a); cbv beta; kont
  | |- kc (fun x => exp (@?a x)) _ => apply (k_exp a); cbv beta; kont
  | |- kc (fun x => ln (@?a x)) _ => apply (k_ln a); cbv beta; [|kont]
  | |- kc (fun x => Rpower (@?a x) (@?b x)) _ => apply (k_rpower a b); cbv beta; [|kont|kont]
  | |- kc (fun x => Rmax (@?a x) 0) _ => apply (k_max a); cbv beta; kont
  | |- _ => idtac
  end.

(** ** Water vapour *)

Definition wing (w d : R) : R := Rmax (lorentzian w d - lorentzian w 750) 0.
Definition pair_of (w f0 shift f : R) : R := (f / f0) * (f / f0) * (wing w (f - f0 - shift) + wing w (f + f0 + shift)).
Lemma vvw_pair w f0 shift f : 0 <= w -> vvw w f0 shift f = pair_of w f0 shift f.
Proof. intros H. unfold vvw, pair_of, wing. rewrite !clipped_max by exact H. reflexivity. Qed.

Definition con_of (m : string) (ll : h2o_ll RA) (pda pvap ti f : R) : R :=
  if str_in m ["R03"; "R98"] then (5.43e-10 * pda * (ti * ti * ti) + 1.8e-08 * pvap * Rpower ti 7.5) * pvap * f * f
  else (h_cf ll * pda * Rpower ti (h_xcf ll) + h_cs ll * pvap * Rpower ti (h_xcs ll)) * pvap * f * f.
Lemma con_eq m (ll : h2o_ll RA) (e : h2o_env RA) vx f : m <> "MWL24" -> 0 < h_reftcon ll / e_t e ->
  h2o_con1 (A:=RA) m ll e vx f = con_of m ll (e_pda e) (e_pvap e) (h_reftcon ll / e_t e) f.
Proof.
  intros Hm Ht. unfold h2o_con1, con_of. cbv zeta. replace (String.eqb m "MWL24") with false by (symmetry; apply String.eqb_neq; exact Hm).
  rewrite powi3. ra. rewrite !Rpowf_pos by exact Ht. destruct (str_in m ["R03"; "R98"]); [|reflexivity].
  replace 5.43e-10 with (543 / 1000000000000) by (powers; lra). replace 1.8e-08 with (18 / 1000000000) by (powers; lra). replace (75 / 10) with 7.5 by lra. reflexivity.
Qed.

(** Water vapour in Np/km of a whole state. *)
Definition water_of (m : string) (ll : h2o_ll RA) (f pd vx ek : R) : R :=
  let e := h2o_env_of (A:=RA) m pd vx ek in let theta := h_reftline ll / (300 / vx) in
  line_npkm m (e_rho e) (e_den e) (total (fun l : h2o_line RA => PI * (strength (h_s1 l) (h_b2 l) 2.5 theta * pair_of (width_of l (e_pda e) (e_pvap e) theta) (h_fl l) (shift_of m l (e_pda e) (e_pvap e) theta) f)) (h_lines ll))
  + con_of m ll (e_pda e) (e_pvap e) (h_reftcon ll / (300 / vx)) f.

Lemma width_nonneg (l : h2o_line RA) pd pv theta : good_line l -> 0 <= pd -> 0 <= pv -> 0 <= width_of l pd pv theta.
Proof.
  intros [_ G1 G2] P1 P2. unfold width_of. assert (R1 := Rpower_pos theta (h_x l)). assert (R2 := Rpower_pos theta (h_xs l)).
  apply Rplus_le_le_0_compat; (apply Rmult_le_pos; [|lra]); apply Rmult_le_pos; assumption.
Qed.

Lemma water_value m (ll : h2o_ll RA) pd vx ek f : In m std_models -> good_h2o ll -> 0 < vx -> 0 <= pd -> 0 <= ek -> 0 < f ->
  exists n c, h2o_absorption (A:=RA) m ll pd vx ek f = Ok (n, c) /\ npkm f n + npkm f c = water_of m ll f pd vx ek.
Proof.
  intros Hm G Hv Hp He Hf. destruct (env_pressures m pd vx ek Hv He) as (E1 & E2 & E3 & E4).
  destruct (h2o_env_range m pd vx ek Hv Hp He) as (_ & _ & PV & PD & _). unfold water_of. cbv zeta.
  assert (ED : (e_den (h2o_env_of (A:=RA) m pd vx ek) : R) = 0 \/ (e_rho (h2o_env_of (A:=RA) m pd vx ek) : R) <> 0).
  { destruct (Req_EM_T (e_rho (h2o_env_of (A:=RA) m pd vx ek)) 0) as [Z|Z]; [left|right; exact Z].
    revert Z. unfold h2o_env_of. cbn [e_rho e_den]. ra. intros Z. destruct (str_in m ["R03"; "R16"; "R98"]); rewrite Z; ring. }
  assert (EV : (e_rho (h2o_env_of (A:=RA) m pd vx ek) : R) = 0 -> (e_pvap (h2o_env_of (A:=RA) m pd vx ek) : R) = 0).
  { rewrite E4. intros Z. assert (T : 0 < 0.0831451 / 18.01528 * (300 / vx)) by (apply Rmult_lt_0_compat; [lra|apply div_pos; lra]).
    assert (ek = 0); [|subst ek; lra]. apply (Rmult_eq_compat_r (0.0831451 / 18.01528 * (300 / vx))) in Z. unfold Rdiv at 1 in Z. rewrite Rmult_assoc, Rinv_l in Z by lra. lra. }
  set (e := h2o_env_of (A:=RA) m pd vx ek) in *.
  assert (Hr := gh_reftline _ G). assert (TP : 0 < 300 / vx) by (apply div_pos; lra).
  set (theta := h_reftline ll / (300 / vx)). assert (TH : 0 < theta) by (apply div_pos; assumption).
  destruct (std_returns m ll pd vx ek f Hm) as (n & c & H). exists n, c. split; [exact H|].
  destruct (std_cases m Hm) as (S1 & S2 & S3 & _ & _ & S6).
  destruct (C53_h2o_units m ll pd vx ek f n c ltac:(lra) H) as [(Z & -> & ->)|(_ & s & k & Hs & Hk & -> & ->)].
  { change (h2o_env_of (A:=RA) m pd vx ek) with e in Z. rewrite npkm_0. destruct ED as [ED|ED]; [|contradiction]. unfold line_npkm, con_of. rewrite Z, ED, (EV Z).
    destruct (str_in m ["R22SD"; "R23SD"; "R24"]), (str_in m ["R03"; "R98"]); unfold Rdiv; ring. }
  change (h2o_env_of (A:=RA) m pd vx ek) with e in Hs, Hk. f_equal.
  - f_equal. revert Hs. unfold h2o_summ. rewrite S1, S2. cbv zeta. intros Hs. match type of Hs with Some ?a = Some ?b => assert (Hs' : a = b) by (injection Hs; trivial) end. rewrite <- Hs'. clear Hs Hs'.
    replace (div (a:=RA) (h_reftline ll) (e_t e)) with theta by (unfold theta; ra; rewrite E3; reflexivity).
    match goal with |- context [map (h2o_line_std m e f theta (lnf ?a) ?b) _] => replace b with (Rpower theta 2.5) by (ra; rewrite Rpowf_pos by assumption; f_equal; lra) end.
    rewrite (sum_total (h2o_line_std (A:=RA) m e f theta (ln theta) (Rpower theta 2.5))).
    replace (lit (Dec 0 10) : car RA) with 0 by (ra; lra). rewrite Rplus_0_l. assert (GL := gh_lines _ G).
    induction (h_lines ll) as [|l ls IH]; [reflexivity|]. inversion GL as [|? ? g1 g2]; subst. cbn [total fold_right]. f_equal; [|exact (IH g2)].
    rewrite line_std by assumption. rewrite vvw_pair by (apply width_nonneg; assumption). reflexivity.
  - unfold h2o_con2 in Hk. rewrite S3 in Hk. apply ok_inj in Hk. subst k. rewrite con_eq; [rewrite E3; reflexivity|exact S6|rewrite E3; apply div_pos; [apply G|exact TP]].
Qed.

Section Paths.
Context {U : UniformSpace} (x : U).

Lemma k_wing (w d : U -> R) : 0 < w x -> kc w x -> kc d x -> kc (fun s => wing (w s) (d s)) x.
Proof.
  intros P Kw Kd. unfold wing, lorentzian. assert (PP := PI_RGT_0).
  assert (W : 0 < w x * w x) by nra. assert (D : 0 <= d x * d x) by nra.
  kont; apply Rgt_not_eq, Rmult_lt_0_compat; lra.
Qed.

Lemma k_pair (w sh f : U -> R) f0 : 0 < w x -> kc w x -> kc sh x -> kc f x -> kc (fun s => pair_of (w s) f0 (sh s) (f s)) x.
Proof.
  intros P Kw Ks Kf. unfold pair_of. apply (k_mult (fun s => f s / f0 * (f s / f0)) (fun s => wing (w s) (f s - f0 - sh s) + wing (w s) (f s + f0 + sh s))).
  - unfold Rdiv. kont.
  - apply (k_plus (fun s => wing (w s) (f s - f0 - sh s)) (fun s => wing (w s) (f s + f0 + sh s))); apply k_wing; try assumption; kont.
Qed.

Context (f pd vx ek : U -> R) (Kf : kc f x) (Kp : kc pd x) (Kv : kc vx x) (Ke : kc ek x) (Pf : 0 < f x) (Pp : 0 < pd x) (Pv : 0 < vx x) (Pe : 0 <= ek x <= 1000 * pd x).

Lemma k_water m ll : In m std_models -> good_h2o ll -> List.Forall sharp (h_lines ll) -> kc (fun s => water_of m ll (f s) (pd s) (vx s) (ek s)) x.
Proof.
  intros Hm G Sh. assert (V : vx x <> 0) by lra. assert (T : 0 < 300 / vx x) by (apply div_pos; lra).
  destruct (h2o_env_range m (pd x) (vx x) (ek x) Pv ltac:(lra) ltac:(lra)) as (_ & _ & PV & PD & _).
  destruct (env_pressures m (pd x) (vx x) (ek x) Pv ltac:(lra)) as (E1 & E2 & _ & _).
  assert (PDA : 0 < e_pda (h2o_env_of (A:=RA) m (pd x) (vx x) (ek x))) by lra. clear E1 E2.
  assert (KR : kc (fun s => e_rho (h2o_env_of (A:=RA) m (pd s) (vx s) (ek s)) : R) x).
  { unfold h2o_env_of. cbn [e_rho]. ra. kont; try exact V. replace (3000 / 10) with 300 by lra. apply Rgt_not_eq, Rmult_lt_0_compat; [lra|exact T]. }
  assert (KD : kc (fun s => e_den (h2o_env_of (A:=RA) m (pd s) (vx s) (ek s)) : R) x).
  { revert KR. unfold h2o_env_of. cbn [e_rho e_den]. intros KR. destruct (str_in m ["R03"; "R16"; "R98"]); (apply k_mult; [apply k_const|exact KR]). }
  assert (KV : kc (fun s => e_pvap (h2o_env_of (A:=RA) m (pd s) (vx s) (ek s)) : R) x).
  { revert KR. unfold h2o_env_of, k_Rwatvap. cbn [e_rho e_pvap]. intros KR.
    assert (KT : kc (fun s => div (a:=RA) (lit (Dec 3000 10)) (vx s)) x) by (ra; kont; exact V).
    destruct (str_in m ["R22SD"; "R23SD"; "R24"; "MWL24"]); [|destruct (str_in m ["R03"; "R16"; "R17"; "R98"])].
    - apply (k_mult (fun s => _ * _) _); [apply (k_mult (fun s => _) _); [apply k_const|exact KR]|exact KT].
    - apply (k_mult (fun s => _ * _) (fun _ => / _)); [apply (k_mult (fun s => _) _); [exact KR|exact KT]|apply k_const].
    - apply (k_mult (fun s => _ * _) (fun _ => / _)); [apply (k_mult (fun s => _) _); [exact KR|exact KT]|apply k_const]. }
  assert (KA : kc (fun s => e_pda (h2o_env_of (A:=RA) m (pd s) (vx s) (ek s)) : R) x).
  { revert KV. unfold h2o_env_of. cbn [e_pvap e_pda]. intros KV. apply (k_minus (fun s => (pd s + ek s) * _) _); [ra; kont|exact KV]. }
  unfold water_of. cbv zeta.
  set (rho := fun s => e_rho (h2o_env_of (A:=RA) m (pd s) (vx s) (ek s)) : R) in *. set (den := fun s => e_den (h2o_env_of (A:=RA) m (pd s) (vx s) (ek s)) : R) in *.
  set (pv := fun s => e_pvap (h2o_env_of (A:=RA) m (pd s) (vx s) (ek s)) : R) in *. set (pa := fun s => e_pda (h2o_env_of (A:=RA) m (pd s) (vx s) (ek s)) : R) in *.
  set (th := fun s => h_reftline ll / (300 / vx s)). set (tc := fun s => h_reftcon ll / (300 / vx s)).
  assert (KT : kc th x) by (unfold th; kont; try exact V; lra). assert (KC : kc tc x) by (unfold tc; kont; try exact V; lra).
  assert (TH : 0 < th x) by (apply div_pos; [apply G|exact T]). assert (TC : 0 < tc x) by (apply div_pos; [apply G|exact T]).
  change (0 <= pv x) in PV. change (0 < pa x) in PDA.
  match goal with |- kc ?g x => change g with (fun s => line_npkm m (rho s) (den s) (total (fun l : h2o_line RA => PI * (strength (h_s1 l) (h_b2 l) 2.5 (th s) * pair_of (width_of l (pa s) (pv s) (th s)) (h_fl l) (shift_of m l (pa s) (pv s) (th s)) (f s))) (h_lines ll)) + con_of m ll (pa s) (pv s) (tc s) (f s)) end.
  clearbody rho den pv pa th tc.
  assert (KL : kc (fun s => total (fun l : h2o_line RA => PI * (strength (h_s1 l) (h_b2 l) 2.5 (th s) * pair_of (width_of l (pa s) (pv s) (th s)) (h_fl l) (shift_of m l (pa s) (pv s) (th s)) (f s))) (h_lines ll)) x).
  { apply (k_total (fun s (l : h2o_line RA) => PI * (strength (h_s1 l) (h_b2 l) 2.5 (th s) * pair_of (width_of l (pa s) (pv s) (th s)) (h_fl l) (shift_of m l (pa s) (pv s) (th s)) (f s)))).
    intros l Hl. destruct (proj1 (Forall_forall _ _) Sh l Hl) as (_ & W1 & W2).
    assert (KW : kc (fun s => width_of l (pa s) (pv s) (th s)) x) by (unfold width_of; kont; exact TH).
    apply (k_mult (fun _ => PI) (fun s => strength (h_s1 l) (h_b2 l) 2.5 (th s) * pair_of (width_of l (pa s) (pv s) (th s)) (h_fl l) (shift_of m l (pa s) (pv s) (th s)) (f s))); [apply k_const|].
    apply (k_mult (fun s => strength (h_s1 l) (h_b2 l) 2.5 (th s)) (fun s => pair_of (width_of l (pa s) (pv s) (th s)) (h_fl l) (shift_of m l (pa s) (pv s) (th s)) (f s))).
    - unfold strength. kont; exact TH.
    - apply (k_pair (fun s => width_of l (pa s) (pv s) (th s)) (fun s => shift_of m l (pa s) (pv s) (th s)) f); [|exact KW| |exact Kf].
      + unfold width_of. assert (R1 := Rpower_pos (th x) (h_x l)). assert (R2 := Rpower_pos (th x) (h_xs l)).
        assert (0 < h_w0 l * pa x * Rpower (th x) (h_x l)) by (apply Rmult_lt_0_compat; [apply Rmult_lt_0_compat; assumption|exact R1]).
        assert (0 <= h_w0s l * pv x * Rpower (th x) (h_xs l)) by (apply Rmult_le_pos; [apply Rmult_le_pos; assumption|lra]). lra.
      + unfold shift_of. destruct (String.eqb m "R98"); [kont|]. destruct (String.eqb m "R03"); [apply (k_mult (fun _ => _) _); [apply k_const|exact KW]|].
        destruct (str_in m ["R16"; "R17"]); [kont; exact TH|]. destruct (String.eqb m "R18"); kont; exact TH. }
  set (tot := fun s => total _ _) in KL.
  apply (k_plus (fun s => line_npkm m (rho s) (den s) (tot s)) (fun s => con_of m ll (pa s) (pv s) (tc s) (f s))).
  - unfold line_npkm. destruct (str_in m ["R22SD"; "R23SD"; "R24"]); clearbody tot; kont. assert (PP := PI_RGT_0). all: try lra.
  - unfold con_of. destruct (str_in m ["R03"; "R98"]); kont; exact TC.
Qed.

(** ** Oxygen *)

(** The oxygen terms as functions of the state. *)
Definition dry_of (m : string) (ll : o2_ll RA) (pd vx ek : R) : R := q_presda (o2_env_of (A:=RA) m ll pd vx ek).
Definition o2_state (m : string) (ll : o2_ll RA) (pd vx ek : R) : o2_env RA :=
  let pr := 10 * (pd + ek) in let dry := dry_of m ll pd vx ek in let den := effective m (o_x ll) dry (pr - dry) vx in
  mkO2Env (A:=RA) vx (vx - 1) (Rpower vx (o_x ll)) pr dry den den (den * den) (o_wb300 ll * den).

Lemma o2_state_eq m ll pd' vx' ek' : In m (first_order ++ second_order)%list -> 0 < vx' -> 0 <= ek' -> o2_env_of (A:=RA) m ll pd' vx' ek' = o2_state m ll pd' vx' ek'.
Proof.
  intros Hm Hv He.
  destruct (o2_env_spec m ll pd' vx' ek' Hv He ltac:(apply in_app_iff in Hm; apply in_app_iff; destruct Hm; [left|right; apply in_app_iff; left]; assumption)) as (pv & _ & Q1 & Q2 & Q3 & Q4 & Q5 & Q6 & Q7 & Q8 & Q9). cbv zeta in *.
  unfold o2_state, dry_of. cbv zeta. set (q := o2_env_of (A:=RA) m ll pd' vx' ek') in *. clearbody q. destruct q as [a b c d e0 h i j k]. cbn [q_th q_th1 q_b q_pres q_presda q_den q_pe1 q_pe2 q_dfnr] in *.
  replace (10 * (pd' + ek') - e0) with pv by (rewrite Q5; ra; ring).
  replace (String.eqb m "R23") with false in Q8 by (unfold first_order, second_order in Hm; cbn [In app] in Hm; repeat (destruct Hm as [<-|Hm]; [reflexivity|]); destruct Hm).
  rewrite Rmult_1_l in Q8. rewrite <- Q5 in Q6. subst. reflexivity.
Qed.

Lemma k_oxygen m ll : In m (first_order ++ second_order)%list -> o2_sound ll ->
  kc (fun s => o2_abs (A:=RA) m (o2_state m ll (pd s) (vx s) (ek s)) (o2_summ (A:=RA) m (o2_state m ll (pd s) (vx s) (ek s)) ll (f s)) (f s) +
    if str_in m ["R19"; "R19SD"; "R20"; "R20SD"; "R22"; "R22SD"; "R23"; "R24"] then 0 else o2_cont (A:=RA) m (o2_state m ll (pd s) (vx s) (ek s)) (f s)) x.
Proof.
  intros Hm [Gw Gl]. assert (V : vx x <> 0) by lra. assert (T : 0 < 300 / vx x) by (apply div_pos; lra).
  destruct (o2_env_spec m ll (pd x) (vx x) (ek x) Pv ltac:(lra) ltac:(apply in_app_iff in Hm; apply in_app_iff; destruct Hm; [left|right; apply in_app_iff; left]; assumption)) as (pv0 & P0 & _ & _ & _ & _ & Q5 & _). cbv zeta in *.
  assert (KD : kc (fun s => dry_of m ll (pd s) (vx s) (ek s)) x).
  { unfold dry_of, o2_env_of. cbn [q_presda].
    destruct (str_in m ["R22"; "R22SD"; "R23"; "R23SD"; "R24"]); [|destruct (str_in m ["R03"; "R16"; "R17"; "R18"; "R98"])]; ra; kont; try exact V;
      (replace (3000 / 10) with 300 by lra; apply Rgt_not_eq, Rmult_lt_0_compat; [lra|exact T]) || lra. }
  unfold o2_state. cbv zeta.
  change (q_presda (o2_env_of (A:=RA) m ll (pd x) (vx x) (ek x))) with (dry_of m ll (pd x) (vx x) (ek x)) in Q5.
  set (dry := fun s => dry_of m ll (pd s) (vx s) (ek s)) in *. change (dry x = 10 * (pd x + ek x) - pv0) in Q5.
  set (den := fun s => effective m (o_x ll) (dry s) (10 * (pd s + ek s) - dry s) (vx s)).
  assert (KN : kc den x) by (unfold den, effective; cbv zeta; kont; exact Pv).
  assert (DN : 0 < den x).
  { unfold den, effective. cbv zeta. assert (DP : 0 < dry x) by lra. set (ex := if String.eqb m "R98" then _ else _). assert (RP := Rpower_pos (vx x) ex).
    assert (0 < dry x * Rpower (vx x) ex) by (apply Rmult_lt_0_compat; assumption). replace (10 * (pd x + ek x) - dry x) with pv0 by lra.
    assert (0 <= pv0 * vx x) by (apply Rmult_le_pos; lra).
    destruct (str_in m ["R98"; "R03"; "R16"]); [replace (1.1 * pv0 * vx x) with (1.1 * (pv0 * vx x)) by ring|replace (1.2 * pv0 * vx x) with (1.2 * (pv0 * vx x)) by ring]; lra. }
  set (pr := fun s => 10 * (pd s + ek s)). assert (KP : kc pr x) by (unfold pr; kont).
  set (b := fun s => Rpower (vx s) (o_x ll)). assert (KB : kc b x) by (unfold b; kont; exact Pv).
  set (q := fun s => mkO2Env (A:=RA) (vx s) (vx s - 1) (b s) (pr s) (dry s) (den s) (den s) (den s * den s) (o_wb300 ll * den s)).
  match goal with |- kc ?g x => change g with (fun s => o2_abs (A:=RA) m (q s) (o2_summ (A:=RA) m (q s) ll (f s)) (f s) + if str_in m ["R19"; "R19SD"; "R20"; "R20SD"; "R22"; "R22SD"; "R23"; "R24"] then 0 else o2_cont (A:=RA) m (q s) (f s)) end.
  clearbody den dry pr b.
  assert (WB : 0 < o_wb300 ll * den x) by (apply Rmult_lt_0_compat; assumption).
  assert (DEB : forall c (r : U -> R), kc r x -> kc (fun s => c * f s * f s * (o_wb300 ll * den s) / (vx s * (f s * f s + (o_wb300 ll * den s) * (o_wb300 ll * den s))) * r s) x).
  { intros c r Kr. kont. apply Rgt_not_eq, Rmult_lt_0_compat; [exact Pv|]. assert (0 < f x * f x) by nra. assert (0 <= (o_wb300 ll * den x) * (o_wb300 ll * den x)) by apply Rle_0_sqr. lra. }
  assert (CS : kc (fun s => o2_summ (A:=RA) m (q s) ll (f s) : R) x).
  { assert (CT : forall (s0 : U -> R) (g : U -> o2_line RA -> R), kc s0 x -> (forall k, In k (o_lines ll) -> kc (fun s => g s k) x) ->
      kc (fun s => sum_from (A:=RA) (s0 s) (map (g s) (o_lines ll))) x).
    { intros s0 g H0 Hg. eapply k_ext; [intros s; apply sum_total|]. apply (k_plus s0 (fun s => total (g s) (o_lines ll))); [exact H0|apply k_total; exact Hg]. }
    assert (C0 : kc (fun s => if str_in m ["R03"; "R16"; "R17"; "R18"; "R98"] then lit (a:=RA) (Dec 0 10) else
       div (a:=RA) (mul (a:=RA) (mul (a:=RA) (mul (a:=RA) (lit (Dec 1584 100000000000000000000)) (f s)) (f s)) (q_dfnr (q s))) (mul (a:=RA) (q_th (q s)) (add (a:=RA) (mul (a:=RA) (f s) (f s)) (mul (a:=RA) (q_dfnr (q s)) (q_dfnr (q s)))))) x).
    { destruct (str_in m ["R03"; "R16"; "R17"; "R18"; "R98"]); [apply k_const|]. unfold q. cbn [q_dfnr q_th]. ra. eapply k_ext; [|apply (DEB (1584 / 100000000000000000000) (fun _ => 1)); apply k_const]. intros s. cbv beta. symmetry. apply Rmult_1_r. }
    rewrite Forall_forall in Gl.
    assert (SQ : forall a w, 0 < w -> a * a + w * w <> 0) by (intros a w Hw; assert (0 <= a * a) by apply Rle_0_sqr; assert (0 < w * w) by nra; lra).
    unfold o2_summ. cbv zeta. destruct (str_in m ["R03"; "R98"; "R17"; "R18"; "R19"; "R19SD"]).
    { apply (CT _ (fun s => o2_line_first (A:=RA) m (q s) (f s))); [exact C0|]. intros k Hk. assert (W : 0 < o_w300 k * den x) by (apply Rmult_lt_0_compat; [apply Gl; exact Hk|exact DN]).
      unfold o2_line_first, q. cbn [q_den q_pres q_b q_th1]. cbv zeta. destruct (str_in m ["R03"; "R98"]); ra; kont; rewrite ?powi2; apply SQ; exact W. }
    replace (String.eqb m "R23") with false by (unfold first_order, second_order in Hm; cbn [In app] in Hm; repeat (destruct Hm as [<-|Hm]; [reflexivity|]); destruct Hm).
    replace (String.eqb m "R24") with false by (unfold first_order, second_order in Hm; cbn [In app] in Hm; repeat (destruct Hm as [<-|Hm]; [reflexivity|]); destruct Hm).
    apply (CT _ (fun s => o2_line_second (A:=RA) (q s) (f s))); [exact C0|]. intros k Hk. assert (W : 0 < o_w300 k * den x) by (apply Rmult_lt_0_compat; [apply Gl; exact Hk|exact DN]).
    unfold o2_line_second, q. cbn [q_den q_pe2 q_th1]. cbv zeta. ra. kont; rewrite ?powi2; apply SQ; exact W. }
  set (S := fun s => o2_summ (A:=RA) m (q s) ll (f s) : R) in *.
  apply (k_plus (fun s => o2_abs (A:=RA) m (q s) (S s) (f s)) (fun s => if _ : bool then 0 else o2_cont (A:=RA) m (q s) (f s))).
  - clearbody S. unfold o2_abs, q. cbn [q_th q_presda]. cbv zeta.
    replace (String.eqb m "R23") with false by (unfold first_order, second_order in Hm; cbn [In app] in Hm; repeat (destruct Hm as [<-|Hm]; [reflexivity|]); destruct Hm).
    replace (String.eqb m "R24") with false by (unfold first_order, second_order in Hm; cbn [In app] in Hm; repeat (destruct Hm as [<-|Hm]; [reflexivity|]); destruct Hm).
    assert (MX : forall u : U -> R, kc u x -> kc (fun s => maxv (A:=RA) (u s) (lit (Dec 0 10))) x).
    { intros u Hu. eapply k_ext; [|apply (k_max u); exact Hu]. intros s. apply maxv_0. }
    assert (B : kc (fun s => if str_in m ["R03"; "R98"] then div (a:=RA) (mul (a:=RA) (mul (a:=RA) (mul (a:=RA) (lit (Dec 503400000000 1)) (S s)) (dry s)) (powi (A:=RA) (vx s) 3)) (lit (Dec 314159 100000))
       else mul (a:=RA) (mul (a:=RA) (mul (a:=RA) (lit (Dec 160970000000 1)) (S s)) (dry s)) (powi (A:=RA) (vx s) 3)) x).
    { destruct (str_in m ["R03"; "R98"]); ra; kont; lra. }
    destruct (str_in m ["R03"; "R98"]), (negb (String.eqb m "R98")), (str_in m ["R20"; "R20SD"; "R22"; "R22SD"]);
      repeat (lazymatch goal with
        | |- kc (fun s => maxv (@?u s) _) x => apply (MX u)
        | |- kc (fun s => mul (lit (Dec 1004 1000)) (@?u s)) x => apply (k_mult (fun _ => lit (a:=RA) (Dec 1004 1000)) u); [apply k_const|]
        end; cbv beta); exact B.
  - destruct (str_in m _); [apply k_const|]. unfold o2_cont, q. cbn [q_th q_dfnr q_presda]. cbv zeta. destruct (str_in m ["R03"; "R98"]); ra; apply DEB; kont; lra.
Qed.

(** ** Nitrogen *)

Definition n2_of (m : string) (t p f : R) : R :=
  if String.eqb m "MWL24" then 0.84 * (mwl_spec f * Rpower (300 / t) (mwl_m0 f + mwl_aa f * ln (300 / t)) * (mwl_pot t / mwl_pot 300) * ((p * 0.7500616827) * (p * 0.7500616827)) * (f * f) * 1.0e5)
  else let '(l, y, n) := n2_coef m in n * (l * n2_fdep m f * p * p * f * f * Rpower (300 / t) y).
Lemma n2_value m t p f' : In m n2_models -> 0 < t -> n2_absorption (A:=RA) m t p f' = Ok (n2_of m t p f').
Proof.
  intros Hm Ht. unfold n2_of. destruct (String.eqb_spec m "MWL24") as [->|N]; [apply n2_mwl; exact Ht|]. rewrite n2_std by assumption. reflexivity.
Qed.
Lemma k_n2 m (t p : U -> R) : 0 < t x -> kc t x -> kc p x -> kc (fun s => n2_of m (t s) (p s) (f s)) x.
Proof.
  intros Ht Kt Kp'. assert (V : 0 < 300 / t x) by (apply div_pos; lra). unfold n2_of.
  assert (SQ : forall a, 1 + a * a <> 0) by (intros a; assert (0 <= a * a) by apply Rle_0_sqr; lra).
  destruct (String.eqb m "MWL24").
  - assert (K3 := pot_pos 300 ltac:(lra)). set (c3 := mwl_pot 300) in *. clearbody c3. unfold mwl_spec, mwl_m0, mwl_aa, mwl_pot. kont; try apply SQ; try exact V; try lra.
  - destruct (n2_coef m) as [[l y] n]. unfold n2_fdep. destruct (String.eqb m "R98"); kont; try apply SQ; try exact V; lra.
Qed.
End Paths.

(** ** C150 *)

Definition space := prod_UniformSpace R_UniformSpace (prod_UniformSpace R_UniformSpace (prod_UniformSpace R_UniformSpace R_UniformSpace)).
Definition s_f (s : space) : R := fst s.
Definition s_p (s : space) : R := fst (snd s).
Definition s_t (s : space) : R := fst (snd (snd s)).
Definition s_e (s : space) : R := snd (snd (snd s)).
Lemma k_f s : kc s_f s. Proof. destruct s as [f r]. apply (continuous_fst (U:=R_UniformSpace)). Qed.
Lemma k_rest s : continuous (snd : space -> _) s. Proof. destruct s as [f r]. apply (continuous_snd (U:=R_UniformSpace)). Qed.
Lemma k_p s : kc s_p s.
Proof. apply (continuous_comp (snd : space -> _) (fun y => fst y)); [apply k_rest|]. destruct (snd s) as [a b]. apply (continuous_fst (U:=R_UniformSpace)). Qed.
Lemma k_rest2 s : continuous (fun s : space => snd (snd s)) s.
Proof. apply (continuous_comp (snd : space -> _) (fun y => snd y)); [apply k_rest|]. destruct (snd s) as [a b]. apply (continuous_snd (U:=R_UniformSpace)). Qed.
Lemma k_t s : kc s_t s.
Proof. apply (continuous_comp (fun s : space => snd (snd s)) (fun y => fst y)); [apply k_rest2|]. destruct (snd (snd s)) as [a b]. apply (continuous_fst (U:=R_UniformSpace) (V:=R_UniformSpace)). Qed.
Lemma k_e s : kc s_e s.
Proof. apply (continuous_comp (fun s : space => snd (snd s)) (fun y => snd y)); [apply k_rest2|]. destruct (snd (snd s)) as [a b]. apply (continuous_snd (U:=R_UniformSpace) (V:=R_UniformSpace)). Qed.

Lemma joint_of (k : space -> R) (h : R -> R -> R -> R -> R) f p t e : (forall f' p' t' e', sky f' p' t' e' -> h f' p' t' e' = k (f', (p', (t', e')))) -> sky f p t e ->
  kc k (f, (p, (t, e))) -> joint h f p t e.
Proof.
  intros E Hs K eps He. destruct (proj1 (filterlim_locally k (k (f, (p, (t, e))))) K (mkposreal eps He)) as [d H]. exists d. split; [apply cond_pos|].
  intros f' p' t' e' Hs' (A1 & A2 & A3 & A4). rewrite !E by assumption.
  exact (H (f', (p', (t', e'))) (conj A1 (conj A2 (conj A3 A4)))).
Qed.

(** Dry and wet absorption of one level without ozone: functions of frequency, pressure, temperature and vapour pressure without jumps. *)
Theorem C150_level (g : globals RA) mw mo mn lw lo : g_h2o g = Some mw -> g_h2oll g = Some lw -> In mw std_models -> good_h2o lw -> List.Forall sharp (h_lines lw) ->
  g_o2 g = Some mo -> g_o2ll g = Some lo -> In mo (first_order ++ second_order)%list -> o2_sound lo -> g_n2 g = Some mn -> In mn n2_models ->
  exists aw ad : R -> R -> R -> R -> R, (forall f p t e, sky f p t e -> clearsky_level (A:=RA) g None f p t e None = Ok (aw f p t e, ad f p t e)) /\
    forall f p t e, sky f p t e -> joint aw f p t e /\ joint ad f p t e.
Proof.
  intros Gw Gl Hw Lw Sw Go Gol Ho Lo Gn Hn.
  pose (ox := fun f pd vx ek => let q := o2_state mo lo pd vx ek in o2_abs (A:=RA) mo q (o2_summ (A:=RA) mo q lo f) f + (if str_in mo ["R19"; "R19SD"; "R20"; "R20SD"; "R22"; "R22SD"; "R23"; "R24"] then 0 else o2_cont (A:=RA) mo q f) : R).
  exists (fun f p t e => water_of mw lw f ((p - e) / 10) (300 / t) (e / 10)), (fun f p t e => ox f ((p - e) / 10) (300 / t) (e / 10) + n2_of mn t (p - e) f). split.
  - intros f p t e (Hf & Ht & He & Hpe). assert (V : 0 < 300 / t) by (apply div_pos; lra).
    destruct (water_value mw lw ((p - e) / 10) (300 / t) (e / 10) f Hw Lw V ltac:(lra) ltac:(lra) Hf) as (nw & cw & EW & VW).
    assert (N1 := n2_value mn t (p - e) f Hn Ht).
    assert (R : exists r, clearsky_level (A:=RA) g None f p t e None = Ok r).
    { unfold clearsky_level. cbv zeta. unfold h2o_call, o2_call, n2_call, o3_call, over. rewrite Gw, Gl, Go, Gol, Gn. cbn [mname].
      match goal with |- context [h2o_absorption mw lw ?a ?b ?c f] => destruct (std_returns mw lw a b c f Hw) as (n & c' & ->) end. cbn [bind].
      match goal with |- context [n2_absorption mn ?a ?b f] => assert (X : exists v, n2_absorption (A:=RA) mn a b f = Ok v) by (apply (proj1 (C54_names RA mn a b f)); exact Hn); destruct X as (v & X) end.
      destruct mn as [|c0 s0]; [eexists; reflexivity|]. rewrite X. eexists. reflexivity. }
    destruct R as ([aw ad] & R). destruct (C53_level g None f p t e None aw ad R) as (nw' & cw' & no' & co' & an & ao & H1 & H2 & H3 & H4 & -> & ->).
    unfold h2o_call, over in H1. rewrite Gw, Gl in H1. rewrite EW in H1. apply ok_inj in H1. injection H1 as <- <-.
    unfold o2_call, over in H2. rewrite Go, Gol in H2. cbn [mname] in H2. apply ok_inj in H2.
    destruct (C53_o2_units mo lo ((p - e) / 10) (300 / t) (e / 10) f no' co' ltac:(lra) H2) as [VO1 VO2]. cbv zeta in VO1, VO2.
    rewrite (o2_state_eq mo lo) in VO1, VO2 by (assumption || lra).
    unfold n2_call in H3. rewrite Gn in H3. assert (H3' : n2_absorption (A:=RA) mn t (p - e) f = Ok an).
    { destruct mn as [|c0 s0]; [exfalso; unfold n2_models in Hn; cbn [In] in Hn; repeat (destruct Hn as [Hn|Hn]; [discriminate|]); destruct Hn|exact H3]. }
    rewrite N1 in H3'. apply ok_inj in H3'. subst an. cbn in H4. apply ok_inj in H4. subst ao. rewrite R, VW, VO1, VO2. do 2 f_equal. unfold ox. cbv zeta. ra. lra.
  - intros f p t e Hs. assert (Hs' := Hs). destruct Hs' as (Hf & Ht & He & Hpe). assert (V : 0 < 300 / t) by (apply div_pos; lra).
    set (x := (f, (p, (t, e))) : space). assert (Kf := k_f x). assert (Kp := k_p x). assert (Kt := k_t x). assert (Ke := k_e x).
    assert (K1 : kc (fun s => (s_p s - s_e s) / 10) x) by (kont; lra). assert (K2 : kc (fun s => 300 / s_t s) x) by (kont; change (t <> 0); lra). assert (K3 : kc (fun s => s_e s / 10) x) by (kont; lra).
    assert (K4 : kc (fun s => s_p s - s_e s) x) by kont.
    assert (B1 : 0 < (s_p x - s_e x) / 10) by (change (0 < (p - e) / 10); lra). assert (B2 : 0 <= s_e x / 10 <= 1000 * ((s_p x - s_e x) / 10)) by (change (0 <= e / 10 <= 1000 * ((p - e) / 10)); lra).
    split.
    + apply (joint_of (fun s => water_of mw lw (s_f s) ((s_p s - s_e s) / 10) (300 / s_t s) (s_e s / 10))); [reflexivity|exact Hs|].
      apply (k_water x s_f (fun s => (s_p s - s_e s) / 10) (fun s => 300 / s_t s) (fun s => s_e s / 10)); assumption.
    + apply (joint_of (fun s => ox (s_f s) ((s_p s - s_e s) / 10) (300 / s_t s) (s_e s / 10) + n2_of mn (s_t s) (s_p s - s_e s) (s_f s))); [reflexivity|exact Hs|].
      apply (k_plus (fun s => ox (s_f s) ((s_p s - s_e s) / 10) (300 / s_t s) (s_e s / 10)) (fun s => n2_of mn (s_t s) (s_p s - s_e s) (s_f s))).
      * apply (k_oxygen x s_f (fun s => (s_p s - s_e s) / 10) (fun s => 300 / s_t s) (fun s => s_e s / 10)); assumption.
      * apply (k_n2 x s_f Kf mn s_t (fun s => s_p s - s_e s)); assumption.
Qed.

(** With the shipped lists. *)
Theorem C150_shipped m (g : globals RA) : In m std_models -> g_h2o g = Some m -> g_o2 g = Some m -> g_n2 g = Some m ->
  g_h2oll g = db_h2o (@shipped RA) m -> g_o2ll g = db_o2 (@shipped RA) m ->
  exists aw ad : R -> R -> R -> R -> R, (forall f p t e, sky f p t e -> clearsky_level (A:=RA) g None f p t e None = Ok (aw f p t e, ad f p t e)) /\
    forall f p t e, sky f p t e -> joint aw f p t e /\ joint ad f p t e.
Proof.
  intros Hm G1 G2 G3 G4 G5.
  assert (Mo : In m plain_o2_names) by (unfold std_models, plain_o2_names in *; cbn [In] in *; tauto).
  destruct (shipped_h2o_D m Hm) as (xw & lw & _ & W2 & _ & W4 & W5). destruct (shipped_o2_D m Mo) as (_ & xo & lo & _ & O2 & _ & O4 & O5).
  apply (C150_level g m m m lw lo); auto; try congruence.
  - unfold first_order, second_order, std_models in *. cbn [In app] in *. tauto.
  - split; [exact O5|]. eapply Forall_impl; [|exact O4]. intros k (_ & K). exact K.
  - unfold n2_models, std_models in *. cbn [In] in *. tauto.
Qed.

(** Drying the air: as the vapour pressure goes to zero the wet absorption goes to zero. *)
Theorem C150_drying m (g : globals RA) f p t : In m std_models -> g_h2o g = Some m -> g_o2 g = Some m -> g_n2 g = Some m ->
  g_h2oll g = db_h2o (@shipped RA) m -> g_o2ll g = db_o2 (@shipped RA) m -> 0 < f -> 0 < p -> 0 < t ->
  forall eps, 0 < eps -> exists delta, 0 < delta /\ forall e, 0 <= e < delta ->
    exists aw ad, clearsky_level (A:=RA) g None f p t e None = Ok (aw, ad) /\ Rabs aw < eps.
Proof.
  intros Hm G1 G2 G3 G4 G5 Hf Hp Ht eps He. destruct (C150_shipped m g Hm G1 G2 G3 G4 G5) as (aw & ad & H & J).
  assert (S0 : sky f p t 0) by (repeat split; lra).
  assert (Z : aw f p t 0 = 0).
  { assert (E := H f p t 0 S0). destruct (C53_level g None f p t 0 None _ _ E) as (nw & cw & no & co & an & ao & H1 & _ & _ & _ & E1 & _).
    rewrite E1. destruct (shipped_h2o_D m Hm) as (xw & lw & _ & W2 & _). unfold h2o_call, over in H1. rewrite G1, G4, W2 in H1.
    replace (0 / 10) with 0 in H1 by lra. rewrite C57_no_vapour in H1 by (apply div_pos; lra). apply ok_inj in H1. injection H1 as <- <-.
    unfold npkm. ra. lra. }
  destruct (proj1 (J f p t 0 S0) eps He) as (d & Hd & K). exists (Rmin d (p / 2)). split; [apply Rmin_pos; lra|].
  intros e Hl. assert (M1 := Rmin_l d (p / 2)). assert (M2 := Rmin_r d (p / 2)). assert (S : sky f p t e) by (repeat split; lra).
  exists (aw f p t e), (ad f p t e). split; [apply H; exact S|]. replace (aw f p t e) with (aw f p t e - aw f p t 0) by (rewrite Z; ring).
  apply K; [exact S|]. unfold within4. replace (f - f) with 0 by ring. replace (p - p) with 0 by ring. replace (t - t) with 0 by ring. rewrite Rabs_R0, Rminus_0_r, Rabs_right by lra. repeat split; lra.
Qed.

Example C150_example : exists g : globals RA, exists delta, 0 < delta /\ forall t, 0 < t -> Rabs (t - 288) < delta ->
  exists aw ad aw' ad', clearsky_level (A:=RA) g None 22.235 1000 288 12 None = Ok (aw, ad) /\ clearsky_level (A:=RA) g None 22.235 1000 t 12 None = Ok (aw', ad') /\ Rabs (aw' - aw) < 1e-6.
Proof.
  pose (g := mkGlobals (A:=RA) (Some "R17") (Some "R17") (Some "R17") (Some "R17") None (db_h2o (@shipped RA) "R17") (db_o2 (@shipped RA) "R17") None true 1). exists g.
  destruct (C150_shipped "R17" g ltac:(unfold std_models; cbn [In]; tauto) eq_refl eq_refl eq_refl eq_refl eq_refl) as (aw & ad & H & J).
  assert (S0 : sky 22.235 1000 288 12) by (repeat split; lra).
  destruct (proj1 (J _ _ _ _ S0) 1e-6 ltac:(powers; lra)) as (d & Hd & K). exists d. split; [exact Hd|]. intros t Ht Hl.
  assert (S : sky 22.235 1000 t 12) by (repeat split; lra). do 4 eexists. split; [apply H; exact S0|]. split; [apply H; exact S|].
  apply K; [exact S|]. unfold within4. replace (22.235 - 22.235) with 0 by ring. replace (1000 - 1000) with 0 by ring. replace (12 - 12) with 0 by ring. rewrite Rabs_R0. repeat split; lra.
Qed.
