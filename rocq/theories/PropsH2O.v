(** Claims C57 (sign of water-vapour absorption) and C58 (self-continuum table), over the reals. *)

From Coq Require Import ZArith Reals Lra Lia Psatz String List Bool.
Import ListNotations.
From Verif Require Import Arith PyBase Utils Absorption Clear Spectrum Spec RealAux SolverGen LineData Lineshape PropsAbsN2 PropsLiq PropsClear PropsO2H2O.
Local Open Scope string_scope.
Open Scope R_scope.

(** ** C57 *)

(** The cut-off term subtracted from a resonance is its value at 750 GHz: what is left is non-negative inside the cut-off,
    and zero outside. *)
Lemma local_line_nonneg closed (w df : R) : 0 <= w -> 0 <= local_line (A:=RA) closed w (powi (A:=RA) w 2) (div (a:=RA) w (add (a:=RA) (lit (Dec 5625000 10)) (powi (A:=RA) w 2))) df.
Proof.
  intros Hw. unfold local_line. rewrite !powi2. ra.
  destruct (if closed then Rleb (Rabs df) (7500 / 10) else Rltb (Rabs df) (7500 / 10)) eqn:E; [|lra].
  assert (D : Rabs df <= 750).
  { destruct closed; [destruct (Rleb_spec (Rabs df) (7500 / 10)); try discriminate; lra|destruct (Rltb_spec (Rabs df) (7500 / 10)); try discriminate; lra]. }
  assert (D2 : df * df <= 562500).
  { replace (df * df) with (Rabs df * Rabs df) by (rewrite <- Rabs_mult; apply Rabs_pos_eq; nra). assert (A := Rabs_pos df). nra. }
  destruct (Req_dec w 0) as [->|Hn].
  - unfold Rdiv. rewrite !Rmult_0_l. lra.
  - assert (0 < w * w) by nra. assert (Hd := sq_nonneg df).
    assert (X : w / (5625000 / 10 + w * w) <= w / (df * df + w * w)).
    { apply Rmult_le_compat_l; auto. apply Rinv_le_contravar; lra. }
    lra.
Qed.

Record good_line (ln : h2o_line RA) : Prop := mkGood { gl_s : 0 <= h_s1 ln; gl_w : 0 <= h_w0 ln; gl_ws : 0 <= h_w0s ln }.

Lemma line_std_nonneg m (e : h2o_env RA) (f ti tiln ti2 : R) (ln : h2o_line RA) : good_line ln -> 0 <= e_pda e -> 0 <= e_pvap e -> 0 < ti -> 0 <= ti2 ->
  0 <= h2o_line_std (A:=RA) m e f ti tiln ti2 ln.
Proof.
  intros [Hs Hw Hws] Hp Hv Ht Ht2. unfold h2o_line_std. cbv zeta.
  match goal with |- context [local_line ?c ?w ?q ?b ?d] => set (W := w) end.
  assert (HW : 0 <= W).
  { unfold W. ra. rewrite !Rpowf_pos by auto. assert (A1 := Rpower_pos ti (h_x ln)). assert (A2 := Rpower_pos ti (h_xs ln)).
    apply Rplus_le_le_0_compat; apply Rmult_le_pos; try lra; apply Rmult_le_pos; auto. }
  clearbody W. rewrite powi2.
  match goal with |- context [add (add _ ?x) ?y] => 
    assert (L1 : 0 <= x) by (apply local_line_nonneg; exact HW); assert (L2 : 0 <= y) by (apply local_line_nonneg; exact HW); set (l1 := x) in *; set (l2 := y) in * end.
  clearbody l1 l2. ra. assert (X := exp_pos (h_b2 ln * (10 / 10 - ti))). assert (F := sq_nonneg (f / h_fl ln)).
  apply Rmult_le_pos; [|exact F]. apply Rmult_le_pos; [|lra]. apply Rmult_le_pos; [|lra]. apply Rmult_le_pos; auto.
Qed.

Lemma sum_from_nonneg (l : list R) (a : R) : 0 <= a -> (forall x, In x l -> 0 <= x) -> 0 <= sum_from (A:=RA) a l.
Proof.
  revert a. induction l as [|x r IH]; intros a Ha H; unfold sum_from in *; cbn [fold_left]; auto.
  apply IH; [assert (X := H x (or_introl eq_refl)); ra; lra|intros y Hy; apply H; right; auto].
Qed.

(** Partial pressures derived inside [h2o_absorption] from the arguments. *)
Lemma h2o_env_range m pd vx ek : 0 < vx -> 0 <= pd -> 0 <= ek ->
  let e := h2o_env_of (A:=RA) m pd vx ek in 0 < e_t e /\ 0 <= e_rho e /\ 0 <= e_pvap e /\ 0 <= e_pda e /\ 0 <= e_den e.
Proof.
  intros Hv Hp He e. destruct (pv_range ek vx Hv He) as (R1 & R2 & R3). cbv zeta in *.
  set (t := 300 / vx) in *. assert (Ht : 0 < t) by (apply div_pos; lra).
  assert (Hrho : 0 <= ek * 10 / (831451 / 10000000 / (1801528 / 100000) * t)).
  { apply div_nonneg; [lra|]. apply Rmult_lt_0_compat; lra. }
  set (rho := ek * 10 / (831451 / 10000000 / (1801528 / 100000) * t)) in *.
  assert (X : e_t e = t /\ e_rho e = rho).
  { unfold e, h2o_env_of. cbn [e_t e_rho]. ra. replace (3000 / 10) with 300 by lra. fold t. split; auto. unfold rho. replace (100 / 10) with 10 by lra.
    f_equal. f_equal. lra. }
  destruct X as [Et Er]. rewrite Et, Er. split; auto. split; auto.
  assert (PV : 0 <= e_pvap e <= 10 * ek).
  { assert (Y : e_pvap e = if str_in m ["R22SD"; "R23SD"; "R24"; "MWL24"] then 46152 / 100 * (1 / 100000) * rho * t
        else if str_in m ["R03"; "R16"; "R17"; "R98"] then rho * t / 217 else rho * t / (21668 / 100)).
    { transitivity (if str_in m ["R22SD"; "R23SD"; "R24"; "MWL24"] then 46152 / 100 * (1 / 100000) * e_rho e * e_t e
        else if str_in m ["R03"; "R16"; "R17"; "R98"] then e_rho e * e_t e / 217 else e_rho e * e_t e / (21668 / 100)); [|rewrite Et, Er; reflexivity].
      unfold e, h2o_env_of, k_Rwatvap. cbn [e_t e_rho e_pvap]. ra. destruct (str_in m ["R22SD"; "R23SD"; "R24"; "MWL24"]); [lra|]. destruct (str_in m ["R03"; "R16"; "R17"; "R98"]); lra. }
    rewrite Y. assert (0 <= rho * t) by (apply Rmult_le_pos; lra).
    destruct (str_in m ["R22SD"; "R23SD"; "R24"; "MWL24"]); [lra|]. destruct (str_in m ["R03"; "R16"; "R17"; "R98"]); lra. }
  split; [lra|]. split.
  - assert (Y : e_pda e = (pd + ek) * 10 - e_pvap e) by (unfold e, h2o_env_of; cbn [e_pda e_pvap]; ra; lra). lra.
  - assert (Y : e_den e = if str_in m ["R03"; "R16"; "R98"] then 33350000000000000 * e_rho e else 33440000000000000 * e_rho e).
    { unfold e, h2o_env_of. cbn [e_den e_rho]. destruct (str_in m ["R03"; "R16"; "R98"]); ra; lra. }
    rewrite Y, Er. destruct (str_in m ["R03"; "R16"; "R98"]); lra.
Qed.

(** What is asked of a line list. *)
Record good_h2o (ll : h2o_ll RA) : Prop := mkGoodLL {
  gh_lines : Forall good_line (h_lines ll); gh_reftcon : 0 < h_reftcon ll; gh_reftline : 0 < h_reftline ll;
  gh_cf : 0 <= h_cf ll; gh_cs : 0 <= h_cs ll }.

Lemma con1_nonneg m (ll : h2o_ll RA) (e : h2o_env RA) vx f : m <> "MWL24"%string -> (str_in m ["R03"; "R98"] = true \/ (0 <= h_cf ll /\ 0 <= h_cs ll)) -> 0 < h_reftcon ll ->
  0 < e_t e -> 0 <= e_pda e -> 0 <= e_pvap e -> 0 <= h2o_con1 (A:=RA) m ll e vx f.
Proof.
  intros Hm Hc Hr Ht Hp Hv. unfold h2o_con1. cbv zeta. replace (String.eqb m "MWL24") with false by (symmetry; apply String.eqb_neq; auto).
  assert (Hti : 0 < h_reftcon ll / e_t e) by (apply div_pos; auto).
  assert (F := sq_nonneg f).
  assert (X : forall a b : R, 0 <= a -> 0 <= b -> 0 <= (a + b) * e_pvap e * f * f).
  { intros a b Ha Hb. rewrite Rmult_assoc. apply Rmult_le_pos; auto. apply Rmult_le_pos; lra. }
  destruct (str_in m ["R03"; "R98"]).
  - rewrite powi3. ra. rewrite !Rpowf_pos by auto. set (ti := h_reftcon ll / e_t e) in *. clearbody ti. assert (A1 := Rpower_pos ti (75 / 10)). assert (T3 : 0 < ti * ti * ti) by (repeat apply Rmult_lt_0_compat; auto).
    apply X; (apply Rmult_le_pos; [|lra]); apply Rmult_le_pos; lra.
  - destruct Hc as [?|[Hf Hs]]; [discriminate|]. ra. rewrite !Rpowf_pos by auto. set (ti := h_reftcon ll / e_t e) in *. clearbody ti. assert (A1 := Rpower_pos ti (h_xcf ll)). assert (A2 := Rpower_pos ti (h_xcs ll)).
    apply X; (apply Rmult_le_pos; [|lra]); apply Rmult_le_pos; lra.
Qed.

Definition std_models := ["R98"; "R03"; "R16"; "R17"; "R18"; "R19"; "R20"].

Lemma std_cases m : In m std_models -> startswith m h2o_sd_models = false /\ str_in m ["R16"; "R03"; "R17"; "R98"; "R19"; "R20"; "R18"] = true /\
  str_in m ["R23SD"; "R24"] = false /\ str_in m ["R22SD"; "R23SD"] = false /\ String.eqb m "R24" = false /\ m <> "MWL24"%string.
Proof. unfold std_models. cbn [In]. intros H. intuition subst; try reflexivity; discriminate. Qed.

Lemma summ_std_nonneg m ll (e : h2o_env RA) f s : In m std_models -> Forall good_line (h_lines ll) -> 0 < h_reftline ll -> 0 < e_t e -> 0 <= e_pda e -> 0 <= e_pvap e ->
  h2o_summ (A:=RA) m ll e f = Some s -> 0 <= s.
Proof.
  intros Hm Hl Hr Ht Hp Hv H. destruct (std_cases m Hm) as (E1 & E2 & _). unfold h2o_summ in H. rewrite E1, E2 in H.
  apply (f_equal (fun o : option (car RA) => match o with Some x => x : R | None => 0 end)) in H. cbv beta iota zeta in H. rewrite <- H.
  apply sum_from_nonneg; [ra; lra|]. intros x Hx. apply in_map_iff in Hx. destruct Hx as (ln & <- & Hln).
  assert (0 < h_reftline ll / e_t e) by (apply div_pos; auto).
  apply line_std_nonneg; auto; [exact (proj1 (Forall_forall _ _) Hl ln Hln)|]. ra. rewrite Rpowf_pos by auto. apply Rlt_le, Rpower_pos.
Qed.

(** Lines and continuum of the models without speed-dependent shapes. *)
Theorem C57_h2o_nonnegative m (ll : h2o_ll RA) pd vx ek f n c : In m std_models -> good_h2o ll -> 0 < vx -> 0 <= pd -> 0 <= ek -> 0 < f ->
  h2o_absorption (A:=RA) m ll pd vx ek f = Ok (n, c) -> 0 <= n /\ 0 <= c.
Proof.
  intros Hm [Gl Gc Gr Gcf Gcs] Hv Hp He Hf H. destruct (h2o_env_range m pd vx ek Hv Hp He) as (E1 & E2 & E3 & E4 & E5).
  destruct (C53_h2o_units m ll pd vx ek f n c ltac:(lra) H) as [(_ & -> & ->)|(_ & s & con & Hs & Hc & Hn & Hcc)]; [split; lra|].
  destruct (std_cases m Hm) as (_ & _ & M1 & M2 & M3 & M4).
  assert (S := summ_std_nonneg m ll _ f s Hm Gl Gr E1 E4 E3 Hs).
  split; apply (npkm_sign f); auto.
  - rewrite Hn. unfold line_npkm. replace (str_in m ["R22SD"; "R23SD"; "R24"]) with false by (symmetry; revert M2 M3; unfold str_in; cbn [existsb]; destruct (String.eqb m "R22SD"), (String.eqb m "R23SD"), (String.eqb m "R24"); cbn [orb]; congruence). apply Rmult_le_pos; auto. apply Rmult_le_pos; lra.
  - rewrite Hcc. unfold h2o_con2 in Hc. rewrite M1 in Hc. apply ok_inj in Hc. rewrite <- Hc. apply con1_nonneg; auto.
Qed.

(** No vapour: no absorption, whatever the model and the line list. *)
Theorem C57_no_vapour m (ll : h2o_ll RA) pd vx f : 0 < vx -> h2o_absorption (A:=RA) m ll pd vx 0 f = Ok (lit (Dec 0 1), lit (Dec 0 1)).
Proof.
  intros Hv. unfold h2o_absorption.
  assert (E : e_rho (h2o_env_of (A:=RA) m pd vx 0) = 0).
  { unfold h2o_env_of. cbn [e_rho]. ra. unfold Rdiv. rewrite !Rmult_0_l. reflexivity. }
  match goal with |- context [@eqb ?A ?a ?b] => replace (@eqb A a b) with true by (symmetry; apply Reqb_true; rewrite E; ra; lra) end. reflexivity.
Qed.

(** These models always return. *)
Lemma std_returns m (ll : h2o_ll RA) pd vx ek f : In m std_models -> exists n c, h2o_absorption (A:=RA) m ll pd vx ek f = Ok (n, c).
Proof.
  intros Hm. destruct (std_cases m Hm) as (E1 & E2 & E3 & _). unfold h2o_absorption.
  destruct (@eqb RA _ _); [do 2 eexists; reflexivity|]. unfold h2o_summ. rewrite E1, E2. unfold h2o_con2. rewrite E3. cbv zeta. unfold bind.
  match goal with |- exists n c, Ok ?p = _ => exists (fst p), (snd p) end. reflexivity.
Qed.

(** The shipped lists. *)
Definition dec_nn (d : dec) : bool := match d with Dec n _ => Z.leb 0 n end.
Definition dec_pos (d : dec) : bool := match d with Dec n _ => Z.ltb 0 n end.
Lemma dec_nn_R d : dec_nn d = true -> 0 <= litR d.
Proof. destruct d as [n p]. cbn. intros H%Z.leb_le%IZR_le. apply div_nonneg; auto. apply (IZR_lt 0). lia. Qed.
Lemma dec_pos_R d : dec_pos d = true -> 0 < litR d.
Proof. destruct d as [n p]. cbn. intros H%Z.ltb_lt%IZR_lt. apply div_pos; auto. apply (IZR_lt 0). lia. Qed.

Definition row_ok (m : string) (r : list dec) : bool :=
  dec_nn (nth 2 r 0%dec) && dec_nn (nth 4 r 0%dec) && dec_nn (nth (if str_in m ["R03"; "R16"; "R17"] then 7 else 6) r 0%dec).
Definition ctr_ok (c : list dec) : bool := dec_pos (nth 0 c 0%dec) && dec_nn (nth 1 c 0%dec) && dec_nn (nth 3 c 0%dec).

Lemma row_good m r : row_ok m r = true -> good_line (h2o_row (A:=RA) m r).
Proof.
  unfold row_ok. rewrite !andb_true_iff. intros ((H2 & H4) & H6). apply dec_nn_R in H2, H4, H6.
  split; unfold h2o_row, col; cbn [h_s1 h_w0 h_w0s]; change (@lit RA) with litR in *.
  - exact H2.
  - apply div_nonneg; auto. cbn; lra.
  - destruct (str_in m ["R03"; "R16"; "R17"]); (apply div_nonneg; [exact H6|cbn; lra]).
Qed.

Lemma load_good m mtx ctr rl a b : forallb (row_ok m) mtx = true -> ctr_ok ctr = true -> dec_pos rl = true -> good_h2o (h2o_load (A:=RA) m mtx ctr rl a b).
Proof.
  intros H1 H2 H3. unfold ctr_ok in H2. rewrite !andb_true_iff in H2. destruct H2 as ((C0 & C1) & C3). apply dec_nn_R in C1, C3. apply dec_pos_R in C0, H3.
  split; cbn [h2o_load h_lines h_reftcon h_reftline h_cf h_cs]; auto.
  rewrite Forall_forall. intros x Hx. apply in_map_iff in Hx. destruct Hx as (r & <- & Hr). apply row_good. exact (proj1 (forallb_forall _ _) H1 r Hr).
Qed.

Theorem C57_shipped_lists m ll : In m std_models -> db_h2o (@shipped RA) m = Some ll -> good_h2o ll.
Proof.
  unfold std_models. cbn [In]. intros Hm H. change (shipped_h2o (A:=RA) m = Some ll) in H. unfold shipped_h2o in H.
  repeat (destruct Hm as [Hm|Hm]; [subst m; cbn [String.eqb Ascii.eqb Bool.eqb] in H;
    apply (f_equal (fun o : option (h2o_ll RA) => match o with Some l => l | None => ll end)) in H; cbv beta iota in H; rewrite <- H; apply load_good; vm_compute; reflexivity|]).
  contradiction.
Qed.

Theorem C57_shipped_nonnegative m ll pd vx ek f : In m std_models -> db_h2o (@shipped RA) m = Some ll ->
  0 < vx -> 0 <= pd -> 0 <= ek -> 0 < f -> exists n c, h2o_absorption (A:=RA) m ll pd vx ek f = Ok (n, c) /\ 0 <= n /\ 0 <= c.
Proof.
  intros Hm H Hv Hp He Hf. destruct (std_returns m ll pd vx ek f Hm) as (n & c & E). exists n, c. split; auto.
  exact (C57_h2o_nonnegative m ll pd vx ek f n c Hm (C57_shipped_lists m ll Hm H) Hv Hp He Hf E).
Qed.

Example C57_example : exists ll, db_h2o (@shipped RA) "R19" = Some ll /\ List.length (h_lines ll) = 16%nat /\
  exists n c, h2o_absorption (A:=RA) "R19" ll 98 (300 / 290) 1 22.235 = Ok (n, c) /\ 0 <= n /\ 0 <= c.
Proof.
  destruct (shipped_h2o (A:=RA) "R19") as [ll|] eqn:E; [|discriminate E]. exists ll. split; [exact E|]. split.
  - apply (f_equal (fun o : option (h2o_ll RA) => match o with Some l => List.length (h_lines l) | None => 0%nat end)) in E. cbv beta iota in E. rewrite <- E. vm_compute. reflexivity.
  - apply (C57_shipped_nonnegative "R19" ll); try lra; auto. unfold std_models. cbn [In]. tauto.
Qed.
