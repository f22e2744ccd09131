(** Generic facts about the weighting functions: what each row of the result is computed from.  Every arithmetic. *)

From Coq Require Import ZArith Lia String List Bool.
Import ListNotations.
From Verif Require Import Arith PyBase Utils RTE Absorption Clear Spectrum ListAux SolverGen SolverRun Registry PropsRun PropsObject PropsModels PropsSolverX Weighting.
Local Open Scope nat_scope.
Local Open Scope string_scope.

Section Gen.
Context {A : Arith}.
Notation num := (car A).

(** ** Lists and matrices *)

Lemma map2_length (f : num -> num -> num) a : forall b, length a = length b -> length (map2 f a b) = length a.
Proof. induction a; intros [|y b] H; simpl in *; try discriminate; auto. Qed.

Lemma map2_nth (f : num -> num -> num) a d1 d2 d : forall b i, length a = length b -> i < length a ->
  nth i (map2 f a b) d = f (nth i a d1) (nth i b d2).
Proof. induction a; intros [|y b] [|i] H Hi; simpl in *; try discriminate; try lia; auto. apply IHa; lia. Qed.

Lemma cumsum_from_length (l : list num) : forall acc, length (cumsum_from acc l) = length l.
Proof. induction l; intros; simpl; auto. Qed.
Lemma cumsum_length (l : list num) : length (cumsum l) = length l.
Proof. destruct l; simpl; auto. f_equal. apply cumsum_from_length. Qed.

Lemma col_length j (m : matrix A) : length (col j m) = length m.
Proof. apply map_length. Qed.

(** All rows of length [n]. *)
Definition rect (n : nat) (m : matrix A) : Prop := forall r, In r m -> length r = n.

Lemma rect_ncols n m : rect n m -> m <> [] -> ncols m = n.
Proof. destruct m as [|r m]; intros H Hm; [congruence|]. apply H. left; auto. Qed.

Lemma rect_nth n m j : rect n m -> j < length m -> length (nth j m []) = n.
Proof. intros H Hj. apply H, nth_In; auto. Qed.

(** One row of the weights, from the opacities and absorptions of that row alone. *)
Definition row_trans (sat : bool) (l0 : nat) (t : list num) : list num :=
  map (fun x => expf (opp x)) (if sat then rev (cumsum (rev (firstn (l0 + 1) t))) else cumsum (skipn l0 t)).
Definition row_weights (sat : bool) (l0 : nat) (t a : list num) : list num :=
  map2 mul (row_trans sat l0 t) (if sat then firstn (l0 + 1) a else skipn l0 a).

Definition cut (sat : bool) (l0 n : nat) : nat := if sat then Nat.min (l0 + 1) n else n - l0.

Lemma row_trans_length sat l0 t : length (row_trans sat l0 t) = cut sat l0 (length t).
Proof.
  unfold row_trans, cut. rewrite map_length. destruct sat.
  - rewrite rev_length, cumsum_length, rev_length, firstn_length. reflexivity.
  - rewrite cumsum_length, skipn_length. reflexivity.
Qed.

Lemma row_weights_length sat l0 t a : length t = length a -> length (row_weights sat l0 t a) = cut sat l0 (length t).
Proof.
  intros E. unfold row_weights. rewrite map2_length; rewrite row_trans_length; [reflexivity|].
  rewrite E. destruct sat; cbn [cut]; [rewrite firstn_length|rewrite skipn_length]; reflexivity.
Qed.

(** The reversal of the frequency axis around the cumulative sum cancels; transposing twice as well. *)
Theorem weights_rows sat l0 n (tau abs : matrix A) : rect n tau -> rect n abs -> length tau = length abs -> tau <> [] ->
  0 < cut sat l0 n ->
  weights sat l0 tau abs = map (fun '(t, a) => row_weights sat l0 t a) (combine tau abs).
Proof.
  intros Ht Ha L Hne Hc. unfold weights.
  set (cutm := fun m : matrix A => if sat then map (firstn (l0 + 1)) m else map (skipn l0) m).
  set (trans := map (map (fun x => expf (opp x))) (if sat then fliplr (rev (map cumsum (rev (fliplr (map (firstn (l0 + 1)) tau))))) else map cumsum (map (skipn l0) tau))).
  assert (Etr : trans = map (row_trans sat l0) tau).
  { unfold trans, row_trans, fliplr. destruct sat.
    - rewrite (map_rev cumsum), rev_involutive, !map_map. reflexivity.
    - rewrite !map_map. reflexivity. }
  replace (map (map (fun x => expf (opp x))) _) with trans.
  2:{ unfold trans. destruct sat; reflexivity. }
  replace (if sat then map (firstn (l0 + 1)) abs else map (skipn l0) abs) with (cutm abs) by reflexivity.
  rewrite Etr. set (T := map (row_trans sat l0) tau).
  assert (RT : rect (cut sat l0 n) T).
  { intros r Hr. apply in_map_iff in Hr. destruct Hr as (t & <- & Hin). rewrite row_trans_length, (Ht t Hin). reflexivity. }
  assert (NT : T <> []) by (unfold T; destruct tau; [congruence|discriminate]).
  assert (LT : length T = length tau) by (unfold T; apply map_length).
  assert (LA : length (cutm abs) = length tau) by (unfold cutm; destruct sat; rewrite map_length; auto).
  assert (RA_ : rect (cut sat l0 n) (cutm abs)).
  { intros r Hr. unfold cutm in Hr. destruct sat; apply in_map_iff in Hr; destruct Hr as (a & <- & Hin); cbn [cut].
    - rewrite firstn_length, (Ha a Hin). reflexivity.
    - rewrite skipn_length, (Ha a Hin). reflexivity. }
  rewrite (rect_ncols _ _ RT NT).
  set (C := map (fun j => map2 mul (col j T) (col j (cutm abs))) (seq 0 (cut sat l0 n))).
  assert (NC : ncols C = length tau).
  { unfold C, ncols. destruct (cut sat l0 n) eqn:E; [lia|]. cbn [seq map]. rewrite map2_length; rewrite !col_length; congruence. }
  apply (list_eq_nth _ _ []).
  - unfold transpose. rewrite !map_length, seq_length, combine_length, NC. lia.
  - unfold transpose at 1. rewrite map_length, seq_length, NC. intros j Hj.
    rewrite (nth_map_d _ _ _ ([], [])) by (rewrite combine_length; lia).
    rewrite combine_nth by auto. unfold transpose. rewrite NC, (nth_map_seq_d (fun i => col i C)) by auto.
    assert (E1 : nth j T [] = row_trans sat l0 (nth j tau [])) by (unfold T; apply nth_map_d; auto).
    assert (E2 : nth j (cutm abs) [] = if sat then firstn (l0 + 1) (nth j abs []) else skipn l0 (nth j abs [])).
    { unfold cutm. destruct sat; rewrite (nth_map_d _ _ _ []) by lia; reflexivity. }
    unfold row_weights. rewrite <- E1, <- E2.
    assert (N1 : length (nth j T []) = cut sat l0 n) by (apply RT, nth_In; lia).
    assert (N2 : length (nth j (cutm abs) []) = cut sat l0 n) by (apply RA_, nth_In; lia).
    apply (list_eq_nth _ _ (lit 0)).
    + rewrite col_length. unfold C. rewrite map_length, seq_length, map2_length by congruence. auto.
    + rewrite col_length. unfold C at 1. rewrite map_length, seq_length. intros k Hk.
      unfold col at 1. rewrite (nth_map_d _ _ _ []) by (unfold C; rewrite map_length, seq_length; auto).
      unfold C. rewrite (nth_map_seq_d (fun j => map2 mul (col j T) (col j (cutm abs)))) by auto.
      rewrite (map2_nth mul _ (lit 0) (lit 0)) by (rewrite ?col_length; lia).
      rewrite (map2_nth mul _ (lit 0) (lit 0)) by lia.
      unfold col. rewrite !(nth_map_d _ _ _ []) by lia. reflexivity.
Qed.

(** ** The run behind [generate_wf] *)

(** A weighting-function object with arrays of one length, none of them empty. *)
Record wfo (h : heap A) (w : wfobj A) : Prop := mkWfok {
  wk_z : hget h (w_z w) <> [];
  wk_p : length (hget h (w_p w)) = length (hget h (w_z w));
  wk_t : length (hget h (w_t w)) = length (hget h (w_z w));
  wk_rh : length (hget h (w_rh w)) = length (hget h (w_z w)) }.

(** Heap and solver object of the run, for a float emissivity. *)
Definition wheap (h : heap A) (w : wfobj A) (z0 : num) (nf : nat) (ev : num) : heap A :=
  (hset (h ++ [repeat (lit 1.0) nf]) (w_z w) (map (fun x => sub x z0) (hget h (w_z w))) ++ [repeat ev nf])%list.
Definition wobj (h : heap A) (w : wfobj A) (z0 : num) (frq : list num) : tbobj A :=
  mkObj (w_z w) (w_p w) (w_t w) (w_rh w) frq [w_angle w] None None true (w_sat w) false false false
    (length (hget h (w_z w))) (S (length h)) z0 None None
    [repeat (zero_cell (length (hget h (w_z w)))) (length frq)] [lit 0] [lit 0].

Lemma perform_eq db (g : globals A) h w frq ev z0 zs : w_frq w = Some frq -> w_es w = VFloat ev -> hget h (w_z w) = z0 :: zs ->
  perform db g h w =
  if all_truthy (diffs (hget h (w_z w))) then
    (wheap h w z0 (length frq) ev,
     do g2 <- set_ll_o2 db (with_o2 (init_absmdl g (w_model w)) last_oxygen);
     do x <- execute db g2 (wheap h w z0 (length frq) ev) (wobj h w z0 frq);
     let '(_, full, _, g3) := x in Ok (full, g3))
  else (h, Err SystemExit).
Proof.
  intros Hf He Hz. unfold perform. rewrite Hf. unfold tb_init, bool_gt0, bool_lt0.
  destruct (all_truthy (diffs (hget h (w_z w)))); [|reflexivity].
  assert (V : w_z w < length h) by (apply hget_valid; rewrite Hz; discriminate).
  rewrite Hz. cbn [halloc]. rewrite hget_app_old by auto. rewrite Hz.
  change (String.eqb "" "") with true. cbv iota.
  cbn [set_satellite]. rewrite He. cbn [set_emissivity halloc o_frq o_es with_es o_z o_p o_tk o_rh o_angles o_o3n o_amu o_ray o_sat o_cloudy o_unc o_ice o_nl o_z0 o_levels o_dens o_cells o_sliq o_sice].
  unfold wheap, wobj. rewrite Hz. cbn [length repeat].
  replace (length (hset (h ++ [repeat (lit 1.0) (length frq)])%list (w_z w) (map (fun x => sub x z0) (z0 :: zs)))) with (S (length h)); [reflexivity|].
  unfold hset. rewrite length_upd, app_length. simpl. lia.
Qed.

Lemma wheap_get h w z0 nf ev a : a < length h ->
  hget (wheap h w z0 nf ev) a = hget (hset h (w_z w) (map (fun x => sub x z0) (hget h (w_z w)))) a.
Proof.
  intros Ha. unfold wheap.
  rewrite hget_app_old by (unfold hset; rewrite length_upd, app_length; simpl; lia).
  destruct (Nat.eq_dec a (w_z w)) as [->|N].
  - rewrite !hget_set_eq by (rewrite ?app_length; simpl; lia). reflexivity.
  - rewrite !hget_set_ne by auto. apply hget_app_old; auto.
Qed.

Lemma wheap_es h w z0 nf ev : hget (wheap h w z0 nf ev) (S (length h)) = repeat ev nf.
Proof.
  unfold wheap, hget. rewrite app_nth2; unfold hset; rewrite length_upd, app_length; cbn [length]; [|lia].
  replace (S (length h) - (length h + 1)) with 0 by lia. reflexivity.
Qed.

Lemma hget_len_set (h : heap A) a v b : length v = length (hget h a) -> length (hget (hset h a v) b) = length (hget h b).
Proof.
  intros H. destruct (Nat.eq_dec b a) as [->|N].
  - destruct (Nat.lt_ge_cases a (length h)); [rewrite hget_set_eq; auto|].
    unfold hget, hset. rewrite !nth_overflow by (rewrite ?length_upd; auto). reflexivity.
  - rewrite hget_set_ne; auto.
Qed.

Lemma wobj_wf h w z0 frq ev : wfo h w -> wf (wheap h w z0 (length frq) ev) (wobj h w z0 frq).
Proof.
  intros [Kz Kp Kt Kr].
  assert (Hn : length (hget h (w_z w)) <> 0) by (destruct (hget h (w_z w)); [congruence|discriminate]).
  assert (G : forall a, length (hget h a) = length (hget h (w_z w)) -> length (hget (wheap h w z0 (length frq) ev) a) = length (hget h (w_z w))).
  { intros a Ha. rewrite wheap_get.
    - rewrite hget_len_set; [auto|]. apply map_length.
    - apply hget_valid. intros E. rewrite E in Ha. simpl in Ha. congruence. }
  constructor; unfold wobj; cbn; auto; try discriminate.
  - rewrite wheap_es, repeat_length. auto.
  - intros cs [<-|[]]. apply repeat_length.
  - intros cs c [<-|[]] Hc. apply repeat_spec in Hc. subst c. unfold zero_cell. cbn. rewrite !repeat_length. auto.
Qed.

Lemma nth_repeat_lt {T} (x d : T) n k : k < n -> nth k (repeat x n) d = x.
Proof. intros H. rewrite (nth_indep _ _ x) by (rewrite repeat_length; auto). apply nth_repeat. Qed.

Lemma py_get_repeat (x : num) n k : k < n -> py_get (repeat x n) (Z.of_nat k) = Ok x.
Proof. intros H. rewrite (py_get_ok _ _ x) by (rewrite repeat_length; lia). rewrite nth_repeat_lt by lia. reflexivity. Qed.

(** The rows of the full output, one per frequency, all of the length of the profile. *)
Record full_row (n : nat) (r : row_full A) : Prop := mkFullRow {
  fr_wet : length (f_ptauwet r) = n; fr_dry : length (f_ptaudry r) = n; fr_liq : f_ptauliq r = repeat (lit 0) n;
  fr_ice : f_ptauice r = repeat (lit 0) n; fr_awet : length (f_awet r) = n; fr_adry : length (f_adry r) = n }.

Lemma perform_rows db (g : globals A) h w frq ev h' full g' : wfo h w -> w_frq w = Some frq -> w_es w = VFloat ev ->
  perform db g h w = (h', Ok (full, g')) ->
  exists af, full = [af] /\ length (an_rows af) = length frq /\
    (forall r, In r (an_rows af) -> full_row (length (hget h (w_z w))) r) /\
    exists z0 zs, hget h (w_z w) = z0 :: zs /\ h' = wheap h w z0 (length frq) ev.
Proof.
  intros K Hf He H. destruct (hget h (w_z w)) as [|z0 zs] eqn:Ez; [destruct (wk_z _ _ K); auto|].
  rewrite (perform_eq db g h w frq ev z0 zs Hf He Ez) in H. rewrite <- Ez.
  destruct (all_truthy _); [|discriminate]. injection H as E1 H. 
  inv_bind H g2 Eg. inv_bind H x Ex. destruct x as [[[fr fu] o'] g3]. inversion H; subst fu g3. clear H.
  assert (W := wobj_wf h w z0 frq ev K).
  destruct (execute_cell A db g2 _ _ _ _ _ _ W Ex) as (g1 & e & rho & dn & wn & rx & _ & _ & _ & Le & _ & Lfull & Hcell).
  cbn [wobj o_angles length o_frq] in Lfull. destruct full as [|af [|? ?]]; try discriminate.
  exists af. split; [reflexivity|].
  assert (Lr : length (an_rows af) = length frq).
  { apply execute_inv in Ex. destruct Ex as (g1' & r & _ & Hr & _ & Efull & _).
    destruct (run_shape _ _ _ _ r W Hr) as [_ Hrows]. destruct r as [|r0 [|? ?]]; try discriminate. cbn in Efull. injection Efull as ->.
    destruct (Hrows r0 (or_introl eq_refl)) as [L _]. exact L. }
  split; [exact Lr|]. split; [|exists z0, zs; auto].
  intros r Hr. destruct (in_nth (an_rows af) r r Hr) as (j & Hj & Ej). rewrite Lr in Hj.
  destruct (Hcell 0 j (lit 0) (zero_cell 0) (f_row r) af) as (ds & es & x & c & Eds & Lds & _ & Hc1 & Hc2 & Hrun & _ & Exr & _); [simpl; lia|exact Hj|].
  cbn [nth wobj o_cells] in Exr, Hc2, Hrun. assert (x = r) as ->.
  { rewrite Exr. rewrite <- Ej. apply nth_indep. lia. }
  assert (Kin := wf_in_ok _ _ e ds W Le Lds). 
  rewrite (nth_repeat_lt _ _ (length frq)) in Hrun by exact Hj.
  assert (Hcl : i_cloudy (inputs_of (wheap h w z0 (length frq) ev) (wobj h w z0 frq)) = false) by reflexivity.
  unfold run_cell in Hrun. rewrite Hcl in Hrun.
  inv_bind Hrun a Ea. destruct a as [aw ad]. inv_bind Hrun ww Ew. inv_bind Hrun dd Ed. cbn [bind] in Hrun.
  inv_bind Hrun pl Epl. inv_bind Hrun al Eal. inversion Hrun. clear Hrun.
  destruct ww as [ws wl]. destruct dd as [dd1 dl]. apply exp_int_length in Ew. apply exp_int_length in Ed.
  cbn [wobj o_nl] in Lds, Le. 
  apply clearsky_lengths in Ea.
  - destruct Ea as [La Lb].
    assert (Ltk : length (i_tk (inputs_of (wheap h w z0 (length frq) ev) (wobj h w z0 frq))) = length (hget h (w_z w))) by (apply (wf_tk _ _ W)).
    constructor; cbn; try congruence; reflexivity.
  - etransitivity; [apply (wf_p _ _ W)|]. symmetry. apply (wf_tk _ _ W).
  - etransitivity; [apply (wf_tk _ _ W)|]. symmetry. exact Le.
  - discriminate.
Qed.

(** Object with one frequency only. *)
Definition one_freq (w : wfobj A) (f : num) : wfobj A :=
  mkWfo (w_z w) (w_p w) (w_t w) (w_rh w) (Some [f]) (w_sat w) (w_es w) (w_model w) (w_angle w) (w_band w).

Lemma perform_single db (g : globals A) h w frq ev h' af g' j d dr : wfo h w -> w_frq w = Some frq -> w_es w = VFloat ev ->
  perform db g h w = (h', Ok ([af], g')) -> j < length frq ->
  exists h1 af1 g1, perform db g h (one_freq w (nth j frq d)) = (h1, Ok ([af1], g1)) /\ an_rows af1 = [nth j (an_rows af) dr] /\
    hget h1 (w_z w) = hget h' (w_z w).
Proof.
  intros K Hf He H Hj. destruct (hget h (w_z w)) as [|z0 zs] eqn:Ez; [destruct (wk_z _ _ K); auto|].
  rewrite (perform_eq db g h w frq ev z0 zs Hf He Ez) in H.
  rewrite (perform_eq db g h (one_freq w (nth j frq d)) [nth j frq d] ev z0 zs eq_refl He Ez).
  cbn [one_freq w_z w_model]. destruct (all_truthy _); [|discriminate]. injection H as E1 H. 
  destruct (set_ll_o2 db (with_o2 (init_absmdl g (w_model w)) last_oxygen)) as [g2|]; [|discriminate]. cbn [bind] in H |- *.
  inv_bind H x Ex. destruct x as [[[fr fu] o'] g3]. inversion H; subst fu g3. clear H.
  assert (W := wobj_wf h w z0 frq ev K).
  apply execute_inv in Ex. destruct Ex as (gg & r & Hg1 & Hr & _ & Efull & _ & _).
  destruct r as [|r0 [|? ?]]; try discriminate. cbn [map] in Efull. injection Efull as Eaf.
  apply run_all_inv in Hr. destruct Hr as (e & rho & dryn & wetn & refindx & Ev & Er & Hm).
  set (i := inputs_of (wheap h w z0 (length frq) ev) (wobj h w z0 frq)) in *.
  set (gs := with_sat gg (o_sat (wobj h w z0 frq))) in *.
  set (w1 := one_freq w (nth j frq d)). set (h1 := wheap h w1 z0 (length [nth j frq d]) ev).
  assert (Ei : inputs_of h1 (wobj h w1 z0 [nth j frq d]) = set_es i [ev]).
  { assert (Hn : length (hget h (w_z w)) <> 0) by (rewrite Ez; discriminate).
    assert (V : forall a, length (hget h a) = length (hget h (w_z w)) -> a < length h).
    { intros a Ha. apply hget_valid. intros E. rewrite E in Ha. simpl in Ha. congruence. }
    unfold inputs_of, i, set_es, h1. cbn [wobj o_z o_p o_tk o_rh o_o3n o_es o_z0 o_nl o_ray o_cloudy o_ice o_unc o_amu o_levels o_dens option_map
      i_z i_p i_tk i_rh i_o3n i_es i_z0 i_nl i_ray i_cloudy i_ice i_amu i_levels i_dens inputs_of w1 one_freq w_z w_p w_t w_rh w_angle w_sat].
    assert (G : forall a, length (hget h a) = length (hget h (w_z w)) ->
      hget (wheap h w1 z0 (length [nth j frq d]) ev) a = hget (wheap h w z0 (length frq) ev) a).
    { intros a Ha. rewrite !wheap_get by (apply V; auto). reflexivity. }
    rewrite !G by (auto; apply K). rewrite wheap_es. reflexivity. }
  cbn [wobj o_frq o_angles combine olds_of o_cells o_sliq o_sice mapM] in Hm.
  unfold olds_of in Hm. cbn [wobj o_frq o_angles combine olds_of o_cells o_sliq o_sice mapM] in Hm.
  inv_bind Hm ra Era. cbn [bind] in Hm. inversion Hm; subst ra. clear Hm.
  destruct (run_angle_single gs i frq e rho dryn wetn refindx (w_angle w) (repeat (zero_cell (length (hget h (w_z w)))) (length frq)) (lit 0) (lit 0)
              r0 j d (zero_cell (length (hget h (w_z w)))) dr ev Era) as (af1 & cs1 & Hrun & Hrows & _).
  { apply repeat_length. } { exact Hj. } { unfold i. cbn [inputs_of i_es wobj o_es]. rewrite wheap_es. apply py_get_repeat; auto. }
  rewrite nth_repeat_lt in Hrun by auto.
  exists h1, af1. eexists. split; [|split].
  - f_equal. unfold execute. rewrite Hg1. cbn [bind]. rewrite Ei.
    change (o_sat (wobj h w1 z0 [nth j frq d])) with (o_sat (wobj h w z0 frq)). fold gs.
    rewrite (run_all_intro gs (set_es i [ev]) _ _ _ e rho dryn wetn refindx Ev Er).
    unfold olds_of. cbn [wobj o_frq o_angles combine o_cells o_sliq o_sice mapM length repeat w1 one_freq w_angle w_z].
    rewrite Hrun. cbn [bind map fst]. reflexivity.
  - rewrite Hrows, Eaf. reflexivity.
  - subst h'. unfold h1. assert (V : w_z w < length h) by (apply hget_valid; rewrite Ez; discriminate).
    rewrite !wheap_get by auto. reflexivity.
Qed.

End Gen.
