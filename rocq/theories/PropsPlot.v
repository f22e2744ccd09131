(** Claims C93 (normalised satellite curves), C46 (setters of the weighting functions) and C115 (grouped plot). *)

From Coq Require Import ZArith Reals Lra Lia Psatz String List Bool.
Import ListNotations.
From Verif Require Import Arith PyBase Utils RTE Absorption Clear Spectrum Spec ListAux RealAux SolverGen SolverRun PropsLiq Weighting WeightingGen PropsWeighting PropsChannels PlotGroups.
Local Open Scope R_scope.

(** ** C46: setters of the weighting functions *)
Theorem C46_weighting (A : Arith) (h : heap A) (w : wfobj A) (v : pyval A) :
  (forall b, v = VBool b -> exists w', wf_set_satellite w v = Ok w' /\ w_sat w' = b /\ w_frq w' = w_frq w /\ w_z w' = w_z w /\ w_model w' = w_model w /\ w_es w' = w_es w) /\
  ((forall b, v <> VBool b) -> wf_set_satellite w v = Err ValueError) /\
  (forall a, v = VArr a -> exists w', wf_set_frequencies h w v = Ok w' /\ w_frq w' = Some (hget h a) /\ w_sat w' = w_sat w /\ w_z w' = w_z w /\ w_model w' = w_model w /\ w_es w' = w_es w) /\
  ((forall a, v <> VArr a) -> wf_set_frequencies h w v = Err ValueError).
Proof.
  repeat split.
  - intros b ->. eexists. split; [reflexivity|]. repeat split.
  - intros H. destruct v; try reflexivity. destruct (H b eq_refl).
  - intros a ->. eexists. split; [reflexivity|]. repeat split.
  - intros H. destruct v; try reflexivity. destruct (H a eq_refl).
Qed.

Example C46_weighting_example : wf_set_satellite (cx true [50] None) (VInt (A:=RA) 1) = Err ValueError /\
  exists w', wf_set_frequencies cx_h (cx true [50] None) (VArr (A:=RA) 1%nat) = Ok w' /\ w_frq w' = Some [1000; 900].
Proof.
  destruct (C46_weighting RA cx_h (cx true [50] None) (VInt (A:=RA) 1)) as (_ & H & _). split; [apply H; discriminate|].
  destruct (C46_weighting RA cx_h (cx true [50] None) (VArr (A:=RA) 1%nat)) as (_ & _ & H2 & _). destruct (H2 1%nat eq_refl) as (w' & E & F & _). eauto.
Qed.

(** ** Extremes of a list *)

(** [m] is the largest, or the smallest, entry of [l]. *)
Definition largest (l : list R) (m : R) : Prop := In m l /\ forall x, In x l -> x <= m.
Definition smallest (l : list R) (m : R) : Prop := In m l /\ forall x, In x l -> m <= x.

Lemma max_cases (a y : R) : (maxv (A:=RA) a y = a /\ y <= a) \/ (maxv (A:=RA) a y = y /\ a <= y).
Proof. unfold maxv. ra. destruct (Rltb_spec a y); [right|left]; split; auto; lra. Qed.
Lemma min_cases (a y : R) : (minv (A:=RA) a y = a /\ a <= y) \/ (minv (A:=RA) a y = y /\ y <= a).
Proof. unfold minv. ra. destruct (Rltb_spec y a); [right|left]; split; auto; lra. Qed.

Lemma max_loop (l : list R) : forall a, largest (a :: l) (fold_left (maxv (A:=RA)) l a).
Proof.
  induction l as [|y l IH]; intros a; cbn [fold_left]; [split; [left; reflexivity|intros x [<-|[]]; lra]|].
  destruct (IH (maxv (A:=RA) a y)) as [I1 I2]. assert (M := I2 _ (or_introl eq_refl)). revert I1 I2 M.
  destruct (max_cases a y) as [[-> H]|[-> H]]; intros I1 I2 M; (split; [destruct I1; cbn; auto|intros x [<-|[<-|Hx]]; try (apply I2; right; exact Hx); (eapply Rle_trans; [|exact M]; lra)]).
Qed.
Lemma min_loop (l : list R) : forall a, smallest (a :: l) (fold_left (minv (A:=RA)) l a).
Proof.
  induction l as [|y l IH]; intros a; cbn [fold_left]; [split; [left; reflexivity|intros x [<-|[]]; lra]|].
  destruct (IH (minv (A:=RA) a y)) as [I1 I2]. assert (M := I2 _ (or_introl eq_refl)). revert I1 I2 M.
  destruct (min_cases a y) as [[-> H]|[-> H]]; intros I1 I2 M; (split; [destruct I1; cbn; auto|intros x [<-|[<-|Hx]]; try (apply I2; right; exact Hx); (eapply Rle_trans; [exact M|]; lra)]).
Qed.
Lemma np_max_largest (l : list R) : l <> [] -> exists m, np_max (A:=RA) l = Ok m /\ largest l m.
Proof. destruct l as [|a l]; [congruence|]. intros _. eexists. split; [reflexivity|]. apply max_loop. Qed.
Lemma np_min_smallest (l : list R) : l <> [] -> exists m, np_min (A:=RA) l = Ok m /\ smallest l m.
Proof. destruct l as [|a l]; [congruence|]. intros _. eexists. split; [reflexivity|]. apply min_loop. Qed.

Lemma arg_loop_max (l : list R) : forall pre i best v, i = length pre -> (best < i)%nat -> nth best pre 0 = v -> (forall x, In x pre -> x <= v) ->
  forall x, In x (pre ++ l) -> x <= nth (arg_loop (A:=RA) (gtb (A:=RA)) l i best v) (pre ++ l) 0.
Proof.
  induction l as [|y l IH]; intros pre i best v Hi Hb Hv Hmin x Hx.
  - simpl. rewrite app_nil_r in Hx |- *. rewrite Hv. auto.
  - simpl. replace (pre ++ y :: l)%list with ((pre ++ [y]) ++ l)%list in * by (rewrite <- app_assoc; reflexivity).
    unfold gtb at 1. ra. destruct (Rltb_spec v y).
    + apply IH; auto.
      * rewrite app_length. simpl. lia.
      * rewrite app_nth2 by lia. subst i. rewrite Nat.sub_diag. reflexivity.
      * intros u Hu. apply in_app_or in Hu. destruct Hu as [Hu|[<-|[]]]; [apply Hmin in Hu; lra|lra].
    + apply IH; auto.
      * rewrite app_length. simpl. lia.
      * rewrite app_nth1 by lia. auto.
      * intros u Hu. apply in_app_or in Hu. destruct Hu as [Hu|[<-|[]]]; [auto|lra].
Qed.
Lemma argmax_max (l : list R) : l <> [] -> exists k, np_argmax (A:=RA) l = Ok k /\ (k < length l)%nat /\ forall x, In x l -> x <= nth k l 0.
Proof.
  destruct l as [|y l]; intros H; [congruence|]. eexists. split; [reflexivity|]. split.
  - apply (arg_loop_range (A:=RA) (gtb (A:=RA)) l 1 0 y). lia.
  - intros x Hx. apply (arg_loop_max l [y] 1 0 y); auto. intros u [<-|[]]; lra.
Qed.

Lemma get_removelast (zs : list R) k : (S k < length zs)%nat -> py_get (removelast zs) (Z.of_nat k) = Ok (nth k zs 0).
Proof. intros H. rewrite removelast_firstn_len, (py_get_ok _ _ 0) by (rewrite firstn_length; lia). rewrite nth_firstn_lt by lia. reflexivity. Qed.
Lemma get_nth (l : list R) k : (k < length l)%nat -> py_get l (Z.of_nat k) = Ok (nth k l 0).
Proof. apply py_get_ok. Qed.
Lemma get_row (l : list (list R)) k : (k < length l)%nat -> py_get l (Z.of_nat k) = Ok (nth k l []).
Proof. apply py_get_ok. Qed.

(** ** C93: normalised curves of a satellite *)

(** Heights without the last one; the weights of a channel without the first one. *)
Theorem C93_satellite_normalised h (w : wfobj RA) (wgt : list (list R)) (frq : list R) : w_sat w = true -> w_band w = None -> w_frq w = Some frq ->
  length wgt = length frq -> (2 <= length (hget h (w_z w)))%nat -> (forall r, In r wgt -> length r = length (hget h (w_z w))) ->
  exists cs, plot_wf (A:=RA) h w wgt true = Ok (w, cs) /\ length cs = length frq /\
  forall i c0, (i < length frq)%nat -> let r := nth i wgt [] in let c := nth i cs c0 in
    c_frq c = nth i frq 0 /\ c_y c = removelast (hget h (w_z w)) /\ length (c_x c) = length (c_y c) /\
    exists m, largest r m /\ (forall k, (S k < length r)%nat -> nth k (c_x c) 0 = nth (S k) r 0 / m) /\
      (0 < m -> (forall x, In x (c_x c) -> x <= 1) /\ (In 1 (c_x c) <-> In m (tl r))) /\
      exists k, (S k < length r)%nat /\ c_peak c = Some (nth k (hget h (w_z w)) 0) /\ forall j, (S j < length r)%nat -> nth (S j) r 0 <= nth (S k) r 0.
Proof.
  intros Hs Hb Hf Hl Hz Hr. unfold plot_wf. rewrite Hf, Hb. revert Hz Hr. generalize (hget h (w_z w)). change (car RA) with R. intros zs Hz Hr.
  assert (NE : forall r, In r wgt -> r <> []) by (intros r Hin E; apply Hr in Hin; rewrite E in Hin; cbn in Hin; lia).
  destruct (proj2 (mapM_ok_iff (np_max (A:=RA)) wgt)) as [norm En].
  { intros r Hin. destruct (np_max_largest r (NE r Hin)) as (m & -> & _). eauto. }
  unfold normalizers. rewrite En. cbn [bind]. assert (Ln := mapM_length _ _ _ En).
  set (F := plot_curve (A:=RA) (w_sat w) zs wgt norm).
  assert (RW : forall i, (i < length wgt)%nat -> tl (nth i wgt []) <> [] /\ length (tl (nth i wgt [])) = pred (length zs) /\ forall j, nth j (tl (nth i wgt [])) 0 = nth (S j) (nth i wgt []) 0).
  { intros i Hi. assert (L := Hr _ (nth_In wgt [] Hi)). destruct (nth i wgt []) as [|a [|b r]]; cbn in *; try lia. split; [discriminate|]. split; [lia|reflexivity]. }
  assert (EF : forall f i, (i < length wgt)%nat -> exists k, (S k < length zs)%nat /\
     F (f, i) = Ok (mkCurve (A:=RA) (map (fun x => x / nth i norm 0) (tl (nth i wgt []))) (removelast zs) f (Some (nth k zs 0))) /\
     forall x, In x (tl (nth i wgt [])) -> x <= nth (S k) (nth i wgt []) 0).
  { intros f i Hi. unfold F, plot_curve. rewrite (py_get_ok _ _ []) by auto. cbn [bind]. rewrite Hs.
    destruct (RW i Hi) as (R1 & R2 & R3). destruct (argmax_max _ R1) as (k & K1 & K2 & K3). exists k. split; [lia|].
    split; [|intros x Hx; rewrite <- R3; apply K3, Hx]. etransitivity; [apply (f_equal (fun m => bind m _)); exact K1|]. cbn [bind].
    etransitivity; [apply (f_equal (fun m => bind m _)); apply get_removelast; lia|]. cbn [bind].
    etransitivity; [apply (f_equal (fun m => bind m _)); apply (get_nth norm i); exact (eq_ind_r (fun n => (i < n)%nat) Hi Ln)|]. reflexivity. }
  destruct (proj2 (mapM_ok_iff F (combine frq (seq 0 (length frq))))) as [cs Ec].
  { intros [f i] Hin. apply in_combine_r in Hin. apply in_seq in Hin. destruct (EF f i ltac:(lia)) as (k & _ & -> & _). eauto. }
  exists cs. assert (Lc := mapM_length _ _ _ Ec). rewrite combine_length, seq_length, Nat.min_id in Lc.
  split; [etransitivity; [apply (f_equal (fun m => bind m _)); exact Ec|]; destruct w; cbn in *; subst; reflexivity|]. split; [exact Lc|].
  intros i c0 Hi. set (r := nth i wgt []). set (c := nth i cs c0). assert (N := mapM_nth _ _ cs i (0, 0%nat) c0 Ec ltac:(rewrite combine_length, seq_length; lia)).
  rewrite combine_nth, seq_nth in N by (rewrite ?seq_length; auto). cbn [Nat.add] in N.
  destruct (EF (nth i frq 0) i ltac:(lia)) as (k & K1 & K2 & K3). assert (N' := eq_trans (eq_sym K2) N). clear N. rename N' into N. apply ok_inj in N. fold c in N. fold r in N, K3.
  assert (Hi' : (i < length wgt)%nat) by lia.
  assert (Lr := Hr _ (nth_In wgt [] Hi')). fold r in Lr.
  assert (Em := mapM_nth _ _ norm i [] 0 En Hi'). fold r in Em.
  destruct (np_max_largest r (NE r (nth_In wgt [] Hi'))) as (m & E2 & G). assert (Em' := eq_trans (eq_sym E2) Em). apply ok_inj in Em'. rewrite <- Em' in N.
  rewrite <- N. cbn [c_frq c_y c_x c_peak]. clear N K2.
  assert (LT : length (tl r) = pred (length zs)) by (rewrite <- Lr; destruct r; reflexivity).
  split; [reflexivity|]. split; [reflexivity|]. split; [rewrite map_length, LT, removelast_firstn_len; change (car RA) with R; rewrite firstn_length; lia|].
  exists m. split; [exact G|]. 
  assert (TN : forall j, nth j (tl r) 0 = nth (S j) r 0) by (intros j; destruct r; [destruct j; reflexivity|reflexivity]).
  split; [intros j Hj; rewrite (nth_map_d _ _ _ 0) by lia; rewrite TN; reflexivity|].
  split.
  - intros Pm. destruct G as [G1 G2]. assert (TI : forall x, In x (tl r) -> x <= m) by (intros x Hx; apply G2; destruct r; [destruct Hx|right; exact Hx]).
    split.
    + intros x Hx. apply in_map_iff in Hx. destruct Hx as (y & <- & Hy). apply TI in Hy. apply (Rmult_le_reg_r m); [exact Pm|].
      replace (y / m * m) with y by (field; lra). lra.
    + rewrite in_map_iff. split.
      * intros (y & E & Hy). replace m with y; [exact Hy|]. apply (f_equal (fun x => x * m)) in E. replace (y / m * m) with y in E by (field; lra). lra.
      * intros Hm. exists m. split; [field; lra|exact Hm].
  - exists k. split; [lia|]. split; [reflexivity|]. intros j Hj. rewrite <- TN. apply K3. apply nth_In. lia.
Qed.

Example C93_satellite_example : exists cs, plot_wf (A:=RA) [[0; 1; 2]; [1000; 900; 800]; [290; 280; 270]; [0; 0; 0]] (cx true [50] None) [[1; 4; 2]] true = Ok (cx true [50] None, cs) /\
  length cs = 1%nat.
Proof.
  destruct (C93_satellite_normalised [[0; 1; 2]; [1000; 900; 800]; [290; 280; 270]; [0; 0; 0]] (cx true [50] None) [[1; 4; 2]] [50]) as (cs & H & L & _); try reflexivity.
  - cbn. lia.
  - intros r [<-|[]]. reflexivity.
  - eauto.
Qed.

(** ** C115: the grouped plot *)

(** Group of row [i]. *)
Fixpoint group_of (groups : list nat) (i : nat) : nat :=
  match groups with [] => 0 | n :: gs => if Nat.ltb i n then 0 else S (group_of gs (i - n)) end%nat.
Definition total (groups : list nat) : nat := fold_right Nat.add 0%nat groups.

Lemma shifts_length (A : Arith) groups : forall c : car A, length (group_shifts c groups) = total groups.
Proof. induction groups as [|n gs IH]; intros c; [reflexivity|]. cbn [group_shifts total fold_right]. rewrite app_length, repeat_length, IH. reflexivity. Qed.
Lemma shifts_nth groups : forall (c : R) i, (i < total groups)%nat -> nth i (group_shifts (A:=RA) c groups) 0 = c + 4/10 * INR (group_of groups i).
Proof.
  induction groups as [|n gs IH]; intros c i Hi; [cbn in Hi; lia|]. cbn [group_shifts total fold_right group_of] in *.
  destruct (Nat.ltb_spec i n).
  - rewrite app_nth1 by (rewrite repeat_length; lia). rewrite nth_repeat_lt by auto. cbn [INR]. lra.
  - rewrite app_nth2 by (rewrite repeat_length; lia). rewrite repeat_length, IH by (fold (total gs) in Hi; lia). rewrite S_INR. ra. lra.
Qed.
Lemma last_of_group groups : forall g, (g < length groups)%nat -> (forall n, In n groups -> (0 < n)%nat) ->
  (fold_right Nat.add 0%nat (firstn (S g) groups) - 1 < total groups)%nat /\ (0 < fold_right Nat.add 0%nat (firstn (S g) groups))%nat /\
  group_of groups (fold_right Nat.add 0%nat (firstn (S g) groups) - 1) = g /\
  forall i, (i < total groups)%nat -> group_of groups i = g -> (i <= fold_right Nat.add 0%nat (firstn (S g) groups) - 1)%nat.
Proof.
  induction groups as [|n gs IH]; intros g Hg Hp; [cbn in Hg; lia|].
  assert (Pn := Hp n (or_introl eq_refl)). destruct g as [|g].
  - cbn [firstn fold_right total group_of]. rewrite Nat.add_0_r. split; [lia|]. split; [lia|]. split; [destruct (Nat.ltb_spec (n - 1) n); [reflexivity|lia]|].
    intros i Hi E. destruct (Nat.ltb_spec i n); [lia|discriminate].
  - cbn [length] in Hg. destruct (IH g ltac:(lia) ltac:(intros x Hx; apply Hp; right; exact Hx)) as (I1 & I2 & I3 & I4).
    cbn [firstn fold_right total group_of]. change (fold_right Nat.add 0%nat match gs with [] => [] | a :: l => a :: firstn g l end) with (fold_right Nat.add 0%nat (firstn (S g) gs)).
    set (s := fold_right Nat.add 0%nat (firstn (S g) gs)) in *. fold (total gs). split; [lia|]. split; [lia|]. split.
    + destruct (Nat.ltb_spec (n + s - 1) n); [lia|]. replace (n + s - 1 - n)%nat with (s - 1)%nat by lia. rewrite I3. reflexivity.
    + intros i Hi E. destruct (Nat.ltb_spec i n); [discriminate|]. injection E as E. specialize (I4 (i - n)%nat ltac:(lia) E). lia.
Qed.

(** Ground sensors are refused before anything else. *)
Theorem C115_ground_refused (A : Arith) (h : heap A) (w : wfobj A) wgt groups labels ylim : w_sat w = false -> plot_grouped h w wgt groups labels ylim = Err ValueError.
Proof. intros H. unfold plot_grouped. rewrite H. reflexivity. Qed.

(** Every channel is drawn with its own weights, moved to the right by 0.4 per group before it; the label of a group stands 0.02 to the right of
    the smallest weight of the last channel of the group. *)
Theorem C115_curves h (w : wfobj RA) (wgt : list (list R)) (frq : list R) groups labels ylim : w_sat w = true -> w_frq w = Some frq ->
  (length frq <= total groups)%nat -> (total groups <= length wgt)%nat -> (forall n, In n groups -> (0 < n)%nat) -> (length groups <= length labels)%nat ->
  (2 <= length (hget h (w_z w)))%nat -> (forall r, In r wgt -> length r = length (hget h (w_z w))) ->
  exists cs ls, plot_grouped (A:=RA) h w wgt groups labels ylim = Ok (cs, ls) /\ length cs = length frq /\ length ls = length groups /\
  (forall i d, (i < length frq)%nat -> nth i cs d = (map (fun x => x + 4/10 * INR (group_of groups i)) (tl (nth i wgt [])), removelast (hget h (w_z w)))) /\
  (forall g d, (g < length groups)%nat -> exists last m, (last < total groups)%nat /\ group_of groups last = g /\ (forall i, (i < total groups)%nat -> group_of groups i = g -> (i <= last)%nat) /\
     smallest (tl (nth last wgt [])) m /\ fst (fst (nth g ls d)) = m + 4/10 * INR g + 2/100 /\ snd (nth g ls d) = nth g labels ""%string /\
     forall lo hi, ylim = Some (lo, hi) -> snd (fst (nth g ls d)) = 14/15 * (hi - 1)).
Proof.
  intros Hs Hf H1 H2 Hp Hlab Hz Hr. unfold plot_grouped. rewrite Hs, Hf. revert Hz Hr. generalize (hget h (w_z w)). change (car RA) with R. intros zs Hz Hr.
  assert (LS := shifts_length RA groups (lit (a:=RA) (Dec 0 1))). set (sh := group_shifts (A:=RA) (lit (Dec 0 1)) groups) in *.
  assert (NS : forall i, (i < total groups)%nat -> nth i sh 0 = 4/10 * INR (group_of groups i)).
  { intros i Hi. unfold sh. rewrite shifts_nth by exact Hi. ra. lra. }
  assert (RW : forall i, (i < length wgt)%nat -> tl (nth i wgt []) <> [] /\ length (tl (nth i wgt [])) = pred (length zs)).
  { intros i Hi. assert (L := Hr _ (nth_In wgt [] Hi)). destruct (nth i wgt []) as [|a [|b r]]; cbn in *; try lia. split; [discriminate|lia]. }
  destruct (proj2 (mapM_ok_iff (fun i => py_get labels (Z.of_nat i)) (seq 0 (length groups)))) as [lb ->].
  { intros i Hi. apply in_seq in Hi. rewrite (py_get_ok _ _ ""%string) by lia. eauto. }
  cbn [bind]. set (F := grouped_curve (A:=RA) zs wgt sh).
  assert (EF : forall i, (i < length frq)%nat -> F i = Ok (map (fun x => x + 4/10 * INR (group_of groups i)) (tl (nth i wgt [])), removelast zs)).
  { intros i Hi. unfold F, grouped_curve. etransitivity; [apply (f_equal (fun m => bind m _)); apply get_row; lia|]. cbn [bind]. destruct (RW i ltac:(lia)) as [R1 R2].
    destruct (argmax_max _ R1) as (k & K1 & K2 & _). etransitivity; [apply (f_equal (fun m => bind m _)); exact K1|]. cbn [bind].
    etransitivity; [apply (f_equal (fun m => bind m _)); apply get_removelast; lia|]. cbn [bind].
    etransitivity; [apply (f_equal (fun m => bind m _)); apply (get_nth sh i); refine (eq_ind_r (fun n => (i < n)%nat) _ LS); lia|]. cbn [bind]. rewrite NS by lia. reflexivity. }
  destruct (proj2 (mapM_ok_iff F (seq 0 (length frq)))) as [cs Ec].
  { intros i Hi. apply in_seq in Hi. rewrite EF by lia. eauto. }
  set (G := group_label (A:=RA) zs wgt sh groups labels ylim).
  assert (EG : forall g, (g < length groups)%nat -> exists last m hgt, (last < total groups)%nat /\ group_of groups last = g /\ (forall i, (i < total groups)%nat -> group_of groups i = g -> (i <= last)%nat) /\
     smallest (tl (nth last wgt [])) m /\ (forall lo hi, ylim = Some (lo, hi) -> hgt = hi - 1) /\ G g = Ok (2/100 + (m + 4/10 * INR g), hgt - hgt / 15, nth g labels ""%string)).
  { intros g Hg. destruct (last_of_group groups g Hg Hp) as (L1 & L2 & L3 & L4). set (s := fold_right Nat.add 0%nat (firstn (S g) groups)) in *.
    destruct (RW (s - 1)%nat ltac:(lia)) as [R1 R2]. destruct (np_min_smallest _ R1) as (m & M1 & M2).
    assert (EL : last_row groups g = Z.of_nat (s - 1)) by (unfold last_row; fold s; lia).
    assert (HH : exists hgt : R, (match ylim with Some (_, hi) => Ok (sub (a:=RA) hi (lit (Dec 1 1))) | None => do m <- np_max (A:=RA) (removelast zs); Ok (sub (a:=RA) m (lit (Dec 1 1))) end) = Ok hgt /\
       forall lo hi, ylim = Some (lo, hi) -> hgt = hi - 1).
    { destruct ylim as [[lo hi]|].
      - exists (hi - 1). split; [f_equal; ra; lra|]. intros lo' hi' E. injection E as _ ->. reflexivity.
      - destruct (np_max_largest (removelast zs)) as (x & -> & _); [|eexists; split; [reflexivity|discriminate]].
        intros E. apply (f_equal (@length R)) in E. rewrite removelast_firstn_len, firstn_length in E. cbn [length] in E. lia. }
    destruct HH as (hgt & HH & HY). exists (s - 1)%nat, m, hgt. split; [exact L1|]. split; [exact L3|]. split; [exact L4|]. split; [exact M2|]. split; [exact HY|].
    unfold G, group_label. rewrite EL. etransitivity; [apply (f_equal (fun m => bind m _)); exact HH|]. cbn [bind].
    etransitivity; [apply (f_equal (fun m => bind m _)); apply get_row; lia|]. cbn [bind]. etransitivity; [apply (f_equal (fun m => bind m _)); exact M1|]. cbn [bind].
    etransitivity; [apply (f_equal (fun m => bind m _)); apply (get_nth sh); refine (eq_ind_r (fun n => (_ < n)%nat) _ LS); lia|]. cbn [bind]. rewrite (py_get_ok labels g ""%string) by lia. cbn [bind]. rewrite NS by lia. rewrite L3.
    ra. do 3 f_equal; lra. }
  destruct (proj2 (mapM_ok_iff G (seq 0 (length groups)))) as [ls El].
  { intros g Hg. apply in_seq in Hg. destruct (EG g ltac:(lia)) as (a & b & c & _ & _ & _ & _ & _ & ->). eauto. }
  exists cs, ls. split; [etransitivity; [apply (f_equal (fun m => bind m _)); exact Ec|]; cbn [bind]; etransitivity; [apply (f_equal (fun m => bind m _)); exact El|]; reflexivity|].
  assert (Lc := mapM_length _ _ _ Ec). assert (Ll := mapM_length _ _ _ El). rewrite seq_length in Lc, Ll. split; [exact Lc|]. split; [exact Ll|]. split.
  - intros i d Hi. assert (N := mapM_nth _ _ cs i 0%nat d Ec ltac:(rewrite seq_length; exact Hi)). rewrite seq_nth in N by exact Hi. cbn [Nat.add] in N. assert (N' := eq_trans (eq_sym (EF i Hi)) N). apply ok_inj in N'. symmetry. exact N'.
  - intros g d Hg. assert (N := mapM_nth _ _ ls g 0%nat d El ltac:(rewrite seq_length; exact Hg)). rewrite seq_nth in N by exact Hg. cbn [Nat.add] in N.
    destruct (EG g Hg) as (last & m & hgt & A1 & A2 & A3 & A4 & A5 & A6). assert (N' := eq_trans (eq_sym A6) N). apply ok_inj in N'. exists last, m.
    split; [exact A1|]. split; [exact A2|]. split; [exact A3|]. split; [exact A4|].
    split; [eapply eq_trans; [exact (eq_sym (f_equal (fun x => fst (fst x)) N'))|]; cbn [fst snd]; lra|].
    split; [exact (eq_sym (f_equal snd N'))|].
    intros lo hi E. eapply eq_trans; [exact (eq_sym (f_equal (fun x => snd (fst x)) N'))|]. cbn [fst snd]. rewrite (A5 lo hi E). lra.
Qed.

(** Weights of 0 to 0.4: channels of different groups do not touch. *)
Theorem C115_bands h (w : wfobj RA) (wgt : list (list R)) (frq : list R) groups labels ylim cs ls i j d : w_sat w = true -> w_frq w = Some frq ->
  (length frq <= total groups)%nat -> (total groups <= length wgt)%nat -> (forall n, In n groups -> (0 < n)%nat) -> (length groups <= length labels)%nat ->
  (2 <= length (hget h (w_z w)))%nat -> (forall r, In r wgt -> length r = length (hget h (w_z w)) /\ forall x, In x r -> 0 <= x < 4/10) ->
  plot_grouped (A:=RA) h w wgt groups labels ylim = Ok (cs, ls) -> (i < length frq)%nat -> (j < length frq)%nat -> (group_of groups i < group_of groups j)%nat ->
  forall x y, In x (fst (nth i cs d)) -> In y (fst (nth j cs d)) -> x < y.
Proof.
  intros Hs Hf H1 H2 Hp Hl Hz Hr H Hi Hj Hg x y Hx Hy.
  destruct (C115_curves h w wgt frq groups labels ylim Hs Hf H1 H2 Hp Hl Hz (fun r Hin => proj1 (Hr r Hin))) as (cs' & ls' & E & _ & _ & C & _).
  rewrite H in E. apply ok_inj in E. assert (cs' = cs) by exact (eq_sym (f_equal fst E)). subst cs'.
  rewrite (C i d Hi) in Hx. rewrite (C j d Hj) in Hy. cbn [fst] in Hx, Hy. apply in_map_iff in Hx, Hy. destruct Hx as (u & <- & Hu), Hy as (v & <- & Hv).
  assert (T : forall k z, (k < length frq)%nat -> In z (tl (nth k wgt [])) -> 0 <= z < 4/10).
  { intros k z Hk Hz'. assert (K : (k < length wgt)%nat) by lia. destruct (Hr _ (nth_In wgt [] K)) as [_ Q]. apply Q. destruct (nth k wgt []); [destruct Hz'|right; exact Hz']. }
  assert (Tu := T i u Hi Hu). assert (Tv := T j v Hj Hv). apply (le_INR (S _)) in Hg. rewrite S_INR in Hg. lra.
Qed.

(** Fewer grouped channels than frequencies, or fewer labels than groups, is an error. *)
Theorem C115_incomplete_groups (A : Arith) h (w : wfobj A) wgt frq groups labels ylim : w_frq w = Some frq ->
  (total groups < length frq)%nat \/ (length labels < length groups)%nat -> exists e, plot_grouped h w wgt groups labels ylim = Err e.
Proof.
  intros Hf H. unfold plot_grouped. destruct (w_sat w); [|eauto]. rewrite Hf.
  assert (OOB : forall T (l : list T), py_get l (Z.of_nat (length l)) = Err IndexError).
  { intros T l. unfold py_get, py_pos. destruct (Z.leb_spec 0 (Z.of_nat (length l))); [|lia].
    destruct (Z.ltb_spec (Z.of_nat (length l)) (Z.of_nat (length l))); [lia|]. cbn [andb].
    destruct (Z.leb_spec (- Z.of_nat (length l)) (Z.of_nat (length l))); destruct (Z.ltb_spec (Z.of_nat (length l)) 0); cbn; try lia; reflexivity. }
  destruct H as [H|H].
  - destruct (mapM _ (seq 0 (length groups))) as [lb|]; [|cbn; eauto]. cbn [bind].
    set (F := grouped_curve (hget h (w_z w)) wgt (group_shifts (lit 0) groups)).
    destruct (mapM_err_some F (seq 0 (length frq)) (total groups) (match F (total groups) with Err e => e | Ok _ => ValueError end)) as [e E].
    + apply in_seq. lia.
    + unfold F, grouped_curve. destruct (py_get wgt _) as [r|]; [|reflexivity]. cbn [bind].
      destruct (np_argmax _) as [k|]; [|reflexivity]. cbn [bind]. destruct (py_get (removelast _) _); [|reflexivity]. cbn [bind].
      assert (P := OOB _ (group_shifts (A:=A) (lit 0) groups)). rewrite (shifts_length A groups (lit 0)) in P. rewrite P. reflexivity.
    + rewrite E. cbn. eauto.
  - destruct (mapM_err_some (fun i => py_get labels (Z.of_nat i)) (seq 0 (length groups)) (length labels) IndexError) as [e E].
    + apply in_seq. lia.
    + apply OOB.
    + rewrite E. cbn. eauto.
Qed.

Example C115_example : exists cs ls, plot_grouped (A:=RA) cx_h (cx true [10; 20; 30; 40] None) cx_wgt [3%nat; 1%nat] ["a"%string; "b"%string] None = Ok (cs, ls) /\
  nth 3 cs ([], []) = ([5 + 4/10 * 1], [0]).
Proof.
  destruct (C115_curves cx_h (cx true [10; 20; 30; 40] None) cx_wgt [10; 20; 30; 40] [3%nat; 1%nat] ["a"%string; "b"%string] None) as (cs & ls & H & _ & _ & C & _); try reflexivity; try (cbn; lia).
  - intros r Hr. repeat (destruct Hr as [<-|Hr]; [reflexivity|]). destruct Hr.
  - exists cs, ls. split; [exact H|]. rewrite (C 3%nat) by (cbn; lia). reflexivity.
Qed.
