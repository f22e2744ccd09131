(** Claims C64, C65, C92, C93: channel averaging, channel labels and the curves of the weighting function plot. *)

From Coq Require Import ZArith Reals Lra Lia String List Bool.
Import ListNotations.
From Verif Require Import Arith PyBase Utils RTE Absorption Clear Spectrum Spec ListAux RealAux SolverGen SolverRun PropsLiq Weighting WeightingGen PropsWeighting.
Local Open Scope R_scope.

(** ** C64 *)

(** Rows before channel [c], and the specified mean of channel [c] at level [k]. *)
Definition offset (band : list nat) (c : nat) : nat := fold_right Nat.add 0%nat (firstn c band).
Definition block_mean (a : list (list R)) (band : list nat) (c k : nat) : R :=
  rsum (nth c band 0%nat) (fun i => nth k (nth (offset band c + i) a []) 0) / INR (nth c band 0%nat).

Lemma of_nat_INR k : of_nat (A:=RA) k = INR k.
Proof. unfold of_nat. ra. rewrite <- INR_IZR_INZ. lra. Qed.

Lemma sum_from_rsum (l : list R) : forall a, sum_from (A:=RA) a l = a + rsum (length l) (fun i => nth i l 0).
Proof.
  induction l as [|x l IH]; intros a; [unfold sum_from; cbn; lra|].
  unfold sum_from in *. cbn [fold_left length]. rewrite IH. ra.
  change (S (length l)) with (1 + length l)%nat. rewrite (rsum_split 1 (length l)). cbn [rsum nth Nat.add]. lra.
Qed.

Lemma slice_length {T} a b (l : list T) : (a <= b <= length l)%nat -> length (slice a b l) = (b - a)%nat.
Proof. intros H. unfold slice. rewrite firstn_length, skipn_length. lia. Qed.
Lemma nth_skipn_plus {T} (l : list T) d : forall a i, nth i (skipn a l) d = nth (a + i) l d.
Proof. induction l as [|x l IH]; intros [|a] i; cbn; auto; destruct i; auto. Qed.
Lemma nth_firstn_lt {T} (l : list T) d : forall n i, (i < n)%nat -> nth i (firstn n l) d = nth i l d.
Proof. induction l as [|x l IH]; intros [|n] [|i] H; cbn; auto; try lia. apply IH. lia. Qed.
Lemma slice_nth {T} a b (l : list T) i d : (i < b - a)%nat -> nth i (slice a b l) d = nth (a + i) l d.
Proof. intros H. unfold slice. rewrite nth_firstn_lt by auto. apply nth_skipn_plus. Qed.

Lemma mean_rows_nth n (rows : list (list R)) k : (k < n)%nat ->
  nth k (mean_rows (A:=RA) n rows) 0 = rsum (length rows) (fun i => nth k (nth i rows []) 0) / INR (length rows).
Proof.
  intros Hk. unfold mean_rows. 
  rewrite (nth_map_seq_d (fun c => div (a:=RA) (sum_from (A:=RA) (lit 0) (col (A:=RA) c rows)) (of_nat (A:=RA) (length rows)))) by auto.
  rewrite sum_from_rsum, of_nat_INR. unfold col. rewrite map_length. ra. f_equal.
  rewrite (rsum_ext (length rows) _ (fun i => nth k (nth i rows []) 0)); [lra|].
  intros i Hi. rewrite (nth_map_d _ _ _ []) by auto. f_equal. ra. lra.
Qed.

Lemma mean_loop_nth (a : list (list R)) n : forall band cnt c k, (c < length band)%nat -> (k < n)%nat ->
  (cnt + offset band (length band) <= length a)%nat ->
  nth k (nth c (mean_loop (A:=RA) a n cnt band) []) 0 =
  rsum (nth c band 0%nat) (fun i => nth k (nth (cnt + offset band c + i) a []) 0) / INR (nth c band 0%nat).
Proof.
  induction band as [|b band IH]; intros cnt c k Hc Hk Hl; [cbn in Hc; lia|].
  unfold offset in Hl. cbn [length firstn fold_right] in Hl. destruct c as [|c].
  - cbn [mean_loop nth]. rewrite mean_rows_nth by auto. rewrite slice_length by lia.
    replace (b + cnt - cnt)%nat with b by lia. unfold offset. cbn [firstn fold_right]. f_equal. apply rsum_ext. intros i Hi.
    rewrite slice_nth by lia. do 2 f_equal. lia.
  - cbn [mean_loop nth]. cbn [length] in Hc. rewrite IH by (auto; unfold offset; lia).
    f_equal. apply rsum_ext. intros i Hi. do 2 f_equal. unfold offset. cbn [firstn fold_right]. lia.
Qed.

Lemma mean_loop_length (a : list (list R)) n : forall band cnt, length (mean_loop (A:=RA) a n cnt band) = length band.
Proof. induction band; intros; cbn; auto. Qed.
Lemma mean_loop_row (a : list (list R)) n : forall band cnt r, In r (mean_loop (A:=RA) a n cnt band) -> length r = n.
Proof.
  induction band as [|b band IH]; intros cnt r H; [destruct H|]. destruct H as [<-|H]; [|eapply IH; eauto].
  unfold mean_rows. rewrite map_length, seq_length. reflexivity.
Qed.

(** One row per channel, as long as the rows given; entry [k] of channel [c] is the mean of entry [k] over the rows of block [c]. *)
Theorem C64_block_means (a : list (list R)) band n : rect (A:=RA) n a -> a <> [] -> (offset band (length band) <= length a)%nat ->
  length (mean_channel (A:=RA) a band) = length band /\
  forall c, (c < length band)%nat -> length (nth c (mean_channel (A:=RA) a band) []) = n /\
    forall k, (k < n)%nat -> nth k (nth c (mean_channel (A:=RA) a band) []) 0 = block_mean a band c k.
Proof.
  intros Hr Hne Hl. unfold mean_channel. rewrite (rect_ncols (A:=RA) n a Hr Hne). split; [apply mean_loop_length|].
  intros c Hc. split.
  - apply (mean_loop_row a n band 0). apply nth_In. rewrite mean_loop_length. auto.
  - intros k Hk. rewrite mean_loop_nth by auto. reflexivity.
Qed.

(** Every averaged row belongs to exactly one channel. *)
Theorem C64_one_channel band : forall i, (i < offset band (length band))%nat ->
  exists! c, (c < length band)%nat /\ (offset band c <= i < offset band c + nth c band 0%nat)%nat.
Proof.
  induction band as [|b band IH]; intros i Hi; [cbn in Hi; lia|]. unfold offset in Hi. cbn [length firstn fold_right] in Hi.
  destruct (Nat.lt_ge_cases i b) as [L|L].
  - exists 0%nat. split.
    + split; [cbn; lia|]. unfold offset. cbn [firstn fold_right nth]. lia.
    + intros [|c] [H1 H2]; [auto|]. exfalso. unfold offset in H2. cbn [firstn fold_right nth] in H2. lia.
  - destruct (IH (i - b)%nat ltac:(unfold offset; lia)) as (c & [H1 H2] & U). exists (S c). split.
    + split; [cbn; lia|]. unfold offset in *. cbn [firstn fold_right nth]. lia.
    + intros [|c'] [H3 H4]; unfold offset in H4; cbn [firstn fold_right nth] in H4; [lia|].
      f_equal. apply U. cbn [length] in H3. split; [lia|]. unfold offset. lia.
Qed.

Lemma rsum_bounds n f lo hi : (forall i, (i < n)%nat -> lo <= f i <= hi) -> INR n * lo <= rsum n f <= INR n * hi.
Proof.
  induction n as [|n IH]; intros H; [cbn; lra|]. rewrite S_INR. cbn [rsum]. specialize (IH ltac:(intros; apply H; lia)).
  assert (Q := H n ltac:(lia)). lra.
Qed.

(** The mean stays between any bounds of its rows. *)
Theorem C64_bounds (a : list (list R)) band n c k lo hi : rect (A:=RA) n a -> a <> [] -> (offset band (length band) <= length a)%nat ->
  (c < length band)%nat -> (k < n)%nat -> (0 < nth c band 0)%nat ->
  (forall i, (offset band c <= i < offset band c + nth c band 0)%nat -> lo <= nth k (nth i a []) 0 <= hi) ->
  lo <= nth k (nth c (mean_channel (A:=RA) a band) []) 0 <= hi.
Proof.
  intros Hr Hne Hl Hc Hk Hb H. destruct (C64_block_means a band n Hr Hne Hl) as [_ E]. destruct (E c Hc) as [_ Ek]. rewrite (Ek k Hk).
  unfold block_mean. assert (P : 0 < INR (nth c band 0%nat)) by (apply lt_0_INR; auto).
  destruct (rsum_bounds (nth c band 0%nat) (fun i => nth k (nth (offset band c + i) a []) 0) lo hi) as [B1 B2]; [intros i Hi; apply H; lia|].
  split; apply Rmult_le_reg_r with (INR (nth c band 0%nat)); auto; unfold Rdiv; rewrite Rmult_assoc, Rinv_l, Rmult_1_r by lra; lra.
Qed.

Lemma offset_succ band : forall c, (c < length band)%nat -> offset band (S c) = (offset band c + nth c band 0)%nat.
Proof.
  induction band as [|b band IH]; intros c Hc; [cbn in Hc; lia|]. unfold offset in *. destruct c as [|c]; [cbn; lia|].
  cbn [length] in Hc. specialize (IH c ltac:(lia)). cbn [firstn fold_right nth] in *. lia.
Qed.

(** Channels are the only rows: the sums of the blocks add up to the sum of all rows. *)
Theorem C64_total (a : list (list R)) band n k : rect (A:=RA) n a -> a <> [] -> offset band (length band) = length a -> (k < n)%nat ->
  (forall b, In b band -> (0 < b)%nat) ->
  rsum (length band) (fun c => INR (nth c band 0%nat) * nth k (nth c (mean_channel (A:=RA) a band) []) 0) = rsum (length a) (fun i => nth k (nth i a []) 0).
Proof.
  intros Hr Hne Hl Hk Hb. destruct (C64_block_means a band n Hr Hne ltac:(lia)) as [_ E].
  rewrite <- Hl. set (f := fun i => nth k (nth i a []) 0).
  assert (G : forall m, (m <= length band)%nat -> rsum m (fun c => INR (nth c band 0%nat) * nth k (nth c (mean_channel (A:=RA) a band) []) 0) = rsum (offset band m) f).
  { induction m as [|m IH]; intros Hm; [reflexivity|]. cbn [rsum]. rewrite IH by lia. rewrite offset_succ by lia. rewrite rsum_split. f_equal.
    destruct (E m ltac:(lia)) as [_ Ek]. rewrite (Ek k Hk). unfold block_mean.
    assert (P : 0 < INR (nth m band 0%nat)) by (apply lt_0_INR, Hb, nth_In; lia).
    unfold f. field. lra. }
  apply G. lia.
Qed.

Example C64_example : mean_channel (A:=RA) [[1; 2]; [3; 4]; [5; 9]] [2; 1]%nat = [[2; 3]; [5; 9]] /\
  block_mean [[1; 2]; [3; 4]; [5; 9]] [2; 1]%nat 0 1 = 3 /\ offset [2; 1]%nat 2 = 3%nat.
Proof.
  split; [|split; [unfold block_mean; cbn; lra|reflexivity]].
  unfold mean_channel, mean_rows, of_nat, sum_from. cbn. repeat f_equal; lra.
Qed.

(** ** C65 *)

(** The frequency that belongs to channel [c]: the mean of the frequencies of the averaged rows. *)
Definition channel_freq (frq : list R) (band : list nat) (c : nat) : R :=
  rsum (nth c band 0%nat) (fun i => nth (offset band c + i) frq 0) / INR (nth c band 0%nat).

Lemma label_nth (frq : list R) band c : (c < length band)%nat -> (c + nth c band 0 <= length frq)%nat ->
  nth c (label_freqs (A:=RA) frq band) 0 = rsum (nth c band 0%nat) (fun i => nth (c + i) frq 0) / INR (nth c band 0%nat).
Proof.
  intros Hc Hl. unfold label_freqs. rewrite (nth_map_d _ _ _ (0%nat, 0%nat)) by (rewrite combine_length, seq_length; lia).
  rewrite combine_nth by (rewrite seq_length; auto). rewrite seq_nth by auto. cbn [Nat.add].
  unfold mean1. rewrite sum_from_rsum, of_nat_INR. assert (L : length (slice c (c + nth c band 0%nat) frq) = nth c band 0%nat) by (rewrite slice_length; lia).
  change (car RA) with R. rewrite L. ra. f_equal.
  rewrite (rsum_ext (nth c band 0%nat) _ (fun i => nth (c + i) frq 0)); [lra|]. intros i Hi. apply slice_nth. lia.
Qed.

(** The label is right for a channel preceded only by channels of a single pass band (in particular the first). *)
Theorem C65_after_single_bands_partial (frq : list R) band c : (c < length band)%nat -> (offset band (length band) <= length frq)%nat ->
  (forall j, (j < c)%nat -> nth j band 0%nat = 1%nat) ->
  nth c (label_freqs (A:=RA) frq band) 0 = channel_freq frq band c.
Proof.
  intros Hc Hl H. assert (O : offset band c = c).
  { clear Hl. induction c as [|c IH]; [reflexivity|]. rewrite offset_succ by lia. rewrite IH by (try lia; intros; apply H; lia). rewrite H by lia. lia. }
  assert (M : (offset band c + nth c band 0 <= offset band (length band))%nat).
  { clear -Hc. revert c Hc. induction band as [|b band IH]; intros c Hc; [cbn in Hc; lia|].
    unfold offset in *. destruct c as [|c]; cbn [firstn fold_right nth length] in *; [lia|]. specialize (IH c ltac:(lia)). lia. }
  rewrite label_nth by lia. unfold channel_freq. rewrite O. reflexivity.
Qed.

(** Once a channel has been preceded by more rows than channels its label is too low, for every increasing list of frequencies. *)
Theorem C65_refuted (frq : list R) band c : growing frq -> (c < length band)%nat -> (offset band (length band) <= length frq)%nat ->
  (0 < nth c band 0)%nat -> (c < offset band c)%nat ->
  nth c (label_freqs (A:=RA) frq band) 0 < channel_freq frq band c.
Proof.
  intros G Hc Hl Hb Ho.
  assert (M : (offset band c + nth c band 0 <= offset band (length band))%nat).
  { clear -Hc. revert c Hc. induction band as [|b band IH]; intros c Hc; [cbn in Hc; lia|].
    unfold offset in *. destruct c as [|c]; cbn [firstn fold_right nth length] in *; [lia|]. specialize (IH c ltac:(lia)). lia. }
  rewrite label_nth by lia. unfold channel_freq.
  assert (P : 0 < INR (nth c band 0%nat)) by (apply lt_0_INR; auto).
  apply Rmult_lt_compat_r; [apply Rinv_0_lt_compat; auto|].
  assert (S : forall b, (0 < b)%nat -> (offset band c + b <= length frq)%nat -> rsum b (fun i => nth (c + i) frq 0) < rsum b (fun i => nth (offset band c + i) frq 0)).
  { induction b as [|b IH]; intros H1 H2; [lia|]. cbn [rsum].
    assert (Q := growing_lt frq G (c + b) (offset band c + b) ltac:(lia)).
    destruct b as [|b]; [cbn [rsum]; lra|]. specialize (IH ltac:(lia) ltac:(lia)). lra. }
  apply S; lia.
Qed.

Example C65_example : nth 1 (label_freqs (A:=RA) [10; 20; 30; 40] [2; 2]%nat) 0 = 25 /\ channel_freq [10; 20; 30; 40] [2; 2]%nat 1 = 35 /\
  nth 0 (label_freqs (A:=RA) [10; 20; 30; 40] [2; 2]%nat) 0 = channel_freq [10; 20; 30; 40] [2; 2]%nat 0.
Proof.
  rewrite !label_nth by (cbn; lia). unfold channel_freq. cbn. lra.
Qed.

(** ** C92: plotting and the object *)

(** Without pass bands the plot leaves the object as it was, whatever the weights. *)
Theorem C92_without_bands_partial (A : Arith) h (w w' : wfobj A) wgt normalized cs : w_band w = None ->
  plot_wf h w wgt normalized = Ok (w', cs) -> w' = w.
Proof.
  intros Hb H. unfold plot_wf in H. destruct (w_frq w) as [frq|] eqn:Ef; [|discriminate]. rewrite Hb in H.
  inv_bind H norm En. inv_bind H c Ec. injection H as <- _. destruct w. cbn in *. subst. reflexivity.
Qed.

(** With pass bands every plot replaces the frequencies by the labels: one per channel, so that the object no longer has
    the frequencies its weights were computed for. *)
Theorem C92_bands_overwrite (A : Arith) h (w w' : wfobj A) wgt normalized cs frq band : w_band w = Some band -> w_frq w = Some frq ->
  plot_wf h w wgt normalized = Ok (w', cs) ->
  w_frq w' = Some (label_freqs frq (map Z.to_nat band)) /\ map c_frq cs = label_freqs frq (map Z.to_nat band) /\
  length (label_freqs frq (map Z.to_nat band)) = length band.
Proof.
  intros Hb Hf H. unfold plot_wf in H. rewrite Hf, Hb in H. inv_bind H norm En. inv_bind H c Ec. injection H as <- <-.
  split; [reflexivity|].
  assert (L : length (label_freqs frq (map Z.to_nat band)) = length band).
  { unfold label_freqs. rewrite map_length, combine_length, seq_length, map_length. lia. }
  split; [|exact L]. revert Ec. generalize (label_freqs frq (map Z.to_nat band)), 0%nat at 1. intros l. revert c.
  induction l as [|x l IH]; intros cs k Ec; cbn [length seq combine] in Ec; [inversion Ec; reflexivity|].
  cbn [mapM] in Ec. inv_bind Ec c0 Ec0. inv_bind Ec cs' Ecs. injection Ec as <-. cbn [map]. f_equal; [|eapply IH; eauto].
  unfold plot_curve in Ec0. inv_bind Ec0 r Er. destruct (w_sat w); [|injection Ec0 as <-; reflexivity].
  inv_bind Ec0 k0 Ek. inv_bind Ec0 pk Epk. inv_bind Ec0 nn En'. injection Ec0 as <-. reflexivity.
Qed.

(** The second plot of the same weights shows other frequencies than the first. *)
Definition cx_h : heap RA := [[0; 1]; [1000; 900]; [290; 280]; [0; 0]].
Definition cx (sat : bool) (frq : list R) (band : option (list Z)) : wfobj RA := mkWfo (A:=RA) 0%nat 1%nat 2%nat 3%nat (Some frq) sat (VFloat (A:=RA) 1) "R19" 90 band.
Definition cx_wgt : list (list R) := [[1; 2]; [1; 3]; [1; 4]; [1; 5]].

Lemma pair_eq (a b c d : R) : a = c -> b = d -> [a; b] = [c; d].
Proof. intros -> ->. reflexivity. Qed.

Theorem C92_refuted : exists w1 w2 cs1 cs2,
  plot_wf (A:=RA) cx_h (cx false [10; 20; 30; 40] (Some [2; 2]%Z)) cx_wgt false = Ok (w1, cs1) /\
  plot_wf (A:=RA) cx_h w1 cx_wgt false = Ok (w2, cs2) /\
  map c_frq cs1 = [15; 25] /\ map c_frq cs2 = [20; 25] /\ w_frq w1 <> Some [10; 20; 30; 40].
Proof.
  eexists _, _, _, _. split; [reflexivity|]. split; [reflexivity|]. cbn.
  unfold mean1, sum_from, of_nat. cbn. change (Pos.to_nat 2) with 2%nat. cbn. split; [apply pair_eq; lra|]. split; [apply pair_eq; lra|].
  intros H. injection H as H. lra.
Qed.

(** ** C93: the curves *)

(** From the ground every weight is drawn at the height of its own level, one curve per frequency, for any number of frequencies. *)
Theorem C93_ground (A : Arith) h (w : wfobj A) wgt normalized frq : w_sat w = false -> w_band w = None -> w_frq w = Some frq ->
  length wgt = length frq -> (normalized = true -> forall r, In r wgt -> r <> []) ->
  exists cs, plot_wf h w wgt normalized = Ok (w, cs) /\ length cs = length frq /\
    forall i d c0, (i < length frq)%nat -> nth i cs c0 = mkCurve (nth i wgt []) (hget h (w_z w)) (nth i frq d) None.
Proof.
  intros Hs Hb Hf Hl Hn. unfold plot_wf. rewrite Hf, Hb.
  assert (En : exists norm, normalizers normalized wgt = Ok norm).
  { unfold normalizers. destruct normalized; [|eauto]. apply mapM_ok_iff. intros r Hr. specialize (Hn eq_refl r Hr). destruct r; [congruence|]. cbn. eauto. }
  destruct En as [norm ->]. cbn [bind].
  set (F := plot_curve (w_sat w) (hget h (w_z w)) wgt norm).
  assert (EF : forall f i, (i < length wgt)%nat -> F (f, i) = Ok (mkCurve (nth i wgt []) (hget h (w_z w)) f None)).
  { intros f i Hi. unfold F, plot_curve. rewrite (py_get_ok _ _ []) by auto. cbn [bind]. rewrite Hs. reflexivity. }
  destruct (proj2 (mapM_ok_iff F (combine frq (seq 0 (length frq))))) as [cs Ec].
  { intros [f i] Hin. apply in_combine_r in Hin. apply in_seq in Hin. rewrite EF by lia. eauto. }
  rewrite Ec. cbn [bind]. exists cs. assert (Lc := mapM_length _ _ _ Ec). rewrite combine_length, seq_length, Nat.min_id in Lc.
  split; [destruct w; cbn in *; subst; reflexivity|]. split; [exact Lc|].
  intros i d c0 Hi. assert (N := mapM_nth _ _ cs i (d, 0%nat) c0 Ec ltac:(rewrite combine_length, seq_length; lia)).
  rewrite combine_nth, seq_nth in N by (rewrite ?seq_length; auto). cbn [Nat.add] in N. rewrite EF in N by lia. injection N as N. auto.
Qed.

(** From a satellite the weight of level [k+1] is drawn at the height of level [k]. *)
Theorem C93_satellite_heights_refuted (A : Arith) h (w : wfobj A) w' wgt frq cs i d c0 k : w_sat w = true -> w_band w = None -> w_frq w = Some frq ->
  plot_wf h w wgt false = Ok (w', cs) -> (i < length frq)%nat ->
  nth i wgt [] <> [] -> length (nth i wgt []) = length (hget h (w_z w)) -> (S k < length (hget h (w_z w)))%nat ->
  nth k (c_x (nth i cs c0)) d = div (nth (S k) (nth i wgt []) d) (lit 1) /\ nth k (c_y (nth i cs c0)) d = nth k (hget h (w_z w)) d.
Proof.
  intros Hs Hb Hf H Hi Hne L Hk. unfold plot_wf in H. rewrite Hf, Hb in H. cbn [normalizers bind] in H. inv_bind H c Ec. injection H as _ <-.
  assert (N := mapM_nth _ _ c i (d, 0%nat) c0 Ec ltac:(rewrite combine_length, seq_length; lia)).
  rewrite combine_nth, seq_nth in N by (rewrite ?seq_length; auto). cbn [Nat.add] in N. unfold plot_curve in N. rewrite Hs in N.
  inv_bind N r Er. inv_bind N k0 Ek. inv_bind N pk Epk. inv_bind N nn En. injection N as <-. cbn [c_x c_y].
  assert (Er' : r = nth i wgt []).
  { assert (Hlt : (i < length wgt)%nat) by (destruct (Nat.lt_ge_cases i (length wgt)); auto; exfalso; apply Hne; apply nth_overflow; auto).
    rewrite (py_get_ok _ _ []) in Er by auto. injection Er as <-. reflexivity. }
  subst r. assert (nn = lit 1) as ->.
  { unfold py_get in En. destruct (py_pos _ _) as [p|]; [|discriminate]. destruct (nth_error _ p) eqn:Q; [|discriminate]. injection En as <-.
    apply nth_error_In, repeat_spec in Q. auto. }
  destruct (nth i wgt []) as [|x r] eqn:Ei; [congruence|]. cbn [tl nth length] in *. split.
  - rewrite (nth_map_d _ _ _ d) by lia. reflexivity.
  - rewrite removelast_firstn_len. apply nth_firstn_lt. lia.
Qed.

Lemma mapM_err_some {X Y} (F : X -> result Y) l x e : In x l -> F x = Err e -> exists e', mapM F l = Err e'.
Proof.
  induction l as [|y l IH]; intros Hin HF; [destruct Hin|]. cbn [mapM]. destruct Hin as [->|Hin].
  - rewrite HF. cbn. eauto.
  - destruct (F y); cbn [bind]; [|eauto]. destruct (IH Hin HF) as [e' ->]. cbn. eauto.
Qed.

(** More channels than levels: the satellite plot fails although every weight is there. *)
Theorem C93_many_channels_refuted (A : Arith) h (w : wfobj A) wgt frq : w_sat w = true -> w_band w = None -> w_frq w = Some frq ->
  (ncols wgt < length frq)%nat -> exists e, plot_wf h w wgt false = Err e.
Proof.
  intros Hs Hb Hf Hn. unfold plot_wf. rewrite Hf, Hb. cbn [normalizers bind].
  set (F := plot_curve (w_sat w) (hget h (w_z w)) wgt (repeat (lit 1) (ncols wgt))).
  destruct (mapM_err_some F (combine frq (seq 0 (length frq))) (nth (ncols wgt) frq (lit 0), ncols wgt)
    (match F (nth (ncols wgt) frq (lit 0), ncols wgt) with Err e => e | Ok _ => ValueError end)) as [e E].
  - replace (nth (ncols wgt) frq (lit 0), ncols wgt) with (nth (ncols wgt) (combine frq (seq 0 (length frq))) (lit 0, 0%nat)).
    + apply nth_In. rewrite combine_length, seq_length. lia.
    + rewrite combine_nth by (rewrite seq_length; auto). rewrite seq_nth by auto. reflexivity.
  - unfold F, plot_curve. rewrite Hs. destruct (py_get wgt _) as [r|]; [|reflexivity]. cbn [bind].
    destruct (np_argmax _) as [k|]; [|reflexivity]. cbn [bind]. destruct (py_get (removelast _) _); [|reflexivity]. cbn [bind].
    assert (G : py_get (repeat (lit (a:=A) 1) (ncols wgt)) (Z.of_nat (ncols wgt)) = Err IndexError).
    { unfold py_get, py_pos. rewrite repeat_length. destruct (Z.leb_spec 0 (Z.of_nat (ncols wgt))); [|lia].
      destruct (Z.ltb_spec (Z.of_nat (ncols wgt)) (Z.of_nat (ncols wgt))); [lia|]. cbn [andb].
      destruct (Z.leb_spec (- Z.of_nat (ncols wgt)) (Z.of_nat (ncols wgt))); destruct (Z.ltb_spec (Z.of_nat (ncols wgt)) 0); cbn; try lia; reflexivity. }
    rewrite G. reflexivity.
  - rewrite E. cbn. eauto.
Qed.

(** Normalised curves of a ground sensor are not normalised. *)
Theorem C93_ground_normalised_refuted (A : Arith) h (w : wfobj A) wgt frq : w_sat w = false -> w_band w = None -> w_frq w = Some frq ->
  length wgt = length frq -> (forall r, In r wgt -> r <> []) -> plot_wf h w wgt true = plot_wf h w wgt false.
Proof.
  intros Hs Hb Hf Hl Hn. destruct (C93_ground A h w wgt true frq Hs Hb Hf Hl (fun _ => Hn)) as (c1 & -> & L1 & E1).
  destruct (C93_ground A h w wgt false frq Hs Hb Hf Hl ltac:(discriminate)) as (c2 & -> & L2 & E2).
  do 2 f_equal. destruct frq as [|f0 fr]; [destruct c1, c2; try discriminate; reflexivity|].
  apply (list_eq_nth _ _ (mkCurve [] [] f0 None)); [congruence|]. rewrite L1. intros i Hi.
  rewrite (E1 i f0 _ Hi), (E2 i f0 _ Hi). reflexivity.
Qed.

(** Normalised satellite curves need not reach 1: the first column takes part in the maximum but is not drawn. *)
Theorem C93_satellite_normalised_refuted : exists w' cs,
  plot_wf (A:=RA) [[0; 1; 2]; [1000; 900; 800]; [290; 280; 270]; [0; 0; 0]] (cx true [50] None) [[4; 1; 2]] true = Ok (w', cs) /\
  forall c x, In c cs -> In x (c_x c) -> x <= 1 / 2.
Proof.
  eexists _, _. split.
  - unfold plot_wf, cx. cbn [w_frq w_band w_sat w_z]. unfold normalizers, plot_curve, np_max, np_argmax, np_arg.
    cbn. unfold gtb. cbn. rewrite (Rltb_true 1 2) by lra. reflexivity.
  - intros c x [<-|[]]. cbn [c_x]. intros [<-|[<-|[]]].
    + unfold maxv. ra. unfold Rltb. repeat destruct (Rlt_dec _ _); lra.
    + unfold maxv. ra. unfold Rltb. repeat destruct (Rlt_dec _ _); lra.
Qed.

Example C93_ground_example : exists cs, plot_wf (A:=RA) cx_h (cx false [10; 20; 30; 40] None) cx_wgt true = Ok (cx false [10; 20; 30; 40] None, cs) /\
  nth 2 cs (mkCurve (A:=RA) [] [] 0 None) = mkCurve (A:=RA) [1; 4] [0; 1] 30 None.
Proof.
  destruct (C93_ground RA cx_h (cx false [10; 20; 30; 40] None) cx_wgt true [10; 20; 30; 40] eq_refl eq_refl eq_refl eq_refl) as (cs & H & _ & E).
  - intros _ r Hr. repeat (destruct Hr as [<-|Hr]; [discriminate|]). destruct Hr.
  - exists cs. split; [exact H|]. rewrite (E 2%nat 0); [reflexivity|cbn; lia].
Qed.

Example C93_many_channels_example : exists e, plot_wf (A:=RA) cx_h (cx true [10; 20; 30; 40] None) cx_wgt false = Err e.
Proof. apply (C93_many_channels_refuted RA cx_h _ cx_wgt [10; 20; 30; 40]); try reflexivity. cbn. lia. Qed.

Example C93_heights_example : exists w' cs, plot_wf (A:=RA) cx_h (cx true [10; 20] None) [[1; 2]; [1; 3]] false = Ok (w', cs) /\
  nth 0 (c_x (nth 1 cs (mkCurve (A:=RA) [] [] 0 None))) 0 = 3 / 1 /\ nth 0 (c_y (nth 1 cs (mkCurve (A:=RA) [] [] 0 None))) 0 = 0.
Proof.
  eexists _, _. split; [reflexivity|].
  set (c0 := mkCurve (A:=RA) [] [] 0 None).
  match goal with |- nth 0 (c_x (nth 1 ?c _)) 0 = _ /\ _ => set (cs := c) end.
  split; [cbn; lra|reflexivity].
Qed.
