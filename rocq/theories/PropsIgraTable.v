(** Claim C132: the tables made of an IGRA2 station file. *)

From Coq Require Import ZArith Reals Lra Lia List Bool Ascii String.
Import ListNotations.
From Verif Require Import Arith PyBase PyStr StrAux Igra IgraTable RealAux PropsIgra PropsIgra2.

(** ** Specification: the archive's description of its lines *)

(** Right-justified in [w] columns. *)
Definition just (w : nat) (t : str) : str := repeat " "%char (w - List.length t) ++ t.

(** What a number of at most [w] columns says: -9999 (missing) and -8888 (removed by quality assurance) say nothing. *)
Inductive says (w : nat) : str -> option Z -> Prop :=
| says_missing : (5 <= w)%nat -> says w (tx "-9999") None
| says_removed : (5 <= w)%nat -> says w (tx "-8888") None
| says_value neg ds : digits ds -> ds <> [] -> (List.length (field neg ds) <= w)%nat -> (-8888 < fval neg ds)%Z -> says w (field neg ds) (Some (fval neg ds)).
(** Elapsed time MMMSS: minutes and seconds since the launch. *)
Inductive says_time : str -> option Z -> Prop :=
| time_missing t : t = tx "-9999" \/ t = tx "-8888" -> says_time t None
| time_value ds m s : digits ds -> (1 <= List.length ds <= 5)%nat -> dval ds = (100 * m + s)%Z -> (0 <= s < 60)%Z -> says_time ds (Some (60 * m + s)%Z).
Inductive says_flag : ascii -> Z -> Prop := flag_none : says_flag " " 0 | flag_a : says_flag "A" 1 | flag_b : says_flag "B" 2.

(** A level: types, elapsed time (s), pressure (Pa), height (m), temperature (0.1 C), relative humidity (0.1 %),
    dew-point depression (0.1 C), wind direction (degrees) and speed (0.1 m/s), three flags. *)
Record level := Lev { l_t1 : Z; l_t2 : Z; l_time : option Z; l_p : option Z; l_pf : Z; l_z : option Z; l_zf : Z; l_T : option Z; l_Tf : Z;
                      l_rh : option Z; l_dd : option Z; l_dir : option Z; l_sp : option Z }.

(** [level_line x l]: the line [x] reports the level [l].  Columns 1, 2, 4-8, 10-15, 16, 17-21, 22, 23-27, 28, 29-33,
    35-39, 41-45 and 47-51 of the archive's format description. *)
Inductive level_line : str -> level -> Prop :=
| level_line_intro l ti p pf z zf T Tf rh dd dir sp :
    (0 <= l_t1 l <= 9)%Z -> (0 <= l_t2 l <= 9)%Z -> says_time ti (l_time l) -> says 6 p (l_p l) -> says_flag pf (l_pf l) -> says 5 z (l_z l) -> says_flag zf (l_zf l) ->
    says 5 T (l_T l) -> says_flag Tf (l_Tf l) -> says 5 rh (l_rh l) -> says 5 dd (l_dd l) -> says 5 dir (l_dir l) -> says 5 sp (l_sp l) ->
    level_line (List.concat [[dchar (l_t1 l)]; [dchar (l_t2 l)]; tx " "; just 5 ti; tx " "; just 6 p; [pf]; just 5 z; [zf]; just 5 T; [Tf]; just 5 rh; tx " "; just 5 dd;
                             tx " "; just 5 dir; tx " "; just 5 sp]) l.

(** The rest of a header: two source codes, latitude and longitude in 1/10000 degree, at least four digits. *)
Inductive coord (w : nat) : str -> Z -> Prop :=
  coord_intro neg ds : digits ds -> (4 <= List.length ds)%nat -> (List.length (field neg ds) <= w)%nat -> coord w (field neg ds) (fval neg ds).
Inductive head_tail : str -> Z -> Z -> Prop :=
| head_tail_intro c1 c2 la lo lat lon : List.length c1 = 8%nat -> List.length c2 = 8%nat -> coord 7 la lat -> coord 8 lo lon ->
    Forall (fun c => c <> "010"%char) c1 -> Forall (fun c => c <> "010"%char) c2 ->
    head_tail (List.concat [tx " "; c1; tx " "; c2; tx " "; just 7 la; tx " "; just 8 lo]) lat lon.

(** ** Reading fields *)

Lemma lstrip_idem s : lstrip (lstrip s) = lstrip s.
Proof. induction s as [|c s IH]; [reflexivity|]. cbn. destruct (is_space c) eqn:E; [exact IH|]. cbn. rewrite E. reflexivity. Qed.
Lemma lstrip_suffix s : exists p, s = p ++ lstrip s.
Proof. induction s as [|c s [p IH]]; [exists []; reflexivity|]. cbn. destruct (is_space c); [exists (c :: p); cbn; congruence|exists []; reflexivity]. Qed.
Lemma lstrip_keeps s : (match s with c :: _ => is_space c = false | [] => True end) -> lstrip s = s.
Proof. destruct s as [|c s]; [reflexivity|]. apply lstrip_head. Qed.
Lemma lstrip_first s : match lstrip s with c :: _ => is_space c = false | [] => True end.
Proof. induction s as [|c s IH]; [exact I|]. cbn. destruct (is_space c) eqn:E; [exact IH|exact E]. Qed.
Lemma strip_idem s : strip (strip s) = strip s.
Proof.
  unfold strip. set (a := lstrip s). assert (H : lstrip (rev (lstrip (rev a))) = rev (lstrip (rev a))).
  { apply lstrip_keeps. destruct (lstrip_suffix (rev a)) as [p E]. assert (F := lstrip_first s). fold a in F. apply (f_equal (@rev _)) in E. rewrite rev_involutive, rev_app_distr in E.
    destruct (rev (lstrip (rev a))) as [|c r]; [exact I|]. rewrite E in F. exact F. }
  rewrite H, rev_involutive, lstrip_idem. reflexivity.
Qed.
Lemma py_int_strip s : py_int (strip s) = py_int s.
Proof. unfold py_int. rewrite strip_idem. reflexivity. Qed.

Definition solid (s : str) : Prop := Forall (fun c => is_space c = false) s.
Lemma field_solid neg ds : digits ds -> solid (field neg ds).
Proof. intros D. unfold solid. assert (S := digits_solid ds D). destruct neg; [constructor; [reflexivity|exact S]|exact S]. Qed.
Lemma strip_just w t : solid t -> strip (just w t) = t.
Proof. intros S. unfold just. rewrite strip_pad. apply strip_solid, S. Qed.
Lemma just_length w t : (List.length t <= w)%nat -> List.length (just w t) = w.
Proof. intros L. unfold just. rewrite app_length, repeat_length. lia. Qed.
Lemma seg_at (l1 : list str) (m : str) (l2 : list str) a b : a = Z.of_nat (List.length (List.concat l1)) -> b = (a + Z.of_nat (List.length m))%Z ->
  str_slice (List.concat (l1 ++ m :: l2)) a b = m.
Proof.
  intros -> ->. rewrite concat_app. cbn [List.concat]. rewrite <- Nat2Z.inj_add. apply py_slice_app.
Qed.

Lemma says_solid w t v : says w t v -> solid t /\ (List.length t <= w)%nat.
Proof. intros [H|H|neg ds D N L V]; [split; [repeat constructor|exact H]..|]. split; [apply field_solid, D|exact L]. Qed.
Lemma says_time_solid t v : says_time t v -> solid t /\ (List.length t <= 5)%nat.
Proof. intros [u [->| ->]|ds m s D L E S]; [split; [repeat constructor|cbn; lia]..|]. split; [apply digits_solid, D|lia]. Qed.
Lemma coord_solid w t v : coord w t v -> solid t /\ (List.length t <= w)%nat.
Proof. intros [neg ds D L1 L2]. split; [apply field_solid, D|exact L2]. Qed.

Lemma py_int_field neg ds : digits ds -> ds <> [] -> py_int (field neg ds) = Ok (fval neg ds).
Proof. intros D N. destruct neg; [apply py_int_neg|apply py_int_digits0]; assumption. Qed.
Lemma int_col_says w t v : says w t v -> int_col t = Ok v.
Proof.
  intros [H|H|neg ds D N L V]; [reflexivity..|]. unfold int_col. rewrite py_int_field by assumption. cbn [bind].
  destruct (Z.eqb_spec (fval neg ds) (-8888)); [lia|]. destruct (Z.eqb_spec (fval neg ds) (-9999)); [lia|]. reflexivity.
Qed.
Lemma int_col_digit d : (0 <= d <= 9)%Z -> int_col (strip [dchar d]) = Ok (Some d).
Proof. revert d. apply dchar_cases; reflexivity. Qed.
(** scaled value of a column *)
Definition scaled (k : R) (v : option Z) : option R := option_map (fun z => (IZR z / k)%R) v.
Lemma cdec_says w t v (power : nat) : says w t v -> cdec (A:=RA) (Z.of_nat power) t = Ok (scaled (10 ^ power)%R v).
Proof.
  intros [H|H|neg ds D N L V]; [reflexivity..|]. rewrite C100_scaled by (auto; intros [E|[E|[E|[]]]]; apply (f_equal py_int) in E; rewrite py_int_field in E by auto;
    injection E as E; lia).
  apply f_equal. cbn [scaled option_map]. apply f_equal. ra. cbn. rewrite <- pow_IZR. assert (P := pow_nonzero 10 power ltac:(lra)). field. exact P.
Qed.
Lemma ctime_says t v : says_time t v -> ctime MMMSS t = Ok v.
Proof.
  intros [u [->| ->]|ds m s D L E S]; [reflexivity..|]. rewrite C76_elapsed by assumption. rewrite E. destruct (Z.eqb_spec (100 * m + s) 9999); [exfalso; lia|].
  apply f_equal, f_equal. Z.to_euclidean_division_equations; lia.
Qed.
Lemma cflag_says c v : says_flag c v -> cflag (strip [c]) = v.
Proof. intros []; reflexivity. Qed.

(** What the table holds of a level. *)
Definition row_of (l : level) : body_row RA :=
  Body (A:=RA) (Some (l_t1 l)) (Some (l_t2 l)) (l_time l) (scaled 100 (l_p l)) (l_pf l) (l_z l) (l_zf l) (scaled 10 (l_T l)) (l_Tf l) (scaled 10 (l_rh l)) (scaled 10 (l_dd l)) (l_dir l) (scaled 10 (l_sp l)).

Ltac segl := cbn [firstn List.concat]; rewrite ?app_length, ?just_length by tauto; reflexivity.

Theorem C132_level x l : level_line x l -> read_body (A:=RA) x = Ok (row_of l).
Proof.
  intros [l' ti p pf z zf T Tf rh dd dir sp H1 H2 Hti Hp Hpf Hz Hzf HT HTf Hrh Hdd Hdir Hsp].
  assert (S1 := says_time_solid _ _ Hti). assert (S2 := says_solid _ _ _ Hp). assert (S3 := says_solid _ _ _ Hz). assert (S4 := says_solid _ _ _ HT). assert (S5 := says_solid _ _ _ Hrh).
  assert (S6 := says_solid _ _ _ Hdd). assert (S7 := says_solid _ _ _ Hdir). assert (S8 := says_solid _ _ _ Hsp).
  set (segs := [[dchar (l_t1 l')]; [dchar (l_t2 l')]; tx " "; just 5 ti; tx " "; just 6 p; [pf]; just 5 z; [zf]; just 5 T; [Tf]; just 5 rh; tx " "; just 5 dd; tx " "; just 5 dir; tx " "; just 5 sp]).
  assert (K : forall k a b m, nth_error segs k = Some m -> a = Z.of_nat (List.length (List.concat (firstn k segs))) -> b = (a + Z.of_nat (List.length m))%Z -> str_slice (List.concat segs) a b = m).
  { intros k a b m E Ea Eb. destruct (nth_error_split segs k E) as (l1 & l2 & Es & Lk). rewrite Es in Ea |- *. apply seg_at; [|exact Eb].
    rewrite Ea, firstn_app, <- Lk, Nat.sub_diag, firstn_all. cbn [firstn]. rewrite app_nil_r. reflexivity. }
  assert (J : forall w t, (List.length t <= w)%nat -> List.length (just w t) = w) by apply just_length.
  unfold read_body, fwf.
  assert (Q0 : str_slice (List.concat segs) 0 1 = [dchar (l_t1 l')]) by (apply (K 0%nat); [reflexivity|reflexivity|reflexivity]).
  assert (Q1 : str_slice (List.concat segs) 1 2 = [dchar (l_t2 l')]) by (apply (K 1%nat); [reflexivity|reflexivity|reflexivity]).
  assert (Q3 : str_slice (List.concat segs) 3 8 = just 5 ti) by (apply (K 3%nat); [reflexivity|reflexivity|rewrite J by apply S1; reflexivity]).
  assert (Q5 : str_slice (List.concat segs) 9 15 = just 6 p) by (apply (K 5%nat); [reflexivity|subst segs; segl|segl]).
  assert (Q6 : str_slice (List.concat segs) 15 16 = [pf]) by (apply (K 6%nat); [reflexivity|subst segs; segl|segl]).
  assert (Q7 : str_slice (List.concat segs) 16 21 = just 5 z) by (apply (K 7%nat); [reflexivity|subst segs; segl|segl]).
  assert (Q8 : str_slice (List.concat segs) 21 22 = [zf]) by (apply (K 8%nat); [reflexivity|subst segs; segl|segl]).
  assert (Q9 : str_slice (List.concat segs) 22 27 = just 5 T) by (apply (K 9%nat); [reflexivity|subst segs; segl|segl]).
  assert (Q10 : str_slice (List.concat segs) 27 28 = [Tf]) by (apply (K 10%nat); [reflexivity|subst segs; segl|segl]).
  assert (Q11 : str_slice (List.concat segs) 28 33 = just 5 rh) by (apply (K 11%nat); [reflexivity|subst segs; segl|segl]).
  assert (Q13 : str_slice (List.concat segs) 34 39 = just 5 dd) by (apply (K 13%nat); [reflexivity|subst segs; segl|segl]).
  assert (Q15 : str_slice (List.concat segs) 40 45 = just 5 dir) by (apply (K 15%nat); [reflexivity|subst segs; segl|segl]).
  assert (Q17 : str_slice (List.concat segs) 46 51 = just 5 sp) by (apply (K 17%nat); [reflexivity|subst segs; segl|segl]).
  rewrite Q0, Q1, Q3, Q5, Q6, Q7, Q8, Q9, Q10, Q11, Q13, Q15, Q17. clearbody segs. clear K Q0 Q1 Q3 Q5 Q6 Q7 Q8 Q9 Q10 Q11 Q13 Q15 Q17.
  rewrite !strip_just by tauto. rewrite !int_col_digit by assumption. rewrite (ctime_says _ _ Hti), (int_col_says _ _ _ Hz), (int_col_says _ _ _ Hdir).
  change 2%Z with (Z.of_nat 2). change 1%Z with (Z.of_nat 1).
  rewrite (cdec_says _ _ _ 2 Hp), (cdec_says _ _ _ 1 HT), (cdec_says _ _ _ 1 Hrh), (cdec_says _ _ _ 1 Hdd), (cdec_says _ _ _ 1 Hsp). cbn [bind].
  rewrite (cflag_says _ _ Hpf), (cflag_says _ _ Hzf), (cflag_says _ _ HTf). unfold row_of. replace (10 ^ 2)%R with 100%R by ring. replace (10 ^ 1)%R with 10%R by ring. reflexivity.
Qed.

(** ** Headers *)

(** A sounding of the station file with what it reports. *)
Record reported := Rep { g_snd : sounding; g_levels : list level; g_lat : Z; g_lon : Z }.
Definition nl : str := ["010"%char].
Record good (g : reported) : Prop := {
  g_id : List.length (s_id (g_snd g)) = 11%nat /\ solid (s_id (g_snd g));
  g_rel : digits (s_rel (g_snd g)) /\ List.length (s_rel (g_snd g)) = 4%nat;
  g_date : (1 <= s_y (g_snd g) <= 9999)%Z /\ (1 <= s_m (g_snd g) <= 12)%Z /\ (1 <= s_d (g_snd g) <= month_days (s_y (g_snd g)) (s_m (g_snd g)))%Z /\ (0 <= s_h (g_snd g) <= 99)%Z;
  g_count : (Z.of_nat (List.length (g_levels g)) <= 9999)%Z;
  g_tail : exists t, head_tail t (g_lat g) (g_lon g) /\ s_tail (g_snd g) = t ++ nl;
  g_rows : exists xs, Forall2 level_line xs (g_levels g) /\ s_rows (g_snd g) = map (fun x => x ++ nl) xs }.

Lemma clatlon_coord w t v : coord w t v -> clatlon (A:=RA) t = Ok (IZR v / 10000)%R.
Proof. intros [neg ds D L1 L2]. apply C77_value; assumption. Qed.

Definition no_nl (s : str) : Prop := Forall (fun c => c <> "010"%char) s.
Lemma solid_no_nl s : solid s -> no_nl s.
Proof. apply Forall_impl. intros c H ->. discriminate. Qed.
Lemma digits_no_nl s : digits s -> no_nl s.
Proof. intros D. apply solid_no_nl, digits_solid, D. Qed.
Lemma blanks_no_nl k : no_nl (repeat " "%char k).
Proof. induction k; constructor; [discriminate|assumption]. Qed.
Lemma just_no_nl w t : solid t -> no_nl (just w t).
Proof. intros S. apply Forall_app. split; [apply blanks_no_nl|apply solid_no_nl, S]. Qed.
Lemma concat_no_nl ss : Forall no_nl ss -> no_nl (List.concat ss).
Proof. intros F. induction F as [|s ss Hs F IH]; [constructor|]. cbn [List.concat]. apply Forall_app. auto. Qed.
Lemma flag_no_nl c v : says_flag c v -> no_nl [c].
Proof. intros []; repeat constructor; discriminate. Qed.
Lemma dchar_no_nl d : (0 <= d <= 9)%Z -> no_nl [dchar d].
Proof. intros H. apply digits_no_nl. constructor; [apply dchar_digit, H|constructor]. Qed.
Lemma blank_no_nl : no_nl (tx " "). Proof. repeat constructor. discriminate. Qed.
Lemma just4_no_nl z : (0 <= z <= 9999)%Z -> no_nl (just4 z).
Proof.
  intros H. unfold just4. assert (M := fun x => mod10 x).
  assert (G : forall k l, Forall (fun d => (0 <= d <= 9)%Z) l -> no_nl (repeat " "%char k ++ map dchar l)) by (intros; apply Forall_app; split; [apply blanks_no_nl|apply digits_no_nl, digits_dchars; assumption]).
  destruct (Z.ltb_spec z 10); [apply (G 3%nat [z]); repeat constructor; lia|]. destruct (Z.ltb_spec z 100); [apply (G 2%nat [z / 10; z mod 10]%Z); repeat constructor; try apply mod10; Z.to_euclidean_division_equations; lia|].
  destruct (Z.ltb_spec z 1000); [apply (G 1%nat [z / 100; z / 10 mod 10; z mod 10]%Z); repeat constructor; try apply mod10; Z.to_euclidean_division_equations; lia|].
  apply (G 0%nat [z / 1000; z / 100 mod 10; z / 10 mod 10; z mod 10]%Z); repeat constructor; try apply mod10; Z.to_euclidean_division_equations; lia.
Qed.
Lemma line_no_nl x l : level_line x l -> no_nl x /\ x <> [] /\ data_line (x ++ nl).
Proof.
  intros [l' ti p pf z zf T Tf rh dd dir sp H1 H2 Hti Hp Hpf Hz Hzf HT HTf Hrh Hdd Hdir Hsp]. split; [|split].
  - apply concat_no_nl. repeat match goal with |- Forall no_nl _ => constructor end;
      first [apply blank_no_nl|apply dchar_no_nl; assumption|eapply flag_no_nl; eassumption|apply just_no_nl; first [eapply says_time_solid; eassumption|eapply says_solid; eassumption]].
  - discriminate.
  - cbn. revert H1. generalize (l_t1 l'). apply dchar_cases; discriminate.
Qed.
Lemma tail_no_nl t la lo : head_tail t la lo -> no_nl t.
Proof.
  intros [c1 c2 a o lat lon L1 L2 Ca Co N1 N2]. apply concat_no_nl. repeat match goal with |- Forall no_nl _ => constructor end;
      first [apply blank_no_nl|assumption|apply just_no_nl; eapply coord_solid; eassumption].
Qed.

Lemma Forall2_length {X Y} (P : X -> Y -> Prop) l r : Forall2 P l r -> List.length l = List.length r.
Proof. intros F. induction F; cbn; congruence. Qed.
Lemma good_valid g : good g -> valid (g_snd g).
Proof.
  intros [I Rl D C Tl R]. destruct R as (xs & F & E). assert (L := Forall2_length _ _ _ F). constructor; try tauto.
  - rewrite E, map_length. change (list ascii) with str. rewrite L. exact C.
  - rewrite E. clear -F. induction F as [|x l xs ls H F IH]; constructor; [eapply line_no_nl, H|exact IH].
Qed.

(** the header line without its line feed *)
Definition head_line (g : reported) (t : str) : str :=
  List.concat [tx "#"; s_id (g_snd g); tx " "; pad4 (s_y (g_snd g)); tx " "; pad2 (s_m (g_snd g)); tx " "; pad2 (s_d (g_snd g)); tx " "; pad2 (s_h (g_snd g)); tx " "; s_rel (g_snd g); tx " ";
               just4 (Z.of_nat (List.length (s_rows (g_snd g)))); t].
Lemma head_line_text g t : s_tail (g_snd g) = t ++ nl -> head_text (g_snd g) = head_line g t ++ nl.
Proof. intros E. unfold head_text, head_line. rewrite E. cbn [List.concat]. rewrite app_nil_r. rewrite <- !app_assoc. reflexivity. Qed.

Lemma count_rows g : good g -> List.length (s_rows (g_snd g)) = List.length (g_levels g).
Proof. intros [I Rl D C Tl R]. destruct R as (xs & F & ->). rewrite map_length. apply (Forall2_length _ _ _ F). Qed.

Theorem C132_header g t : good g -> head_tail t (g_lat g) (g_lon g) ->
  exists rel, read_head (A:=RA) (head_line g t) = Ok (Head (A:=RA) (s_id (g_snd g)) rel (Z.of_nat (List.length (g_levels g))) (IZR (g_lat g) / 10000)%R (IZR (g_lon g) / 10000)%R).
Proof.
  intros G Ht. assert (CR := count_rows g G). destruct G as [[I1 I2] [R1 R2] D C Tl R]. destruct Ht as [c1 c2 la lo lat lon L1 L2 Ca Co N1 N2].
  assert (S1 := coord_solid _ _ _ Ca). assert (S2 := coord_solid _ _ _ Co).
  unfold head_line. rewrite CR. assert (HJ := just4_int (Z.of_nat (List.length (g_levels g))) ltac:(lia)).
  set (jn := just4 (Z.of_nat (List.length (g_levels g)))) in *. destruct HJ as [HJ1 HJ2]. clearbody jn.
  set (segs := [tx "#"; s_id (g_snd g); tx " "; pad4 (s_y (g_snd g)); tx " "; pad2 (s_m (g_snd g)); tx " "; pad2 (s_d (g_snd g)); tx " "; pad2 (s_h (g_snd g)); tx " "; s_rel (g_snd g); tx " "; jn;
     tx " "; c1; tx " "; c2; tx " "; just 7 la; tx " "; just 8 lo]).
  match goal with |- context [List.concat (tx "#" :: ?q)] => replace (List.concat (tx "#" :: q)) with (List.concat segs) by (unfold segs; cbn [List.concat]; rewrite !app_nil_r; reflexivity) end.
  assert (K : forall k a b m, nth_error segs k = Some m -> a = Z.of_nat (List.length (List.concat (firstn k segs))) -> b = (a + Z.of_nat (List.length m))%Z -> str_slice (List.concat segs) a b = m).
  { intros k a b m E Ea Eb. destruct (nth_error_split segs k E) as (l1 & l2 & Es & Lk). rewrite Es in Ea |- *. apply seg_at; [|exact Eb].
    rewrite Ea, firstn_app, <- Lk, Nat.sub_diag, firstn_all. cbn [firstn]. rewrite app_nil_r. reflexivity. }
  unfold read_head, fwf.
  assert (Q1 : str_slice (List.concat segs) 1 12 = s_id (g_snd g)) by (apply (K 1%nat); [reflexivity|reflexivity|rewrite I1; reflexivity]).
  assert (Q11 : str_slice (List.concat segs) 27 31 = s_rel (g_snd g)) by (apply (K 11%nat); [reflexivity|subst segs; cbn [firstn List.concat]; rewrite ?app_length, I1; reflexivity|rewrite R2; reflexivity]).
  assert (Q13 : str_slice (List.concat segs) 32 36 = jn) by (apply (K 13%nat); [reflexivity|subst segs; cbn [firstn List.concat]; rewrite ?app_length, I1, R2; reflexivity|rewrite HJ2; reflexivity]).
  assert (Q19 : str_slice (List.concat segs) 55 62 = just 7 la) by (apply (K 19%nat); [reflexivity|subst segs; cbn [firstn List.concat]; rewrite ?app_length, I1, R2, HJ2, L1, L2; reflexivity|segl]).
  assert (Q21 : str_slice (List.concat segs) 63 71 = just 8 lo) by (apply (K 21%nat); [reflexivity|subst segs; cbn [firstn List.concat]; rewrite ?app_length, I1, R2, HJ2, L1, L2, just_length by tauto; reflexivity|segl]).
  rewrite Q1, Q11, Q13, Q19, Q21. clearbody segs. clear K Q1 Q11 Q13 Q19 Q21. rewrite !strip_just by tauto. rewrite (clatlon_coord _ _ _ Ca), (clatlon_coord _ _ _ Co).
  rewrite (strip_solid (s_id _)) by exact I2. rewrite (strip_solid (s_rel _)) by (apply digits_solid, R1). rewrite C76_release_exact by (auto; lia). cbn [bind].
  rewrite py_int_strip, HJ1. cbn [bind]. eexists. reflexivity.
Qed.

(** ** Lines *)

Lemma text_lines_word acc x s : no_nl x -> text_lines_from acc (x ++ s) = text_lines_from (rev x ++ acc) s.
Proof.
  intros N. revert acc. induction N as [|c x Hc N IH]; intros acc; [reflexivity|]. cbn [app text_lines_from rev].
  destruct (chr_eqb c "010") eqn:E; [apply Ascii.eqb_eq in E; congruence|]. rewrite IH, <- app_assoc. reflexivity.
Qed.
Lemma text_lines_concat xs : Forall (fun x => no_nl x /\ x <> []) xs -> text_lines (List.concat (map (fun x => x ++ nl) xs)) = xs.
Proof.
  intros F. unfold text_lines. induction F as [|x xs [N Hne] F IH]; [reflexivity|]. cbn [map List.concat]. rewrite <- app_assoc, text_lines_word by exact N. rewrite app_nil_r.
  cbn [app nl text_lines_from]. change (chr_eqb "010" "010") with true. cbv iota.
  destruct (rev x) eqn:E; [apply (f_equal (@rev _)) in E; rewrite rev_involutive in E; cbn in E; congruence|]. rewrite <- E, rev_involutive, IH. reflexivity.
Qed.

(** ** The tables *)

Open Scope R_scope.
(** The wind of a level: components of a wind of [s]/10 m/s from [d] degrees, rounded. *)
Definition wind_of (rnd : R -> R) (part : R * R -> R) (l : level) : option R :=
  match l_sp l, l_dir l with Some s, Some d => Some (rnd (part (wind (IZR s / 10) (IZR d)))) | _, _ => None end.
(** The dew point of a level. *)
Definition dew_of (l : level) : option R := match l_T l, l_dd l with Some t, Some d => Some ((IZR t - IZR d) / 10) | _, _ => None end.
(** A level is listed unless temperature, dew-point depression, wind direction and wind speed are all absent. *)
Definition listed (l : level) : bool := match l_T l, l_dd l, l_dir l, l_sp l with None, None, None, None => false | _, _, _, _ => true end.
Definition row_at (rnd : R -> R) (t : datetime) (l : level) : out_row RA := Out (A:=RA) t (row_of l) (wind_of rnd fst l) (wind_of rnd snd l) (dew_of l).
Definition table_of (rnd : R -> R) (gs : list reported) : list (out_row RA) :=
  flat_map (fun g => map (row_at rnd (time_of (g_snd g))) (filter listed (g_levels g))) gs.
(** The same header with any release time, whose conversion is the subject of C76. *)
Definition same_head (h : datetime * head_row RA) (g : reported) : Prop :=
  fst h = time_of (g_snd g) /\ h_site (snd h) = s_id (g_snd g) /\ h_levels (snd h) = Z.of_nat (List.length (g_levels g)) /\
  h_lat (A:=RA) (snd h) = IZR (g_lat g) / 10000 /\ h_lon (A:=RA) (snd h) = IZR (g_lon g) / 10000.

Lemma clean_level rnd t l : clean_row (A:=RA) rnd (t, row_of l) = if listed l then [row_at rnd t l] else [].
Proof.
  assert (E : forall d, (lit (a:=RA) (Dec d 1) * (pif (a:=RA) / lit (a:=RA) (Dec 180 1)))%A = (IZR d * (PI / 180))) by (intros d; ra; cbn; field).
  unfold clean_row, wind_cols, row_at, wind_of, dew_of, listed. cbn [row_of b_speed b_direction b_temperature b_depression].
  destruct (l_sp l) as [sp|], (l_dir l) as [di|], (l_T l) as [te|], (l_dd l) as [dd|]; cbn [scaled option_map degrees lift2 isna andb]; rewrite ?E; try reflexivity.
  all: match goal with |- context [sub (a:=RA) ?x ?y] => replace (sub (a:=RA) x y) with ((IZR te - IZR dd) / 10) by (ra; field) end; reflexivity.
Qed.

Lemma mapM_Forall2 {X Y} (f : X -> result Y) l r : Forall2 (fun x y => f x = Ok y) l r -> mapM f l = Ok r.
Proof. intros F. induction F as [|x y l r H F IH]; [reflexivity|]. cbn [mapM]. rewrite H, IH. reflexivity. Qed.

Theorem C132_tables rnd b e gs : wf_time b -> wf_time e -> Forall good gs -> sorted_file (map g_snd gs) ->
  let sel := filter (fun g => in_range b e (g_snd g)) gs in
  match sel with
  | [] => get_data (A:=RA) rnd b e (file_lines (map g_snd gs)) = Err ValueError
  | _ => exists heads, get_data (A:=RA) rnd b e (file_lines (map g_snd gs)) = Ok (table_of rnd sel, heads) /\ Forall2 same_head heads sel
  end.
Proof.
  intros Wb We G Srt sel.
  assert (V : Forall valid (map g_snd gs)) by (apply Forall_map; revert G; apply Forall_impl, good_valid).
  assert (Q := C74_selection b e _ Wb We V Srt). cbv zeta in Q.
  assert (Ef : filter (in_range b e) (map g_snd gs) = map g_snd sel).
  { subst sel. clear. induction gs as [|g gs IH]; [reflexivity|]. cbn. destruct (in_range b e (g_snd g)); cbn; rewrite IH; reflexivity. }
  rewrite Ef in Q. clear Ef. assert (Gs : Forall good sel) by (apply Forall_filter, G). clearbody sel. clear G V Srt Wb We.
  assert (Main : sel <> [] -> exists heads, get_data (A:=RA) rnd b e (file_lines (map g_snd gs)) = Ok (table_of rnd sel, heads) /\ Forall2 same_head heads sel);
    [|destruct sel as [|g0 sel0]; [unfold get_data; rewrite Q; reflexivity|apply Main; discriminate]].
  intros Hne. assert (Q2 : select_date_range b e (file_lines (map g_snd gs)) = Ok (List.concat (List.concat (map s_rows (map g_snd sel))), List.concat (map head_text (map g_snd sel)),
               List.concat (map (fun s => repeat (time_of s) (List.length (s_rows s))) (map g_snd sel)), map time_of (map g_snd sel))) by (rewrite Q; destruct sel; [congruence|reflexivity]).
  clear Q Hne. unfold get_data. rewrite Q2. clear Q2 gs b e. cbn [bind].
  (* body *)
  assert (B : exists xs, Forall2 level_line xs (List.concat (map g_levels sel)) /\ List.concat (map s_rows (map g_snd sel)) = map (fun x => x ++ nl) xs).
  { induction Gs as [|g sel Hg Gs IH]; [exists []; split; [constructor|reflexivity]|]. destruct IH as (xs & F & E). destruct (g_rows g Hg) as (ys & Fy & Ey).
    exists (ys ++ xs). split; [cbn; apply Forall2_app; assumption|]. cbn [map List.concat]. rewrite map_app, Ey. apply f_equal2; [reflexivity|exact E]. }
  destruct B as (xs & Fx & Ex). rewrite Ex. rewrite text_lines_concat by (clear -Fx; induction Fx as [|x l xs ls H F IH]; constructor; [split; eapply line_no_nl; eassumption|exact IH]).
  rewrite (mapM_Forall2 (read_body (A:=RA)) xs (map row_of (List.concat (map g_levels sel)))) by (clear -Fx; induction Fx as [|x l xs ls H F IH]; constructor; [apply C132_level, H|exact IH]).
  cbn [bind].
  (* headers *)
  assert (Hd : exists ts heads, map head_text (map g_snd sel) = map (fun x => x ++ nl) ts /\ Forall (fun x => no_nl x /\ x <> []) ts /\ Forall2 (fun x y => read_head (A:=RA) x = Ok y) ts heads /\
      Forall2 same_head (combine (map time_of (map g_snd sel)) heads) sel).
  { clear xs Fx Ex. induction Gs as [|g sel Hg Gs IH]; [exists [], []; repeat split; constructor|]. destruct IH as (ts & heads & E & N & F & S).
    destruct (g_tail g Hg) as (t & Ht & Et). destruct (C132_header g t Hg Ht) as (rel & Eh). exists (head_line g t :: ts). eexists (_ :: heads).
    split; [cbn [map]; apply f_equal2; [apply (head_line_text g t Et)|exact E]|]. split; [constructor; [split; [|discriminate]|exact N]|].
    - destruct Hg as [I Rl D C Tl R]. destruct I as [I1 I2].
      assert (HR : (Z.of_nat (List.length (s_rows (g_snd g))) <= 9999)%Z) by (destruct R as (ys & Fy & ->); rewrite map_length; change (list ascii) with str; rewrite (Forall2_length _ _ _ Fy); exact C).
      apply concat_no_nl. repeat match goal with |- Forall no_nl _ => constructor end;
        first [apply blank_no_nl|apply solid_no_nl; assumption|apply digits_no_nl; first [apply pad2_digits|apply pad4_digits|apply Rl]|apply just4_no_nl; lia|eapply tail_no_nl; eassumption|repeat constructor; discriminate].
    - split; [constructor; [exact Eh|exact F]|]. cbn. constructor; [repeat split|exact S]. }
  destruct Hd as (ts & heads & Eh & N & Fh & Sh). rewrite Eh, (text_lines_concat ts N), (mapM_Forall2 _ _ _ Fh). cbn [bind].
  assert (Ln : List.length (List.concat (map (fun s => repeat (time_of s) (List.length (s_rows s))) (map g_snd sel))) = List.length (map row_of (List.concat (map g_levels sel)))).
  { rewrite map_length. clear -Gs. induction Gs as [|g sel Hg Gs IH]; [reflexivity|]. cbn. rewrite !app_length, IH, repeat_length, (count_rows g Hg). reflexivity. }
  unfold join. rewrite Ln, Nat.eqb_refl. cbn [bind].
  assert (Lh : List.length (map time_of (map g_snd sel)) = List.length heads).
  { rewrite <- (Forall2_length _ _ _ Fh). assert (E2 := f_equal (@List.length _) Eh). rewrite !map_length in E2. rewrite !map_length. exact E2. }
  rewrite Lh, Nat.eqb_refl. cbn [bind]. exists (combine (map time_of (map g_snd sel)) heads). split; [|exact Sh]. apply f_equal, f_equal2; [|reflexivity].
  clear -Gs. unfold table_of. induction Gs as [|g sel Hg Gs IH]; [reflexivity|]. cbn [map List.concat flat_map]. rewrite map_app.
  assert (CB : forall (a1 : list datetime) (b1 : list (body_row RA)) a2 b2, List.length a1 = List.length b1 -> combine (a1 ++ a2) (b1 ++ b2) = (combine a1 b1 ++ combine a2 b2)%list).
  { induction a1 as [|x a1 IHa]; intros [|y b1] a2 b2 E; try discriminate; [reflexivity|]. cbn. rewrite IHa by (cbn in E; congruence). reflexivity. }
  rewrite CB by (rewrite repeat_length, map_length, (count_rows g Hg); reflexivity). rewrite flat_map_app, IH. apply f_equal2; [|reflexivity].
  rewrite (count_rows g Hg). clear. induction (g_levels g) as [|l ls IH]; [reflexivity|]. cbn [List.length repeat map combine flat_map filter]. rewrite clean_level, IH. destruct (listed l); reflexivity.
Qed.

(** A sounding of two levels; the second has pressure and height only and is not listed. *)
Definition lev1 : level := Lev 2 1 None (Some 101300%Z) 0 (Some 9%Z) 2 (Some 240%Z) 2 (Some 780%Z) (Some 40%Z) (Some 50%Z) (Some 31%Z).
Definition lev2 : level := Lev 1 0 (Some 75%Z) (Some 100000%Z) 0 (Some 120%Z) 2 None 0 None None None None.
Definition line1 : str := tx "21 -9999 101300     9B  240B  780    40    50    31".
Definition line2 : str := tx "10   115 100000   120B-9999 -9999 -9999 -9999 -9999".
Definition rep1 : reported := Rep (Snd (tx "SPM00060018") 2022 6 22 12 (tx "1100") (tx " ncdc6301 ncdc-gts  284744  -163822" ++ nl) [line1 ++ nl; line2 ++ nl]) [lev1; lev2] 284744 (-163822).
Lemma digits_tx s : forallb is_digit s = true -> digits s.
Proof. intros H. apply Forall_forall. apply forallb_forall, H. Qed.
Lemma says_num w neg ds : forallb is_digit ds = true -> ds <> [] -> (List.length (field neg ds) <= w)%nat -> (-8888 < fval neg ds)%Z -> says w (field neg ds) (Some (fval neg ds)).
Proof. intros D. apply says_value, digits_tx, D. Qed.
Lemma line1_ok : level_line line1 lev1.
Proof.
  apply (level_line_intro lev1 (tx "-9999") (tx "101300") " " (tx "9") "B" (tx "240") "B" (tx "780") (tx "40") (tx "50") (tx "31")); cbn [lev1 l_t1 l_t2 l_time l_p l_pf l_z l_zf l_T l_Tf l_rh l_dd l_dir l_sp]; try lia; try constructor; auto.
  - apply (says_num 6 false (tx "101300")); cbn; [reflexivity|discriminate|lia|reflexivity].
  - apply (says_num 5 false (tx "9")); cbn; [reflexivity|discriminate|lia|reflexivity].
  - apply (says_num 5 false (tx "240")); cbn; [reflexivity|discriminate|lia|reflexivity].
  - apply (says_num 5 false (tx "780")); cbn; [reflexivity|discriminate|lia|reflexivity].
  - apply (says_num 5 false (tx "40")); cbn; [reflexivity|discriminate|lia|reflexivity].
  - apply (says_num 5 false (tx "50")); cbn; [reflexivity|discriminate|lia|reflexivity].
  - apply (says_num 5 false (tx "31")); cbn; [reflexivity|discriminate|lia|reflexivity].
Qed.
Lemma line2_ok : level_line line2 lev2.
Proof.
  apply (level_line_intro lev2 (tx "115") (tx "100000") " " (tx "120") "B" (tx "-9999") " " (tx "-9999") (tx "-9999") (tx "-9999") (tx "-9999")); cbn [lev2 l_t1 l_t2 l_time l_p l_pf l_z l_zf l_T l_Tf l_rh l_dd l_dir l_sp]; try lia; try (constructor; lia); try constructor.
  - apply (time_value (tx "115") 1 15); cbn; [apply digits_tx; reflexivity|lia|reflexivity|lia].
  - apply (says_num 6 false (tx "100000")); cbn; [reflexivity|discriminate|lia|reflexivity].
  - apply (says_num 5 false (tx "120")); cbn; [reflexivity|discriminate|lia|reflexivity].
Qed.
Example C132_example rnd : good rep1 /\ sorted_file [g_snd rep1] /\
  exists heads, get_data (A:=RA) rnd (DT 2022 6 22 0 0 0) (DT 2022 6 22 23 0 0) (file_lines [g_snd rep1]) = Ok ([row_at rnd (DT 2022 6 22 12 0 0) lev1], heads) /\ Forall2 same_head heads [rep1].
Proof.
  assert (G : good rep1).
  { constructor; cbn [rep1 g_snd g_levels g_lat g_lon s_id s_rel s_y s_m s_d s_h s_tail s_rows].
    - split; [reflexivity|]. apply Forall_forall. assert (F : forallb (fun c => negb (is_space c)) (tx "SPM00060018") = true) by reflexivity. rewrite forallb_forall in F. intros c Hc. apply negb_true_iff, F, Hc.
    - split; [apply digits_tx|]; reflexivity.
    - cbn. lia.
    - cbn. lia.
    - eexists. split; [|reflexivity]. assert (N : forall u, forallb (fun c => negb (chr_eqb c "010")) u = true -> Forall (fun c => c <> "010"%char) u).
      { intros u F. apply Forall_forall. rewrite forallb_forall in F. intros c Hc E. specialize (F c Hc). rewrite E in F. discriminate. }
      refine (head_tail_intro (tx "ncdc6301") (tx "ncdc-gts") (tx "284744") (tx "-163822") _ _ _ _ _ _ _ _); [reflexivity|reflexivity| | |apply N; reflexivity|apply N; reflexivity].
      + apply (coord_intro 7 false (tx "284744")); [apply digits_tx; reflexivity|cbn; lia|cbn; lia].
      + apply (coord_intro 8 true (tx "163822")); [apply digits_tx; reflexivity|cbn; lia|cbn; lia].
    - exists [line1; line2]. split; [|reflexivity]. constructor; [apply line1_ok|]. constructor; [apply line2_ok|constructor]. }
  assert (S : sorted_file [g_snd rep1]) by (repeat constructor). split; [exact G|]. split; [exact S|].
  assert (Q := C132_tables rnd (DT 2022 6 22 0 0 0) (DT 2022 6 22 23 0 0) [rep1]). cbv zeta in Q. apply Q; clear Q.
  - cbn. unfold wf_time. cbn. lia.
  - cbn. unfold wf_time. cbn. lia.
  - constructor; [exact G|constructor].
  - exact S.
Qed.
