(** Claims C80, C81 and C101: requests to the web services and the metadata of Wyoming soundings. *)

From Coq Require Import ZArith Lia List Bool Ascii String.
Import ListNotations.
From Verif Require Import Arith PyBase PyStr StrAux Igra Web PropsIgra PropsIgra2.

(** ** C80: addresses and status *)

(** Specification: [u] is [base] and [path] with exactly one slash in between. *)
Definition joined (base path u : str) : Prop :=
  exists b, (base = b \/ base = b ++ tx "/") /\ (forall b', b <> b' ++ tx "/") /\ u = b ++ tx "/" ++ path.

Lemma ends_app c s : ends_with c (s ++ [c]) = true.
Proof. unfold ends_with. rewrite rev_app_distr. cbn. unfold chr_eqb. apply Ascii.eqb_refl. Qed.
Lemma ends_split c s : ends_with c s = true -> exists b, s = b ++ [c].
Proof.
  unfold ends_with, starts_with, chr_eqb. destruct (rev s) as [|x r] eqn:E; [discriminate|]. intros H%Ascii.eqb_eq. subst x. exists (rev r).
  rewrite <- (rev_involutive s), E. reflexivity.
Qed.

(** A base without a doubled slash at the end and a relative path are joined by exactly one slash. *)
Theorem C80_joined base path : base <> [] -> starts_with "/" path = false -> (forall b, base <> b ++ tx "//") -> joined base path (url_path base path).
Proof.
  intros Hb Hp Hd. unfold url_path, posix_join. rewrite Hp. destruct base as [|x b0] eqn:Eb; [congruence|]. rewrite <- Eb in *. clear Hb.
  destruct (ends_with "/" base) eqn:E.
  - destruct (ends_split _ _ E) as (b & ->). exists b. split; [right; reflexivity|]. split; [|rewrite <- app_assoc; reflexivity]. intros b' ->. apply (Hd b'). rewrite <- app_assoc. reflexivity.
  - exists base. split; [left; reflexivity|]. split; [|reflexivity]. intros b' ->. change (tx "/") with ["/"%char] in E. rewrite ends_app in E. discriminate.
Qed.
(** A path that starts with a slash replaces the address of the service. *)
Theorem C80_absolute_refuted base path : starts_with "/" path = true -> url_path base path = path.
Proof. intros H. unfold url_path, posix_join. rewrite H. reflexivity. Qed.
(** The two sounding services always ask their own server. *)
Theorem C80_callers site t beg derived : url_path igra_base (igra_path site beg derived) = igra_base ++ igra_path site beg derived /\
  url_path wyoming_base (wyoming_path t site) = wyoming_base ++ tx "/" ++ wyoming_path t site.
Proof. split; destruct beg, derived; reflexivity. Qed.
(** The list of stations does not: a region starting with a slash leaves the server. *)
Theorem C80_region region : (starts_with "/" region = false -> stations_url region = tx "http://weather.uwyo.edu/upperair/" ++ region ++ tx ".html") /\
  (starts_with "/" region = true -> stations_url region = region ++ tx ".html").
Proof. split; intros H; unfold stations_url, url_path, posix_join; destruct region as [|c r]; try reflexivity; try discriminate; cbn [app starts_with] in *; rewrite H; reflexivity. Qed.

(** Only an answer with status 200 is used, whatever the server does. *)
Theorem C80_status net url r : http_get net url = Ok r <-> status (net url) = 200%Z /\ r = net url.
Proof. unfold http_get. destruct (Z.eqb_spec (status (net url)) 200) as [E|E]; cbn; split; [intros [= <-]; auto|intros [_ ->]; reflexivity|discriminate|intros [? _]; contradiction]. Qed.
Theorem C80_errors net url t site beg derived :
  (status (net url) <> 200%Z -> http_get net url = Err HTTPError) /\
  (status (net (url_path igra_base (igra_path site beg derived))) <> 200%Z -> igra_fetch net site beg derived = Err ValueError) /\
  (status (net (url_path wyoming_base (wyoming_path t site))) <> 200%Z -> wyoming_raw net t site = Err HTTPError).
Proof.
  assert (E : forall u, status (net u) <> 200%Z -> http_get net u = Err HTTPError) by (intros u H; unfold http_get; destruct (Z.eqb_spec (status (net u)) 200); [contradiction|reflexivity]).
  split; [apply E|]. split; intros H; [unfold igra_fetch, get_path|unfold wyoming_raw, get_path]; rewrite (E _ H); reflexivity.
Qed.
(** [t] occurs in [s]. *)
Lemma contains_spec t s : contains t s = true <-> exists a b, s = a ++ t ++ b.
Proof.
  assert (P : forall t s, prefix_of t s = true <-> exists b, s = t ++ b).
  { clear. induction t as [|c t IH]; intros s; [split; [exists s; reflexivity|reflexivity]|]. destruct s as [|d s]; [split; [discriminate|intros (b & H); discriminate]|].
    cbn [prefix_of]. rewrite andb_true_iff, IH. unfold chr_eqb. rewrite Ascii.eqb_eq. split; [intros (-> & b & ->); exists b; reflexivity|intros (b & H); injection H as -> ->; eauto]. }
  induction s as [|x s IH]; cbn [contains]; rewrite orb_true_iff, P.
  - split; [intros [(b & H)|H]; [exists [], b; exact H|discriminate]|]. intros (a & b & H). left. destruct a as [|? ?]; [exists b; exact H|discriminate].
  - rewrite IH. split; [intros [(b & H)|(a & b & ->)]; [exists [], b; exact H|exists (x :: a), b; reflexivity]|].
    intros ([|y a] & b & H); [left; exists b; exact H|]. injection H as -> ->. right. eauto.
Qed.
(** A page saying that there is no sounding is an error, any other page is returned. *)
Theorem C80_wyoming_pages net t site : status (net (url_path wyoming_base (wyoming_path t site))) = 200%Z ->
  let page := text (net (url_path wyoming_base (wyoming_path t site))) in
  ((exists a b, page = a ++ tx "Can't" ++ b) -> wyoming_raw net t site = Err ValueError) /\ (~ (exists a b, page = a ++ tx "Can't" ++ b) -> wyoming_raw net t site = Ok page).
Proof.
  intros H page. unfold wyoming_raw, get_path. rewrite (proj2 (C80_status net _ _) (conj H eq_refl)). cbn [bind]. fold page. rewrite <- contains_spec.
  destruct (contains (tx "Can't") page); split; intros; congruence.
Qed.
Example C80_example : joined igra_base (tx "data-por/X") (url_path igra_base (tx "data-por/X")) /\ url_path igra_base (tx "/x") = tx "/x".
Proof.
  split; [|reflexivity]. apply C80_joined; [discriminate|reflexivity|]. intros b E. apply (f_equal (@rev ascii)) in E. rewrite rev_app_distr in E. discriminate.
Qed.

(** ** C81: requests to the Wyoming archive *)

Lemma digits_sep a b c d x y : digits a -> digits b -> is_digit c = false -> is_digit d = false -> a ++ c :: x = b ++ d :: y -> a = b /\ c :: x = d :: y.
Proof.
  intros Ha. revert b. induction Ha as [|u a Hu Ha IH]; intros b Hb Hc Hd E; destruct Hb as [|w b Hw Hb]; cbn [app] in E; auto.
  - injection E as -> _. congruence.
  - injection E as -> _. congruence.
  - injection E as -> E. destruct (IH b Hb Hc Hd E) as [-> E']. auto.
Qed.
Lemma year_text y : (1 <= y <= 9999)%Z -> digits (fmt_year y) /\ dval (fmt_year y) = y.
Proof.
  intros H. unfold fmt_year.
  assert (G : forall l v, Forall (fun d => 0 <= d <= 9)%Z l -> fold_left (fun a d => 10 * a + d)%Z l 0%Z = v -> digits (map dchar l) /\ dval (map dchar l) = v).
  { intros l v F <-. split; [apply digits_dchars, F|apply dval_dchars, F]. }
  destruct (Z.ltb_spec y 10); [|destruct (Z.ltb_spec y 100); [|destruct (Z.ltb_spec y 1000)]].
  - apply (G [y]); [repeat constructor; lia|cbn [fold_left]; lia].
  - apply (G [y / 10; y mod 10]%Z); [repeat constructor; Z.to_euclidean_division_equations; lia|cbn [fold_left]; Z.to_euclidean_division_equations; lia].
  - apply (G [y / 100; y / 10 mod 10; y mod 10]%Z); [repeat constructor; Z.to_euclidean_division_equations; lia|cbn [fold_left]; Z.to_euclidean_division_equations; lia].
  - apply (G [y / 1000; y / 100 mod 10; y / 10 mod 10; y mod 10]%Z); [repeat constructor; Z.to_euclidean_division_equations; lia|cbn [fold_left]; Z.to_euclidean_division_equations; lia].
Qed.
Lemma fmt2_inj a b x y : (0 <= a <= 99)%Z -> (0 <= b <= 99)%Z -> fmt2 a ++ x = fmt2 b ++ y -> a = b /\ x = y.
Proof.
  intros Ha Hb E. change (fmt2 a) with (pad2 a) in E. change (fmt2 b) with (pad2 b) in E. injection E as E1 E2 E3. split; [|exact E3].
  rewrite <- (pad2_val a Ha), <- (pad2_val b Hb). unfold pad2. rewrite E1, E2. reflexivity.
Qed.

(** Different hours or stations are different requests. *)
Theorem C81_injective t1 t2 site1 site2 : wf_time t1 -> wf_time t2 -> (1 <= yr t1 <= 9999)%Z -> (1 <= yr t2 <= 9999)%Z ->
  url_path wyoming_base (wyoming_path t1 site1) = url_path wyoming_base (wyoming_path t2 site2) ->
  yr t1 = yr t2 /\ mo t1 = mo t2 /\ dy t1 = dy t2 /\ hr t1 = hr t2 /\ site1 = site2.
Proof.
  intros (A1 & A2 & A3 & _) (B1 & B2 & B3 & _) Y1 Y2 E. rewrite (proj2 (C80_callers site1 t1 false false)), (proj2 (C80_callers site2 t2 false false)) in E.
  do 2 apply app_inv_head in E. unfold wyoming_path in E. do 2 apply app_inv_head in E.
  destruct (year_text _ Y1) as [D1 V1]. destruct (year_text _ Y2) as [D2 V2].
  change (fmt_year (yr t1) ++ "&"%char :: (tx "MONTH=" ++ fmt2 (mo t1) ++ tx "&FROM=" ++ fmt2 (dy t1) ++ fmt2 (hr t1) ++ tx "&TO=" ++ fmt2 (dy t1) ++ fmt2 (hr t1) ++ tx "&STNM=" ++ site1) =
          fmt_year (yr t2) ++ "&"%char :: (tx "MONTH=" ++ fmt2 (mo t2) ++ tx "&FROM=" ++ fmt2 (dy t2) ++ fmt2 (hr t2) ++ tx "&TO=" ++ fmt2 (dy t2) ++ fmt2 (hr t2) ++ tx "&STNM=" ++ site2)) in E.
  apply digits_sep in E; auto. destruct E as [EY E]. split; [rewrite <- V1, <- V2, EY; reflexivity|]. apply (f_equal (@tl ascii)) in E. cbn [tl] in E. apply app_inv_head in E.
  apply fmt2_inj in E; [|lia|lia]. destruct E as [EM E]. apply app_inv_head in E. apply fmt2_inj in E; [|lia|lia]. destruct E as [ED E]. apply fmt2_inj in E; [|lia|lia]. destruct E as [EH E].
  rewrite ED, EH in E. do 4 apply app_inv_head in E. auto.
Qed.
(** Minutes and seconds are not part of the request. *)
Theorem C81_hour_only t1 t2 site : yr t1 = yr t2 -> mo t1 = mo t2 -> dy t1 = dy t2 -> hr t1 = hr t2 -> wyoming_path t1 site = wyoming_path t2 site.
Proof. intros E1 E2 E3 E4. unfold wyoming_path. rewrite E1, E2, E3, E4. reflexivity. Qed.
Example C81_example : wf_time (DT 2022 6 22 12 0 0) /\ url_path wyoming_base (wyoming_path (DT 2022 6 22 12 0 0) (tx "LIRE")) =
  tx "http://weather.uwyo.edu/cgi-bin/sounding/?region=naconf&TYPE=TEXT%3ALIST&YEAR=2022&MONTH=06&FROM=2212&TO=2212&STNM=LIRE".
Proof. split; [cbv; intuition discriminate|vm_compute; reflexivity]. Qed.

(** ** C101: metadata of a sounding *)

Lemma split_at_cons c a b : ~ In c a -> split_at c (a ++ c :: b) = a :: split_at c b.
Proof.
  intros H. induction a as [|x a IH]; cbn [app split_at]; [unfold chr_eqb; rewrite Ascii.eqb_refl; reflexivity|].
  unfold chr_eqb. destruct (Ascii.eqb_spec x c) as [->|N]; [exfalso; apply H; left; reflexivity|]. rewrite IH by (intros Q; apply H; right; exact Q). reflexivity.
Qed.
Lemma split_at_none c b : ~ In c b -> split_at c b = [b].
Proof.
  intros H. induction b as [|x b IH]; [reflexivity|]. cbn [split_at]. unfold chr_eqb. destruct (Ascii.eqb_spec x c) as [->|N]; [exfalso; apply H; left; reflexivity|].
  rewrite IH by (intros Q; apply H; right; exact Q). reflexivity.
Qed.

(** Text without blanks at its ends. *)
Definition trimmed (v : str) : Prop := strip v = v.
(** A line of the block: indented label, colon, blank and value. *)
Definition meta_line (k : nat) (label v : str) : str := repeat " "%char k ++ label ++ tx ": " ++ v.
Lemma meta_value_line k label v : ~ In ":"%char label -> ~ In ":"%char v -> trimmed v -> meta_value (meta_line k label v) = Ok v.
Proof.
  intros Hl Hv T. unfold meta_value, meta_line. change (tx ": " ++ v) with (":"%char :: " "%char :: v).
  rewrite app_assoc, split_at_cons; [|intros Q; apply in_app_or in Q; destruct Q as [Q|Q]; [apply repeat_spec in Q; discriminate|contradiction]].
  rewrite split_at_none by (intros [Q|Q]; [discriminate|contradiction]). assert (G : forall a b : str, py_get [a; b] 1 = Ok b) by reflexivity. rewrite G. cbn [bind].
  assert (E := strip_pad 1 v). cbn [repeat app] in E. rewrite E, T. reflexivity.
Qed.

Definition stamp (t : datetime) : str := pad2 (yr t mod 100) ++ pad2 (mo t) ++ pad2 (dy t) ++ tx "/" ++ pad2 (hr t) ++ pad2 (mi t).
Record valid_time (t : datetime) : Prop := {
  t_m : (1 <= mo t <= 12)%Z; t_d : (1 <= dy t <= month_days (yr t) (mo t))%Z; t_h : (0 <= hr t <= 23)%Z; t_n : (0 <= mi t <= 59)%Z; t_s : se t = 0%Z }.
Lemma two_pad z : (0 <= z <= 99)%Z -> two (pad2 z) = Ok z.
Proof.
  intros H. assert (D := pad2_digits z). assert (V := pad2_val z H). unfold pad2 in *. unfold two. rewrite (Forall_inv D), (Forall_inv (Forall_inv_tail D)). cbn [andb].
  unfold dval in V. cbn [fold_left] in V. f_equal. lia.
Qed.
(** Time stamps have two digits for the year. *)
Lemma strptime_stamp t : valid_time t -> (1969 <= yr t <= 2068)%Z -> strptime (stamp t) = Ok t.
Proof.
  intros [M D H N S] Y. assert (D31 := month_days_31 (yr t) (mo t)). unfold strptime.
  change (negb (Nat.eqb (List.length (stamp t)) 11) || negb (str_eqb (str_slice (stamp t) 6 7) (tx "/"))) with false. cbv iota.
  change (str_slice (stamp t) 0 2) with (pad2 (yr t mod 100)). change (str_slice (stamp t) 2 4) with (pad2 (mo t)). change (str_slice (stamp t) 4 6) with (pad2 (dy t)).
  change (str_slice (stamp t) 7 9) with (pad2 (hr t)). change (str_slice (stamp t) 9 11) with (pad2 (mi t)).
  rewrite !two_pad by (lia || (assert (Q := Z.mod_pos_bound (yr t) 100); lia)). cbn [bind].
  assert (E : (if (yr t mod 100 <=? 68)%Z then 2000 + yr t mod 100 else 1900 + yr t mod 100)%Z = yr t) by (destruct (Z.leb_spec (yr t mod 100) 68); Z.to_euclidean_division_equations; lia).
  rewrite E. unfold mk_datetime. destruct (Z.leb_spec 1 (yr t)); [|lia]. destruct (Z.leb_spec (yr t) 9999); [|lia]. destruct (Z.leb_spec 1 (mo t)); [|lia]. destruct (Z.leb_spec (mo t) 12); [|lia].
  destruct (Z.leb_spec 1 (dy t)); [|lia]. destruct (Z.leb_spec (dy t) (month_days (yr t) (mo t))); [|lia]. destruct (Z.leb_spec 0 (hr t)); [|lia]. destruct (Z.leb_spec (hr t) 23); [|lia]. cbn [andb bind].
  destruct (Z.leb_spec (mi t) 59); [|lia]. cbn [yr mo dy hr]. destruct t as [y m d h n s]. cbn in *. subst s. reflexivity.
Qed.

(** A decimal number as text. *)
Definition decimal (neg : bool) (a b : str) : str := field neg (a ++ "."%char :: b).
Definition decimal_val (neg : bool) (a b : str) : dec := Dec (fval neg (a ++ b)) (Z.to_pos (10 ^ Z.of_nat (List.length b))).
Lemma digits_no c s : digits s -> is_digit c = false -> ~ In c s.
Proof. intros H N Q. unfold digits in H. rewrite Forall_forall in H. rewrite (H c Q) in N. discriminate. Qed.
Lemma decimal_facts neg a b : digits a -> digits b -> trimmed (decimal neg a b) /\ ~ In ":"%char (decimal neg a b).
Proof.
  intros Ha Hb. split.
  - apply strip_solid. assert (S : Forall (fun c => is_space c = false) (a ++ "."%char :: b)) by (apply Forall_app; split; [apply digits_solid, Ha|constructor; [reflexivity|apply digits_solid, Hb]]).
    destruct neg; [constructor; [reflexivity|exact S]|exact S].
  - assert (N : ~ In ":"%char (a ++ "."%char :: b)) by (intros Q; apply in_app_or in Q; destruct Q as [Q|[Q|Q]]; [eapply digits_no; [exact Ha| |exact Q]; reflexivity|discriminate|eapply digits_no; [exact Hb| |exact Q]; reflexivity]).
    destruct neg; [intros [Q|Q]; [discriminate|contradiction]|exact N].
Qed.

(** The block of a sounding, with or without the line of the identifier. *)
Record station := Station { w_name : str; w_num : str; w_time : datetime; w_lat : bool * str * str; w_lon : bool * str * str; w_elev : bool * str * str }.
Definition dec_text (x : bool * str * str) : str := decimal (fst (fst x)) (snd (fst x)) (snd x).
Definition dec_val (x : bool * str * str) : dec := decimal_val (fst (fst x)) (snd (fst x)) (snd x).
Definition dec_ok (x : bool * str * str) : Prop := digits (snd (fst x)) /\ digits (snd x) /\ snd (fst x) ++ snd x <> [].
Definition block (k : nat) (first : str) (w : station) (named : bool) (rest : list str) : list str :=
  first :: (if named then [meta_line k (tx "Station identifier") (w_name w)] else []) ++
  [meta_line k (tx "Station number") (w_num w); meta_line k (tx "Observation time") (stamp (w_time w)); meta_line k (tx "Station latitude") (dec_text (w_lat w));
   meta_line k (tx "Station longitude") (dec_text (w_lon w)); meta_line k (tx "Station elevation") (dec_text (w_elev w))] ++ rest.
Record station_ok (w : station) : Prop := {
  w1 : trimmed (w_name w) /\ ~ In ":"%char (w_name w) /\ (forall a b, w_name w <> a ++ tx "Station number" ++ b);
  w2 : digits (w_num w) /\ w_num w <> [];
  w3 : valid_time (w_time w);
  w4 : dec_ok (w_lat w); w5 : dec_ok (w_lon w); w6 : dec_ok (w_elev w) }.

Lemma meta_float k label x : ~ In ":"%char label -> dec_ok x -> meta_value (meta_line k label (dec_text x)) = Ok (dec_text x) /\ py_float (dec_text x) = Ok (dec_val x).
Proof.
  intros Hl (D1 & D2 & D3). destruct (decimal_facts (fst (fst x)) (snd (fst x)) (snd x) D1 D2) as [T N]. split; [apply meta_value_line; auto|]. apply float_digits; auto.
Qed.
Lemma stamp_facts t : trimmed (stamp t) /\ ~ In ":"%char (stamp t).
Proof.
  assert (D := pad2_digits). split.
  - apply strip_solid. unfold stamp. repeat (apply Forall_app; split); try (apply digits_solid, D). repeat constructor.
  - unfold stamp. intros Q. repeat (apply in_app_or in Q; destruct Q as [Q|Q]); try (revert Q; apply digits_no; [apply D|reflexivity]). destruct Q as [Q|[]]. discriminate.
Qed.
Lemma not_number k name : (forall a b, name <> a ++ tx "Station number" ++ b) -> contains (tx "Station number") (meta_line k (tx "Station identifier") name) = false.
Proof.
  intros H. assert (E : contains (tx "Station number") name = false) by (destruct (contains (tx "Station number") name) eqn:E; [|reflexivity]; apply contains_spec in E; destruct E as (a & b & E); elim (H a b E)).
  unfold meta_line. induction k as [|k IH]; [|exact IH]. cbn [repeat app]. cbn. cbn in E. rewrite E. reflexivity.
Qed.

Theorem C101_metadata k first w (named : bool) rest : station_ok w -> (1969 <= yr (w_time w) <= 2068)%Z ->
  wyoming_meta (block k first w named rest) =
    Ok (Meta (if named then w_name w else []) (dval (w_num w)) (w_time w) (dec_val (w_lat w)) (dec_val (w_lon w)) (dec_val (w_elev w))).
Proof.
  intros [(N1 & N2 & N3) (D1 & D2) T L1 L2 L3] Y.
  assert (NC : forall s, forallb (fun c => negb (Ascii.eqb c ":")) (tx s) = true -> ~ In ":"%char (tx s)) by (intros s H Q; rewrite forallb_forall in H; specialize (H _ Q); discriminate).
  assert (G : forall l1 v1, meta_value l1 = Ok v1 -> forall ls, ls = first :: l1 :: skipn (if named then 2 else 1) (block k first w named rest) ->
    (do l1' <- py_get ls 1; do station <- meta_value l1'; do l2 <- py_get ls 2; do v2 <- meta_value l2; do number <- py_int v2; do l3 <- py_get ls 3; do v3 <- meta_value l3; do time <- strptime v3;
     do l4 <- py_get ls 4; do v4 <- meta_value l4; do lat <- py_float v4; do l5 <- py_get ls 5; do v5 <- meta_value l5; do lon <- py_float v5; do l6 <- py_get ls 6; do v6 <- meta_value l6; do elev <- py_float v6;
     Ok (Meta station number time lat lon elev)) = Ok (Meta v1 (dval (w_num w)) (w_time w) (dec_val (w_lat w)) (dec_val (w_lon w)) (dec_val (w_elev w)))).
  { intros l1 v1 H1 ls Els.
    assert (GL : forall j, (j < 7)%nat -> py_get ls (Z.of_nat j) = match nth_error ls j with Some x => Ok x | None => Err IndexError end).
    { intros j Hj. unfold py_get, py_pos. assert (LL : (7 <= List.length ls)%nat) by (rewrite Els; destruct named; cbn; lia).
      destruct (Z.leb_spec 0 (Z.of_nat j)); [|lia]. destruct (Z.ltb_spec (Z.of_nat j) (Z.of_nat (List.length ls))); [|lia]. cbn [andb]. rewrite Nat2Z.id. reflexivity. }
    assert (EL : ls = first :: l1 :: [meta_line k (tx "Station number") (w_num w); meta_line k (tx "Observation time") (stamp (w_time w)); meta_line k (tx "Station latitude") (dec_text (w_lat w));
       meta_line k (tx "Station longitude") (dec_text (w_lon w)); meta_line k (tx "Station elevation") (dec_text (w_elev w))] ++ rest) by (rewrite Els; destruct named; reflexivity).
    rewrite (GL 1%nat ltac:(lia) : py_get ls 1 = _), (GL 2%nat ltac:(lia) : py_get ls 2 = _), (GL 3%nat ltac:(lia) : py_get ls 3 = _), (GL 4%nat ltac:(lia) : py_get ls 4 = _),
      (GL 5%nat ltac:(lia) : py_get ls 5 = _), (GL 6%nat ltac:(lia) : py_get ls 6 = _). rewrite EL. cbn [nth_error app bind]. rewrite H1. cbn [bind].
    rewrite meta_value_line; [|apply NC; reflexivity|apply digits_no; [exact D1|reflexivity]|apply strip_solid, digits_solid, D1]. cbn [bind]. rewrite py_int_digits0 by auto. cbn [bind].
    destruct (stamp_facts (w_time w)) as [S1 S2]. rewrite meta_value_line by (auto; apply NC; reflexivity). cbn [bind]. rewrite strptime_stamp by auto. cbn [bind].
    destruct (meta_float k (tx "Station latitude") (w_lat w) ltac:(apply NC; reflexivity) L1) as [M1 F1]. rewrite M1. cbn [bind]. rewrite F1. cbn [bind].
    destruct (meta_float k (tx "Station longitude") (w_lon w) ltac:(apply NC; reflexivity) L2) as [M2 F2]. rewrite M2. cbn [bind]. rewrite F2. cbn [bind].
    destruct (meta_float k (tx "Station elevation") (w_elev w) ltac:(apply NC; reflexivity) L3) as [M3 F3]. rewrite M3. cbn [bind]. rewrite F3. reflexivity. }
  unfold wyoming_meta. destruct named.
  - assert (P1 : py_get (block k first w true rest) 1 = Ok (meta_line k (tx "Station identifier") (w_name w))).
    { unfold py_get, py_pos. assert (LL : (2 <= List.length (block k first w true rest))%nat) by (cbn; lia). destruct (Z.ltb_spec 1 (Z.of_nat (List.length (block k first w true rest)))); [reflexivity|lia]. }
    rewrite P1. cbn [bind]. rewrite not_number by exact N3. cbv iota zeta.
    rewrite (G (meta_line k (tx "Station identifier") (w_name w)) (w_name w)); [reflexivity| |reflexivity]. apply meta_value_line; auto; apply NC; reflexivity.
  - assert (P1 : py_get (block k first w false rest) 1 = Ok (meta_line k (tx "Station number") (w_num w))).
    { unfold py_get, py_pos. assert (LL : (2 <= List.length (block k first w false rest))%nat) by (cbn; lia). destruct (Z.ltb_spec 1 (Z.of_nat (List.length (block k first w false rest)))); [reflexivity|lia]. }
    rewrite P1. cbn [bind]. assert (C : contains (tx "Station number") (meta_line k (tx "Station number") (w_num w)) = true) by (apply contains_spec; exists (repeat " "%char k), (tx ": " ++ w_num w); reflexivity).
    rewrite C. cbv iota zeta. rewrite (G (tx "Station identifier: ") []); [reflexivity|reflexivity|reflexivity].
Qed.
(** Outside these hundred years the century is wrong. *)
Theorem C101_century_refuted t : valid_time t -> (1869 <= yr t <= 1968)%Z -> forall t', strptime (stamp t) = Ok t' -> yr t' = (yr t + 100)%Z.
Proof.
  intros [M D H N S] Y t'. assert (D31 := month_days_31 (yr t) (mo t)). unfold strptime.
  change (negb (Nat.eqb (List.length (stamp t)) 11) || negb (str_eqb (str_slice (stamp t) 6 7) (tx "/"))) with false. cbv iota.
  change (str_slice (stamp t) 0 2) with (pad2 (yr t mod 100)). change (str_slice (stamp t) 2 4) with (pad2 (mo t)). change (str_slice (stamp t) 4 6) with (pad2 (dy t)).
  change (str_slice (stamp t) 7 9) with (pad2 (hr t)). change (str_slice (stamp t) 9 11) with (pad2 (mi t)).
  rewrite !two_pad by (lia || (assert (Q := Z.mod_pos_bound (yr t) 100); lia)). cbn [bind].
  assert (E : (if (yr t mod 100 <=? 68)%Z then 2000 + yr t mod 100 else 1900 + yr t mod 100)%Z = (yr t + 100)%Z) by (destruct (Z.leb_spec (yr t mod 100) 68); Z.to_euclidean_division_equations; lia).
  rewrite E. unfold mk_datetime. match goal with |- context [if ?c then _ else _] => destruct c end; [|discriminate]. cbn [bind]. destruct (mi t <=? 59)%Z; [|discriminate]. intros [= <-]. reflexivity.
Qed.
Definition lire : station := Station (tx "LIRE") (tx "16245") (DT 2022 6 22 12 0 0) (false, tx "41", tx "66") (false, tx "12", tx "45") (false, tx "12", tx "0").
Example C101_example : station_ok lire /\ (1969 <= yr (w_time lire) <= 2068)%Z.
Proof.
  split; [|cbn; lia]. constructor; try (split; [repeat constructor|]; try split; try discriminate; repeat constructor; fail).
  - split; [reflexivity|]. split; [intros [Q|[Q|[Q|[Q|[]]]]]; discriminate|]. intros a b E. apply (f_equal (@List.length _)) in E. rewrite !app_length in E. cbn in E. lia.
  - constructor; cbn; lia.
Qed.
