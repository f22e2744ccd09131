(** Claims C133 and C134: the levels and the stations read from the Wyoming archive. *)

From Coq Require Import ZArith Lia List Bool Ascii String.
Import ListNotations.
From Verif Require Import Arith PyBase PyStr StrAux Igra Web WyoTable PropsIgra2.
Local Open Scope Z_scope.

(** ** Specification: a line has columns of seven characters *)

(** A decimal number and its value. *)
Inductive decimal : str -> dec -> Prop :=
| dec_int neg ds : digits ds -> ds <> [] -> decimal (field neg ds) (Dec (fval neg ds) 1)
| dec_frac neg a b : digits a -> digits b -> a ++ b <> [] -> decimal (field neg (a ++ "."%char :: b)) (Dec (fval neg (a ++ b)) (Z.to_pos (10 ^ Z.of_nat (List.length b)))).
(** A column: blank, or a number after at least one blank. *)
Inductive column : str -> option dec -> Prop :=
| col_blank : column (repeat " "%char 7) None
| col_number t x : decimal t x -> (List.length t <= 6)%nat -> column (repeat " "%char (7 - List.length t) ++ t) (Some x).
(** The columns are pressure, height, temperature, dew point, relative humidity, mixing ratio, wind direction, wind speed
    and three potential temperatures. *)
Definition report := list (option dec).
Inductive report_line : str -> report -> Prop := report_intro segs vals : Forall2 column segs vals -> report_line (List.concat segs) vals.
Definition col (v : report) (k : nat) : option dec := nth k v None.
Definition level_of (v : report) : wlevel := WLev (col v 0) (col v 1) (col v 2) (col v 3) (col v 4) (col v 5).
(** No value after a gap. *)
Inductive no_gap : report -> Prop :=
| gap_rest k : no_gap (repeat None k)
| gap_more x v : no_gap v -> no_gap (Some x :: v).

(** ** Words of a line *)

Definition present (v : report) : list dec := flat_map (fun o => match o with Some x => [x] | None => [] end) v.

Lemma decimal_solid t x : decimal t x -> Forall (fun c => is_space c = false) t /\ t <> [].
Proof.
  intros [neg ds D N|neg a b Da Db N].
  - split; [|destruct neg; [discriminate|exact N]]. assert (S := digits_solid ds D). destruct neg; [constructor; [reflexivity|exact S]|exact S].
  - assert (S : Forall (fun c => is_space c = false) (a ++ "."%char :: b)) by (apply Forall_app; split; [apply digits_solid, Da|constructor; [reflexivity|apply digits_solid, Db]]).
    destruct neg; cbn; (split; [try (constructor; [reflexivity|]); exact S|try discriminate]). destruct a; discriminate.
Qed.
Lemma decimal_float t x : decimal t x -> py_float t = Ok x.
Proof. intros [neg ds D N|neg a b Da Db N]; [apply float_int|apply float_digits]; assumption. Qed.
Lemma split_blanks k s : split (repeat " "%char k ++ s) = split s.
Proof. induction k as [|k IH]; [reflexivity|]. cbn [repeat app]. unfold split in *. cbn [split_from]. change (is_space " ") with true. exact IH. Qed.
Lemma column_head s v : column s v -> exists s', s = " "%char :: s'.
Proof. intros [|t x D L]; [eexists; reflexivity|]. destruct (7 - List.length t)%nat eqn:E; [lia|]. eexists. reflexivity. Qed.
Lemma split_columns segs vals : Forall2 column segs vals -> exists ts, split (List.concat segs) = ts /\ Forall2 decimal ts (present vals).
Proof.
  intros F. induction F as [|s v segs vals H F IH]; [exists []; split; [reflexivity|constructor]|]. destruct IH as (ts & E & Ft). cbn [List.concat present flat_map].
  destruct H as [|t x D L]; [exists ts; split; [rewrite split_blanks; exact E|exact Ft]|].
  exists (t :: ts). split; [|constructor; assumption]. rewrite <- app_assoc, split_blanks. destruct (decimal_solid t x D) as [S N].
  destruct F as [|s v segs vals H F]; [cbn in E |- *; rewrite app_nil_r; rewrite split_last by assumption; rewrite <- E; reflexivity|].
  cbn [List.concat] in *. destruct (column_head s v H) as [s' ->]. cbn [app] in *. rewrite split_cons by assumption. f_equal. rewrite <- E. unfold split. cbn [split_from]. reflexivity.
Qed.

(** What becomes of a line: the values present, in order, whatever their columns. *)
Theorem C133_exact x v : report_line x v -> read_level x = Ok (level_of (map Some (present v))) /\ (blank x = true <-> present v = []).
Proof.
  intros [segs vals F]. destruct (split_columns segs vals F) as (ts & E & Ft). unfold read_level, blank. rewrite E. split.
  - assert (C : forall k, cell ts k = Ok (col (map Some (present vals)) k)).
    { revert Ft. generalize (present vals). clear. intros vs Ft. induction Ft as [|t x ts vs D Ft IH]; intros k; [destruct k; reflexivity|].
      destruct k as [|k]; [unfold cell; cbn [nth_error]; rewrite (decimal_float t x D); reflexivity|exact (IH k)]. }
    rewrite !C. reflexivity.
  - destruct Ft; split; congruence.
Qed.

(** ** C133: rows without gaps are read correctly, others are not *)

Lemma no_gap_present v : no_gap v -> forall k, col (map Some (present v)) k = col v k.
Proof.
  intros H. induction H as [n|x v H IH]; intros k.
  - assert (E : present (repeat None n) = []) by (induction n; auto). rewrite E. unfold col. cbn [map]. rewrite nth_repeat. destruct k; reflexivity.
  - destruct k as [|k]; [reflexivity|exact (IH k)].
Qed.
Theorem C133_row x v : report_line x v -> no_gap v -> read_level x = Ok (level_of v).
Proof. intros R G. destruct (C133_exact x v R) as [-> _]. unfold level_of. rewrite !(no_gap_present v G). reflexivity. Qed.

Lemma split_at_word c x s : Forall (fun d => d <> c) x -> split_at c (x ++ c :: s) = x :: split_at c s.
Proof.
  intros F. induction F as [|d x Hd F IH]; cbn [app split_at]; [unfold chr_eqb; rewrite Ascii.eqb_refl; reflexivity|]. rewrite IH.
  unfold chr_eqb. destruct (Ascii.eqb_spec d c); [congruence|]. reflexivity.
Qed.
Definition line_text (s : str) : Prop := Forall (fun d => d <> "010"%char) s.
Definition page (lines : list str) : str := List.concat (map (fun l => l ++ ["010"%char]) lines).
Lemma page_lines lines : Forall line_text lines -> split_at "010" (page lines) = (lines ++ [[]])%list.
Proof.
  intros F. induction F as [|l ls Hl F IH]; [reflexivity|]. unfold page in *. cbn [map List.concat]. rewrite <- app_assoc. cbn [app]. rewrite split_at_word by exact Hl. rewrite IH. reflexivity.
Qed.
Lemma column_text s v : column s v -> line_text s.
Proof.
  assert (B : forall k, line_text (repeat " "%char k)) by (induction k; constructor; [discriminate|assumption]).
  intros [|t x D L]; [apply B|]. apply Forall_app. split; [apply B|]. destruct (decimal_solid t x D) as [S _]. revert S. apply Forall_impl. intros c H ->. discriminate.
Qed.
Lemma report_text x v : report_line x v -> line_text x.
Proof. intros [segs vals F]. induction F as [|s o segs vals H F IH]; [constructor|]. apply Forall_app. split; [eapply column_text, H|exact IH]. Qed.

(** The table of a page: the levels with temperature and dew point, in order, every value under its own name, provided
    no report has a value after a gap. *)
Theorem C133_table heads xs vs : List.length heads = 5%nat -> Forall line_text heads -> Forall2 report_line xs vs -> Forall no_gap vs -> 
  wyoming_levels (page (heads ++ xs)) = Ok (filter has_both (map level_of vs)).
Proof.
  intros L H F G. unfold wyoming_levels. assert (T : Forall line_text (heads ++ xs)) by (apply Forall_app; split; [exact H|]; clear -F; induction F; constructor; eauto using report_text).
  rewrite page_lines by exact T. rewrite <- app_assoc, skipn_app, <- L, skipn_all, Nat.sub_diag. cbn [skipn app]. clear L H T heads.
  rewrite filter_app. change (filter (fun l => negb (blank l)) [[]]) with (@nil str). rewrite app_nil_r.
  assert (Main : exists ls, mapM read_level (filter (fun l => negb (blank l)) xs) = Ok ls /\ filter has_both ls = filter has_both (map level_of vs)).
  { induction F as [|x v xs vs R F IH]; [exists []; auto|]. inversion G as [|? ? Gv G']; subst. destruct (IH G') as (ls & E & Ef). clear IH. cbn [filter map].
    destruct (C133_exact x v R) as [_ B]. destruct (blank x) eqn:Bx; cbn [negb].
    - exists ls. split; [exact E|]. rewrite Ef. destruct Gv as [k|y v Gv]; [|assert (Q := proj1 B eq_refl); discriminate Q].
      destruct k as [|[|[|k]]]; reflexivity.
    - exists (level_of v :: ls). cbn [mapM]. rewrite (C133_row x v R Gv), E. split; [reflexivity|]. cbn [filter]. rewrite Ef. reflexivity. }
  destruct Main as (ls & E & Ef). rewrite E. cbn [bind]. rewrite Ef. reflexivity.
Qed.

(** Above the levels with humidity measurements a report has no dew point, but it has wind: the wind direction is returned
    as dew point, the wind speed as relative humidity and the potential temperature as mixing ratio. *)
Theorem C133_humidity_refuted x p h t dir speed theta rest : report_line x (Some p :: Some h :: Some t :: None :: None :: None :: Some dir :: Some speed :: Some theta :: rest) ->
  read_level x = Ok (WLev (Some p) (Some h) (Some t) (Some dir) (Some speed) (Some theta)).
Proof. intros R. destruct (C133_exact _ _ R) as [-> _]. reflexivity. Qed.
(** A report of wind alone becomes a temperature and a dew point. *)
Theorem C133_wind_refuted x p h dir speed rest : report_line x (Some p :: Some h :: None :: None :: None :: None :: Some dir :: Some speed :: rest) ->
  exists r m, read_level x = Ok (WLev (Some p) (Some h) (Some dir) (Some speed) r m).
Proof. intros R. destruct (C133_exact _ _ R) as [-> _]. unfold level_of, col. cbn. eauto. Qed.
(** So the table of a page is not always made of the values of its columns. *)
Theorem C133_refuted heads x p h t dir speed theta : List.length heads = 5%nat -> Forall line_text heads ->
  report_line x [Some p; Some h; Some t; None; None; None; Some dir; Some speed; Some theta; None; None] ->
  wyoming_levels (page (heads ++ [x])) = Ok [WLev (Some p) (Some h) (Some t) (Some dir) (Some speed) (Some theta)].
Proof.
  intros L H R. unfold wyoming_levels. assert (T : Forall line_text (heads ++ [x])) by (apply Forall_app; split; [exact H|]; constructor; [eapply report_text, R|constructor]).
  rewrite page_lines by exact T. rewrite <- app_assoc, skipn_app, <- L, skipn_all, Nat.sub_diag. cbn [skipn app]. destruct (C133_exact _ _ R) as [E B].
  cbn [filter]. destruct (blank x); [assert (Q := proj1 B eq_refl); discriminate Q|]. cbn [negb blank split]. change (blank []) with true. cbn [negb mapM]. rewrite E. reflexivity.
Qed.

(** A level of the troposphere and one without humidity. *)
Definition wyo1 : str := tx " 1000.0    125   15.2   12.4     83   9.13    150      6  288.4  314.6  290.0".
Definition wyo2 : str := tx "   30.0  23890  -52.3                         265     18  601.6              ".
Ltac column_int t := apply (col_number t); [apply (dec_int false t); [apply Forall_forall, forallb_forall; reflexivity|discriminate]|cbn; lia].
Ltac column_frac neg a b := apply (col_number (field neg (a ++ "."%char :: b))); [apply (dec_frac neg a b); [apply Forall_forall, forallb_forall; reflexivity|apply Forall_forall, forallb_forall; reflexivity|discriminate]|cbn; lia].
Lemma wyo1_ok : exists rest, report_line wyo1 (Some (Dec 10000 10) :: Some (Dec 125 1) :: Some (Dec 152 10) :: Some (Dec 124 10) :: Some (Dec 83 1) :: Some (Dec 913 100) :: map Some rest).
Proof.
  exists [Dec 150 1; Dec 6 1; Dec 2884 10; Dec 3146 10; Dec 2900 10].
  apply (report_intro [tx " 1000.0"; tx "    125"; tx "   15.2"; tx "   12.4"; tx "     83"; tx "   9.13"; tx "    150"; tx "      6"; tx "  288.4"; tx "  314.6"; tx "  290.0"]). repeat apply Forall2_cons; [..|constructor].
  - column_frac false (tx "1000") (tx "0").
  - column_int (tx "125").
  - column_frac false (tx "15") (tx "2").
  - column_frac false (tx "12") (tx "4").
  - column_int (tx "83").
  - column_frac false (tx "9") (tx "13").
  - column_int (tx "150").
  - column_int (tx "6").
  - column_frac false (tx "288") (tx "4").
  - column_frac false (tx "314") (tx "6").
  - column_frac false (tx "290") (tx "0").
Qed.
Lemma wyo2_ok : report_line wyo2 [Some (Dec 300 10); Some (Dec 23890 1); Some (Dec (-523) 10); None; None; None; Some (Dec 265 1); Some (Dec 18 1); Some (Dec 6016 10); None; None].
Proof.
  apply (report_intro [tx "   30.0"; tx "  23890"; tx "  -52.3"; tx "       "; tx "       "; tx "       "; tx "    265"; tx "     18"; tx "  601.6"; tx "       "; tx "       "]). repeat apply Forall2_cons; [..|constructor]; try apply col_blank.
  - column_frac false (tx "30") (tx "0").
  - column_int (tx "23890").
  - column_frac true (tx "52") (tx "3").
  - column_int (tx "265").
  - column_int (tx "18").
  - column_frac false (tx "601") (tx "6").
Qed.
Example C133_example : exists v, report_line wyo1 v /\ no_gap v /\
  wyoming_levels (page (map tx [""; "-----"; "PRES"; "hPa"; "-----"]%string ++ [wyo1])) = Ok [level_of v] /\
  wyoming_levels (page (map tx [""; "-----"; "PRES"; "hPa"; "-----"]%string ++ [wyo2])) = Ok [WLev (Some (Dec 300 10)) (Some (Dec 23890 1)) (Some (Dec (-523) 10)) (Some (Dec 265 1)) (Some (Dec 18 1)) (Some (Dec 6016 10))].
Proof.
  destruct wyo1_ok as [rest R]. eexists. split; [exact R|]. split; [repeat apply gap_more; clear; induction rest; [apply (gap_rest 0)|apply gap_more; assumption]|]. split; reflexivity.
Qed.

(** ** C134: stations *)

Lemma set_item_keys k v d : In k (map fst (set_item k v d)) /\ (forall j, In j (map fst (set_item k v d)) <-> j = k \/ In j (map fst d)) /\ (NoDup (map fst d) -> NoDup (map fst (set_item k v d))).
Proof.
  assert (M : forall j, In j (map fst (set_item k v d)) <-> j = k \/ In j (map fst d)).
  { intros j. induction d as [|[k' v'] d IH]; [cbn; intuition congruence|]. cbn [set_item]. destruct (str_eqb k' k) eqn:E.
    - apply str_eqb_spec in E as ->. cbn. intuition congruence.
    - cbn [map fst In]. rewrite IH. intuition congruence. }
  split; [apply M; auto|]. split; [exact M|]. clear M. induction d as [|[k' v'] d IH]; intros N; [cbn; repeat constructor; auto|].
  cbn [set_item]. inversion N as [|? ? Hn N']; subst. destruct (str_eqb k' k) eqn:E; [exact N|]. cbn [map fst]. constructor; [|apply IH, N'].
  intros Hin. assert (M : In k' (map fst (set_item k v d)) -> k' = k \/ In k' (map fst d)).
  { clear. induction d as [|[k2 v2] d IH]; [cbn; intuition congruence|]. cbn [set_item]. destruct (str_eqb k2 k); cbn; intuition. }
  destruct (M Hin) as [->|H]; [rewrite (proj2 (str_eqb_spec k k) eq_refl) in E; discriminate|contradiction].
Qed.
Lemma set_item_get k v d : In (k, v) (set_item k v d) /\ forall j w, j <> k -> In (j, w) (set_item k v d) <-> In (j, w) d.
Proof.
  split.
  - induction d as [|[k' v'] d IH]; [left; reflexivity|]. cbn [set_item]. destruct (str_eqb k' k) eqn:E; [apply str_eqb_spec in E as ->; left; reflexivity|right; exact IH].
  - intros j w N. induction d as [|[k' v'] d IH]; [cbn; intuition congruence|]. cbn [set_item]. destruct (str_eqb k' k) eqn:E; [apply str_eqb_spec in E as ->; cbn; intuition congruence|]. cbn [In]. rewrite IH. tauto.
Qed.

(** A title is a code without blanks, blanks, and a name without blanks at its ends. *)
Definition title_text (code : str) (gap : nat) (name : str) : str := code ++ repeat " "%char (S gap) ++ name.
Definition code_text (c : str) : Prop := c <> [] /\ Forall (fun x => x <> " "%char) c.

Lemma split_at_join s : join_blank (split_at " " s) = s.
Proof.
  induction s as [|c s IH]; [reflexivity|]. cbn [split_at]. unfold chr_eqb. destruct (Ascii.eqb_spec c " ") as [->|N].
  - destruct (split_at " " s) as [|w l] eqn:E; [destruct s; cbn in E; [discriminate|]; destruct (chr_eqb a " "); [discriminate|]; destruct (split_at " " s); discriminate|]. cbn [join_blank]. cbn in IH |- *. rewrite IH. reflexivity.
  - destruct (split_at " " s) as [|w l] eqn:E; [cbn in IH; subst; reflexivity|]. destruct l; cbn in *; rewrite IH; reflexivity.
Qed.
Lemma station_title code gap name : code_text code -> strip name = name -> station_of (title_text code gap name) = (code, name).
Proof.
  intros [Hne F] S. unfold station_of, title_text. cbn [repeat app]. rewrite split_at_word by exact F. cbn [nth skipn]. rewrite split_at_join, strip_pad, S. reflexivity.
Qed.

Lemma last_split {T} (a : list T) x b l y : (l ++ [y])%list = (a ++ x :: b)%list -> (b = [] /\ a = l /\ x = y) \/ exists b', b = (b' ++ [y])%list /\ l = (a ++ x :: b')%list.
Proof.
  intros E. destruct b as [|z b] using rev_ind; [apply app_inj_tail in E; destruct E as [-> ->]; left; auto|]. clear IHb. right. exists b.
  assert (E2 : (l ++ [y])%list = ((a ++ x :: b) ++ [z])%list) by (rewrite E, <- app_assoc; reflexivity). apply app_inj_tail in E2. destruct E2 as [-> ->]. auto.
Qed.
Definition named (ts : list (str * str)) (code name : str) : Prop := exists a b, ts = (a ++ (code, name) :: b)%list /\ ~ In code (map fst b).
Lemma stations_titled ts gaps titles : Forall (fun t => code_text (fst t) /\ strip (snd t) = snd t) ts -> Forall2 (fun t o => o = Some (title_text (fst (fst t)) (snd t) (snd (fst t)))) (combine ts gaps) titles ->
  List.length gaps = List.length ts -> NoDup (map fst (stations titles)) /\ forall code name, In (code, name) (stations titles) <-> named ts code name.
Proof.
  intros Ht Hf Hl. unfold stations.
  set (f := add_station).
  revert gaps titles Hf Hl. induction ts as [|[code name] ts IH] using rev_ind; intros gaps titles Hf Hl.
  - cbn in Hf. inversion Hf; subst. split; [constructor|]. intros c n. split; [intros []|]. intros (a & b & E & _). destruct a; discriminate.
  - apply Forall_app in Ht. destruct Ht as [Ht1 Ht2]. apply Forall_inv in Ht2. cbn [fst snd] in Ht2. destruct Ht2 as [C S].
    destruct (@exists_last _ gaps) as (gs & g & ->); [intros ->; rewrite app_length in Hl; cbn in Hl; lia|].
    assert (Hl' : List.length gs = List.length ts) by (rewrite !app_length in Hl; cbn in Hl; lia).
    assert (Ec : combine (ts ++ [(code, name)]) (gs ++ [g]) = (combine ts gs ++ [((code, name), g)])%list).
    { clear -Hl'. revert gs Hl'. induction ts as [|t ts IH]; intros [|g0 gs] Hl; try discriminate; [reflexivity|]. cbn. rewrite IH by (cbn in Hl; lia). reflexivity. }
    rewrite Ec in Hf. apply Forall2_app_inv_l in Hf. destruct Hf as (t1 & t2 & F1 & F2 & ->). inversion F2 as [|? o ? ? E F3]; subst. inversion F3; subst. cbn [fst snd] in *.
    specialize (IH Ht1 gs t1 F1 Hl'). destruct IH as [IH1 IH2]. rewrite fold_left_app. cbn [fold_left].
    assert (Ef : forall d, f d (Some (title_text code g name)) = set_item code name d).
    { intros d. unfold f, add_station. rewrite station_title by assumption. destruct C as [Hne _]. destruct code as [|c0 code]; [congruence|]. reflexivity. }
    rewrite Ef. set (d := fold_left f t1 []) in *. split; [apply set_item_keys, IH1|]. intros c n. destruct (list_eq_dec ascii_dec c code) as [->|N].
    + split.
      * intros Hin. exists ts, []. split; [|auto]. assert (Nd : NoDup (map fst (set_item code name d))) by (apply set_item_keys, IH1). assert (Hin2 := proj1 (set_item_get code name d)).
        assert (U : n = name); [|subst; reflexivity]. clear -Nd Hin Hin2. induction (set_item code name d) as [|[k v] l IH]; [destruct Hin|]. cbn in Nd. inversion Nd as [|? ? Hn Nd']; subst.
        destruct Hin as [E|Hin], Hin2 as [E2|Hin2]; [congruence| | |auto].
        -- injection E as -> ->. exfalso. apply Hn. apply (in_map fst) in Hin2. exact Hin2.
        -- injection E2 as -> ->. exfalso. apply Hn. apply (in_map fst) in Hin. exact Hin.
      * intros (a & b & E & Nb). destruct (last_split _ _ _ _ _ E) as [(-> & -> & E2)|(b' & -> & ->)]; [injection E2 as <-; apply (proj1 (set_item_get code _ d))|].
        exfalso. apply Nb. rewrite map_app, in_app_iff. right. left. reflexivity.
    + rewrite (proj2 (set_item_get code name d) c n N), IH2. unfold named. split.
      * intros (a & b & -> & Nb). exists a, (b ++ [(code, name)])%list. split; [rewrite <- app_assoc; reflexivity|]. rewrite map_app, in_app_iff. cbn. intuition.
      * intros (a & b & E & Nb). destruct (last_split _ _ _ _ _ E) as [(-> & -> & E2)|(b' & -> & ->)]; [congruence|].
        exists a, b'. split; [reflexivity|]. rewrite map_app, in_app_iff in Nb. tauto.
Qed.
(** Every station once, with the name of its last title; nothing else. Map areas without title are passed over. *)
Definition titled (o : option str) : bool := match o with None | Some [] => false | _ => true end.
Theorem C134_stations ts gaps titles : Forall (fun t => code_text (fst t) /\ strip (snd t) = snd t) ts ->
  Forall2 (fun t o => o = Some (title_text (fst (fst t)) (snd t) (snd (fst t)))) (combine ts gaps) (filter titled titles) ->
  List.length gaps = List.length ts -> NoDup (map fst (stations titles)) /\ forall code name, In (code, name) (stations titles) <-> named ts code name.
Proof.
  intros Ht Hf Hl. assert (E : stations titles = stations (filter titled titles)).
  { unfold stations. generalize (@nil (str * str)). clear. induction titles as [|[[|c t]|] titles IH]; intros d; [reflexivity|apply IH|apply IH|apply IH]. }
  rewrite E. apply (stations_titled ts gaps); assumption.
Qed.
Example C134_example : let ts := [(tx "16245", tx "Pratica Di Mare"); (tx "16320", tx "Brindisi"); (tx "16245", tx "Pratica")] in
  Forall (fun t => code_text (fst t) /\ strip (snd t) = snd t) ts /\ named ts (tx "16245") (tx "Pratica") /\ ~ named ts (tx "16245") (tx "Pratica Di Mare").
Proof.
  cbv zeta. split; [|split].
  - assert (N : forall u, forallb (fun c => negb (chr_eqb c " ")) u = true -> Forall (fun c => c <> " "%char) u) by (intros u F; apply Forall_forall; rewrite forallb_forall in F; intros c Hc E; specialize (F c Hc); rewrite E in F; discriminate).
    repeat constructor; cbn [fst snd]; try discriminate; apply N; reflexivity.
  - exists [(tx "16245", tx "Pratica Di Mare"); (tx "16320", tx "Brindisi")], []. split; [reflexivity|intros []].
  - intros (a & b & E & Nb). destruct a as [|x [|y [|z a]]]; cbn in E; try (injection E; intros; subst; try discriminate); [apply Nb; cbn; auto|destruct a; discriminate].
Qed.
