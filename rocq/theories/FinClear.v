(** The clear-sky absorption profiles of the solver are finite, non-negative and equal to the ideal ones. *)

From Coq Require Import ZArith Reals Lra Lia Psatz String List Bool.
Import ListNotations.
From Verif Require Import Arith PyBase Utils RTE Absorption Clear Spectrum RealAux SolverGen LineData Lineshape PropsAbsN2 PropsLiq PropsClear PropsO2H2O PropsH2O PropsO2Data PropsO3
  PropsUtils PropsSelfCont PropsSDWater FinTransfer FinGas FinSD.
Local Open Scope string_scope.
Open Scope R_scope.

Definition o3_fin_names := ["R18"; "R23"].
Lemma shipped_o3_D m : In m o3_fin_names -> str_in m ["R22"; "R22SD"] = false /\ In m o3_models /\
  exists xl l, db_o3 (@shipped XA) m = Some xl /\ db_o3 (@shipped RA) m = Some l /\ Dzl xl l /\ Forall sharp_o3 (z_lines l).
Proof.
  assert (L : forall mtx rl, forallb (fun r => dec_pos (nth 1 r 0%dec) && dec_nn (nth 4 r 0%dec)) mtx = true ->
     Dzl (o3_load (A:=XA) mtx rl) (o3_load (A:=RA) mtx rl) /\ Forall sharp_o3 (z_lines (o3_load (A:=RA) mtx rl))).
  { intros mtx rl H. assert (N : (lit (a:=RA) (Dec 10000 10) : R) <> 0) by (ra; lra). split.
    - constructor; cbn [o3_load z_reftline z_lines]; [apply D_lit|]. clear H. induction mtx as [|r mtx IH]; cbn [map]; constructor; [|exact IH].
      constructor; cbn [o3_row z_fl z_s1 z_b z_w z_x]; try apply D_lit. apply D_div; [apply D_lit|apply D_lit|exact N].
    - apply Forall_forall. intros x Hx. cbn [o3_load z_lines] in Hx. apply in_map_iff in Hx. destruct Hx as (r & <- & Hr).
      apply (proj1 (forallb_forall _ _) H) in Hr. apply andb_true_iff in Hr. destruct Hr as [H1 H2]. apply dec_pos_R in H1. apply dec_nn_R in H2.
      unfold sharp_o3, o3_row, col. cbn [z_fl z_w]. split; [exact H1|]. apply div_nonneg; [exact H2|ra; lra]. }
  intros Hm. unfold o3_fin_names in Hm. cbn [In] in Hm. change (db_o3 (@shipped XA) m) with (shipped_o3 (A:=XA) m). change (db_o3 (@shipped RA) m) with (shipped_o3 (A:=RA) m).
  unfold shipped_o3.
  destruct Hm as [<-|[<-|[]]]; (split; [reflexivity|]); (split; [unfold o3_models; cbn [In]; tauto|]); cbn [String.eqb Ascii.eqb Bool.eqb]; eexists _, _; (split; [reflexivity|]); (split; [reflexivity|]); apply L; vm_compute; reflexivity.
Qed.

(** The class state of the package after selecting water-vapour model [mw], oxygen model [mo], nitrogen model [mn], and loading the shipped lists. *)
Record selected (A : Arith) (mw mo mn : string) (g : globals A) : Prop := mkSel {
  sel_h2o : g_h2o g = Some mw; sel_h2oll : g_h2oll g = db_h2o (@shipped A) mw; sel_o2 : g_o2 g = Some mo; sel_o2ll : g_o2ll g = db_o2 (@shipped A) mo;
  sel_n2 : g_n2 g = Some mn }.
(** Ozone: no profile, or a model with collision-broadened shapes and its shipped list. *)
Definition ozone_ready (gx : globals XA) (gr : globals RA) (o3 : option R) : Prop :=
  match o3 with
  | None => True
  | Some n => 0 <= n /\ exists mz, In mz o3_fin_names /\ g_o3 gx = Some mz /\ g_o3 gr = Some mz /\ g_o3ll gx = db_o3 (@shipped XA) mz /\ g_o3ll gr = db_o3 (@shipped RA) mz
  end.

Lemma o3_call_D gx gr t p f o3 : ozone_ready gx gr o3 -> 0 < t -> 0 <= p ->
  exists a, o3_call (A:=XA) gx None (Fin t) (Fin p) (Fin f) (option_map Fin o3) = Ok (Fin a) /\ o3_call (A:=RA) gr None t p f o3 = Ok a /\ 0 <= a.
Proof.
  intros H Ht Hp. destruct o3 as [n|]; cbn [option_map].
  - destruct H as (Hn & mz & Hm & E1 & E2 & E3 & E4). destruct (shipped_o3_D mz Hm) as (M1 & M2 & xl & l & S1 & S2 & SD & SS).
    destruct (C56_shipped_lists mz l S2) as (_ & G & R0).
    exists (o3_absorption (A:=RA) mz l t p f n).
    assert (IN : str_in mz o3_models = true) by (apply existsb_exists; exists mz; split; [exact M2|apply String.eqb_refl]).
    unfold o3_call. rewrite E1, E2, E3, E4, S1, S2. cbn [mname over]. rewrite IN. split; [|split; [reflexivity|]].
    + f_equal. apply (o3_D mz xl l (Fin t) (Fin p) (Fin f) (Fin n) t p f n M1 SD SS R0); auto; reflexivity.
    + apply C56_nonnegative; auto.
  - exists (lit (a:=RA) (Dec 0 1)). split; [reflexivity|]. split; [reflexivity|]. ra. lra.
Qed.

Lemma prod3_D (xf f a b : R) : xf = f -> D (mul (a:=XA) (mul (a:=XA) (mul (a:=XA) (lit (Dec 182 1000)) (Fin xf)) (add (a:=XA) (Fin a) (Fin b))) db2np)
   (mul (a:=RA) (mul (a:=RA) (mul (a:=RA) (lit (Dec 182 1000)) f) (add (a:=RA) a b)) db2np).
Proof. intros ->. apply D_mul; [|exact db2np_D]. apply D_mul; [|reflexivity]. apply D_mul; [apply D_lit|reflexivity]. Qed.

Lemma prod3_nn (f a b : R) : 0 < f -> 0 <= a -> 0 <= b -> 0 <= (mul (a:=RA) (mul (a:=RA) (mul (a:=RA) (lit (Dec 182 1000)) f) (add (a:=RA) a b)) db2np : R).
Proof. intros Hf Ha Hb. apply Rmult_le_pos; [|apply Rlt_le, db2np_pos]. ra. apply Rmult_le_pos; [apply Rmult_le_pos; lra|lra]. Qed.

(** Where the water-vapour model [m] is covered: everywhere for the models with Lorentz shapes; for speed-dependent shapes between 100 K
    and 385 K, up to 1100 hPa, and (continua of R23SD, R24 and MWL24) below the fourth node of the table. *)
Definition water_range (m : string) (f p t : R) : Prop :=
  In m std_models \/ (In m sd_fin_models /\ 100 <= t <= 385 /\ p <= 1100 /\ (In m ["R23SD"; "R24"; "MWL24"] -> f < 4 * node)).
Definition fin_o2_names := (plain_o2_names ++ ["R23"; "R24"])%list.

Lemma water_level m f p t e : water_range m f p t -> 0 < f -> 0 < t -> 0 <= e -> e < p ->
  let pd := (p - e) / 10 in let v := 300 / t in let ek := e / 10 in
  exists xw lw nw cw, db_h2o (@shipped XA) m = Some xw /\ db_h2o (@shipped RA) m = Some lw /\ h2o_absorption (A:=RA) m lw pd v ek f = Ok (nw, cw) /\
    h2o_absorption (A:=XA) m xw (Fin pd) (Fin v) (Fin ek) (Fin f) = Ok (Fin nw, Fin cw) /\ 0 <= nw /\ 0 <= cw.
Proof.
  intros [Mw|(Mw & Rt & Rp & Rf)] Hf Ht He Hp pd v ek; assert (Pd : 0 < pd) by (unfold pd; lra); assert (Pv : 0 < v) by (apply div_pos; lra); assert (Pe : 0 <= ek) by (unfold ek; lra).
  - destruct (shipped_h2o_D m Mw) as (xw & lw & W1 & W2 & W3 & W4 & W5). destruct (std_returns m lw pd v ek f Mw) as (nw & cw & Hw).
    destruct (C57_h2o_nonnegative m lw pd v ek f nw cw Mw W4 Pv ltac:(lra) Pe Hf Hw) as [Nw Cw].
    assert (HwX := h2o_D m xw lw (Fin pd) (Fin v) (Fin ek) (Fin f) pd v ek f nw cw Mw W3 W4 W5 eq_refl eq_refl eq_refl eq_refl Pv Pd Pe Hf Hw).
    exists xw, lw, nw, cw. auto 10.
  - apply water_sd_level; auto; unfold pd, ek, v; [|lra]. replace (300 / (300 / t)) with t by (field; lra). exact Rt.
Qed.

Lemma and_assoc_alt (A B C : Prop) : (A /\ B) /\ C -> A /\ B /\ C. Proof. tauto. Qed.

Lemma shipped_o2_sd_D m : In m ["R23"; "R24"] -> exists xl l, db_o2 (@shipped XA) m = Some xl /\ db_o2 (@shipped RA) m = Some l /\ Dol xl l /\ Forall sharp_o2 (o_lines l) /\ 0 < (o_wb300 l : R) /\
  Forall (fun k : o2_line RA => 0 < (o_s300 k : R)) (o_lines l) /\ (2 <= List.length (o_lines l))%nat.
Proof.
  assert (P : forall x wb f s (G : nat -> o2_line RA), (forall i, o_s300 (G i) = litR (nth i s 0%dec)) -> forallb (fun i => dec_pos (nth i s 0%dec)) (seq 0 (List.length f)) = true ->
    Forall (fun k : o2_line RA => 0 < (o_s300 k : R)) (o_lines (o2_load (A:=RA) x wb f G))).
  { intros x wb f s G HG H. apply Forall_forall. intros y Hy. unfold o2_load in Hy. cbn [o_lines] in Hy. apply in_map_iff in Hy. destruct Hy as (i & <- & Hi).
    apply (proj1 (forallb_forall _ _) H) in Hi. rewrite HG. apply dec_pos_R. exact Hi. }
  intros Hm. change (db_o2 (@shipped XA) m) with (shipped_o2 (A:=XA) m). change (db_o2 (@shipped RA) m) with (shipped_o2 (A:=RA) m). cbn [In] in Hm. unfold shipped_o2.
  destruct Hm as [<-|[<-|[]]]; cbn [String.eqb Ascii.eqb Bool.eqb]; eexists _, _; (split; [reflexivity|]); (split; [reflexivity|]);
      (split; [apply o2_load_D; intros i; first [apply o2_first_row_D | apply o2_second_row_D | constructor; apply D_lit]|]); apply and_assoc_alt;
      (split; [eapply o2_sharp; [intros i; split; reflexivity|vm_compute; reflexivity|vm_compute; reflexivity]|]);
      (split; [eapply P; [intros i; reflexivity|vm_compute; reflexivity]|cbn [o2_load o_lines]; rewrite map_length, seq_length; vm_compute; lia]).
Qed.

Lemma oxygen_level m f p t e : In m fin_o2_names -> m <> "R98" -> 0 < f -> 0 < t -> 0 <= e -> e < p ->
  let pd := (p - e) / 10 in let v := 300 / t in let ek := e / 10 in
  exists xo lo no co, db_o2 (@shipped XA) m = Some xo /\ db_o2 (@shipped RA) m = Some lo /\ o2_absorption (A:=RA) m lo pd v ek f = (no, co) /\
    o2_absorption (A:=XA) m xo (Fin pd) (Fin v) (Fin ek) (Fin f) = (Fin no, Fin co) /\ 0 <= no /\ 0 <= co.
Proof.
  intros Mo Mo' Hf Ht He Hp pd v ek; assert (Pd : 0 < pd) by (unfold pd; lra); assert (Pv : 0 < v) by (apply div_pos; lra); assert (Pe : 0 <= ek) by (unfold ek; lra).
  apply in_app_or in Mo. destruct Mo as [Mo|Mo].
  - destruct (shipped_o2_D m Mo) as (Po & xo & lo & O1 & O2 & O3 & O4 & O5).
    destruct (o2_absorption (A:=RA) m lo pd v ek f) as [no co] eqn:Ho. destruct (C55_shipped_nonnegative m lo pd v ek f no co O2 Mo' Pv ltac:(lra) Pe Hf Ho) as [No Co].
    assert (HoX := o2_D m xo lo (Fin pd) (Fin v) (Fin ek) (Fin f) pd v ek f no co Po O3 O4 O5 eq_refl eq_refl eq_refl eq_refl Pv Pd Pe Hf Ho).
    exists xo, lo, no, co. auto 10.
  - destruct (shipped_o2_sd_D m Mo) as (xo & lo & O1 & O2 & O3 & O4 & O5 & O6 & O7).
    destruct (o2_absorption (A:=RA) m lo pd v ek f) as [no co] eqn:Ho. destruct (C55_shipped_nonnegative m lo pd v ek f no co O2 Mo' Pv ltac:(lra) Pe Hf Ho) as [No Co].
    assert (HoX := o2_sd_all_D m xo lo (Fin pd) (Fin v) (Fin ek) (Fin f) pd v ek f no co Mo O3 O4 O6 O7 O5 eq_refl eq_refl eq_refl eq_refl Pv Pd Pe Hf Ho).
    exists xo, lo, no, co. auto 10.
Qed.

Lemma level_D mw mo mn gx gr f p t e o3 : water_range mw f p t -> In mo fin_o2_names -> mo <> "R98" -> In mn n2_models -> selected XA mw mo mn gx -> selected RA mw mo mn gr ->
  ozone_ready gx gr o3 -> 0 < f -> 0 < t -> 0 <= e -> e < p ->
  exists aw ad, clearsky_level (A:=XA) gx None (Fin f) (Fin p) (Fin t) (Fin e) (option_map Fin o3) = Ok (Fin aw, Fin ad) /\
    clearsky_level (A:=RA) gr None f p t e o3 = Ok (aw, ad) /\ 0 <= aw /\ 0 <= ad.
Proof.
  intros Mw Mo Mo' Mn SX SR Hoz Hf Ht He Hp.
  destruct (o3_call_D gx gr t p f o3 Hoz Ht ltac:(lra)) as (az & Z1 & Z2 & Z3).
  set (pd := (p - e) / 10). assert (Pd : 0 < pd) by (unfold pd; lra). set (v := 300 / t). assert (Pv : 0 < v) by (apply div_pos; lra).
  set (ek := e / 10). assert (Pe : 0 <= ek) by (unfold ek; lra).
  destruct (water_level mw f p t e Mw Hf Ht He Hp) as (xw & lw & nw & cw & W1 & W2 & Hw & HwX & Nw & Cw). fold pd v ek in Hw, HwX.
  destruct (oxygen_level mo f p t e Mo Mo' Hf Ht He Hp) as (xo & lo & no & co & O1 & O2 & Ho & HoX & No & Co). fold pd v ek in Ho, HoX.
  destruct (proj1 (C54_names RA mn t (p - e) f) Mn) as (an & Hn).
  assert (An := C54_nonnegative mn t (p - e) f an Ht Hn).
  assert (HnX := n2_D mn (Fin t) (Fin (p - e)) (Fin f) t (p - e) f an eq_refl eq_refl eq_refl Ht Hn).
  destruct SX as [X1 X2 X3 X4 X5], SR as [R1 R2 R3 R4 R5].
  assert (N10 : (lit (a:=RA) (Dec 100 10) : R) <> 0) by (ra; lra).
  assert (E1 : div (a:=RA) (lit (Dec 3000 10)) t = v) by (unfold v; ra; f_equal; lra).
  assert (E2 : div (a:=RA) e (lit (Dec 100 10)) = ek) by (unfold ek; ra; lra).
  assert (E3 : sub (a:=RA) (div (a:=RA) p (lit (Dec 100 10))) ek = pd) by (unfold pd, ek; ra; lra).
  assert (E4 : mul (a:=RA) pd (lit (Dec 10 1)) = p - e) by (unfold pd; ra; lra).
  assert (F1 : div (a:=XA) (lit (Dec 3000 10)) (Fin t) = Fin v) by (rewrite <- E1; apply D_div; [apply D_lit|reflexivity|lra]).
  assert (F2 : div (a:=XA) (Fin e) (lit (Dec 100 10)) = Fin ek) by (rewrite <- E2; apply D_div; [reflexivity|apply D_lit|exact N10]).
  assert (F3 : sub (a:=XA) (div (a:=XA) (Fin p) (lit (Dec 100 10))) (Fin ek) = Fin pd) by (rewrite <- E3; apply D_sub; [apply D_div; [reflexivity|apply D_lit|exact N10]|reflexivity]).
  assert (F4 : mul (a:=XA) (Fin pd) (lit (Dec 10 1)) = Fin (p - e)) by (rewrite <- E4; apply D_mul; [reflexivity|apply D_lit]).
  assert (NE : forall (A : Arith) (g : globals A) x y z, g_n2 g = Some mn -> n2_call (A:=A) g x y z = n2_absorption mn x y z).
  { intros A g x y z E. unfold n2_call. rewrite E. destruct mn; [|reflexivity]. exfalso. unfold n2_models in Mn. cbn [In] in Mn. repeat destruct Mn as [Mn|Mn]; try discriminate; contradiction. }
  eexists _, _. split; [|split; [|split]].
  - unfold clearsky_level. cbv zeta. rewrite F1, F2, F3, F4. unfold h2o_call, o2_call. rewrite X1, X2, X3, X4, W1, O1. cbn [over mname]. rewrite HwX. cbn [bind]. rewrite HoX. cbn [bind].
    rewrite (NE XA gx _ _ _ X5), HnX. cbn [bind]. rewrite Z1. cbn [bind fst snd]. f_equal. f_equal.
    + exact (prod3_D f f nw cw eq_refl).
    + match goal with |- ?x = Fin ?y => change (D x y) end. apply D_add; [apply D_add; [exact (prod3_D f f no co eq_refl)|apply D_fin]|apply D_fin].
  - unfold clearsky_level. cbv zeta. rewrite E1, E2, E3, E4. unfold h2o_call, o2_call. rewrite R1, R2, R3, R4, W2, O2. cbn [over mname]. rewrite Hw. cbn [bind]. rewrite Ho. cbn [bind].
    rewrite (NE RA gr _ _ _ R5), Hn. cbn [bind]. rewrite Z2. cbn [bind fst snd]. reflexivity.
  - apply prod3_nn; auto.
  - assert (P := prod3_nn f no co Hf No Co). match type of P with 0 <= ?x => set (y := x) in * end. clearbody y. ra. lra.
Qed.

Definition finpair (x : R * R) : car XA * car XA := (Fin (fst x), Fin (snd x)).
Lemma mapM_D {S T} (P : S -> T -> Prop) (F : S -> result (car XA * car XA)) (G : T -> result (car RA * car RA)) l m : Forall2 P l m ->
  (forall x y, P x y -> exists u v : R, F x = Ok (Fin u, Fin v) /\ G y = Ok (u, v) /\ 0 <= u /\ 0 <= v) ->
  exists r : list (R * R), mapM F l = Ok (map finpair r) /\ mapM G m = Ok r /\ length r = length l /\ (forall x, In x r -> 0 <= fst x /\ 0 <= snd x).
Proof.
  intros H HP. induction H as [|x y l m Hxy H IH]; [exists []; repeat split; auto; contradiction|].
  destruct IH as (r & I1 & I2 & I3 & I4). destruct (HP x y Hxy) as (u & v & U1 & U2 & U3 & U4). exists ((u, v) :: r). cbn [mapM]. rewrite U1, U2, I1, I2. cbn [bind map length].
  split; [reflexivity|]. split; [reflexivity|]. split; [congruence|]. intros z [<-|Hz]; [cbn [fst snd]; auto|apply I4, Hz].
Qed.

(** Ozone profile: none, or one value per level. *)
Definition ozone_profile (gx : globals XA) (gr : globals RA) (n : nat) (o3 : option (list R)) : Prop :=
  match o3 with None => True | Some l => length l = n /\ forall x, In x l -> ozone_ready gx gr (Some x) end.

Theorem clear_D mw mo mn gx gr f (ps ts es : list R) o3 : (forall i, (i < length ts)%nat -> water_range mw f (nth i ps 0) (nth i ts 0)) -> In mo fin_o2_names -> mo <> "R98" -> In mn n2_models -> selected XA mw mo mn gx -> selected RA mw mo mn gr ->
  0 < f -> length ps = length ts -> length es = length ts -> (forall t, In t ts -> 0 < t) -> (forall e, In e es -> 0 <= e) ->
  (forall i, (i < length ts)%nat -> nth i es 0 < nth i ps 0) -> ozone_profile gx gr (length ts) o3 ->
  exists aw ad, clearsky_absorption (A:=XA) gx None (map Fin ps) (map Fin ts) (map Fin es) (Fin f) (option_map (map Fin) o3) = Ok (map Fin aw, map Fin ad) /\
    clearsky_absorption (A:=RA) gr None ps ts es f o3 = Ok (aw, ad) /\ length aw = length ts /\ length ad = length ts /\ (forall v, In v aw \/ In v ad -> 0 <= v).
Proof.
  intros Mw Mo Mo' Mn SX SR Hf Lp Le Ht He Hep Hoz.
  assert (OZ : exists os : list (option R), with_o3 (A:=XA) (length (map Fin ps)) (option_map (map Fin) o3) = map (option_map Fin) os /\ with_o3 (A:=RA) (length ps) o3 = os /\ length os = length ts /\
     forall x, In x os -> ozone_ready gx gr x).
  { destruct o3 as [l|]; cbn [option_map with_o3].
    - destruct Hoz as [Ll Hl]. exists (map Some l). split; [rewrite !map_map; reflexivity|]. split; [reflexivity|]. split; [rewrite map_length; exact Ll|].
      intros x Hx. apply in_map_iff in Hx. destruct Hx as (y & <- & Hy). apply Hl, Hy.
    - exists (repeat None (length ps)). split; [rewrite map_length; generalize (length ps); induction n as [|n IH]; [reflexivity|cbn; f_equal; exact IH]|]. split; [reflexivity|].
      split; [rewrite repeat_length; exact Lp|]. intros x Hx. apply repeat_spec in Hx. subst x. exact I. }
  destruct OZ as (os & Z1 & Z2 & Z3 & Z4). unfold clearsky_absorption.
  match goal with |- context [with_o3 (A:=XA) ?n ?o] => replace (with_o3 (A:=XA) n o) with (map (option_map Fin) os : list (option (car XA))) by (symmetry; exact Z1) end.
  match goal with |- context [with_o3 (A:=RA) ?n ?o] => replace (with_o3 (A:=RA) n o) with (os : list (option (car RA))) by (symmetry; exact Z2) end.
  clear Z1 Z2 Hoz o3.
  pose (P := fun (x : car XA * (car XA * (car XA * option (car XA)))) (y : R * (R * (R * option R))) =>
     let '(p, (t, (e, o))) := y in x = (Fin p, (Fin t, (Fin e, option_map Fin o))) /\ 0 < t /\ 0 <= e /\ e < p /\ ozone_ready gx gr o /\ water_range mw f p t).
  assert (FP : Forall2 P (combine (map Fin ps) (combine (map Fin ts) (combine (map Fin es) (map (option_map Fin) os)))) (combine ps (combine ts (combine es os)))).
  { clear - Mw Lp Le Ht He Hep Z3 Z4. revert ps es os Mw Lp Le He Hep Z3 Z4. induction ts as [|t ts IH]; intros [|p ps] [|e es] [|o os] Mw Lp Le He Hep Z3 Z4; cbn [length] in *; try discriminate; cbn [map combine]; [constructor|].
    constructor.
    - cbn. split; [reflexivity|]. split; [apply Ht; left; reflexivity|]. split; [apply He; left; reflexivity|]. split; [apply (Hep 0%nat); lia|]. split; [apply Z4; left; reflexivity|apply (Mw 0%nat); lia].
    - apply IH; try lia; [intros x Hx; apply Ht; right; exact Hx|intros i Hi; apply (Mw (S i)); lia|intros x Hx; apply He; right; exact Hx| |intros x Hx; apply Z4; right; exact Hx].
      intros i Hi. apply (Hep (S i)). lia. }
  destruct (mapM_D P (fun '(p, (t, (e, o))) => clearsky_level (A:=XA) gx None (Fin f) p t e o) (fun '(p, (t, (e, o))) => clearsky_level (A:=RA) gr None f p t e o) _ _ FP) as (r & M1 & M2 & M3 & M4).
  { intros x (p & t & e & o). cbn. intros (-> & T & E1 & E2 & O & WR). destruct (level_D mw mo mn gx gr f p t e o WR Mo Mo' Mn SX SR O Hf T E1 E2) as (aw & ad & L1 & L2 & L3 & L4).
    exists aw, ad. auto. }
  assert (Lr : length r = length ts) by (rewrite M3; repeat rewrite combine_length; repeat rewrite map_length; lia).
  exists (map fst r), (map snd r). split; [|split; [|split; [|split]]].
  - etransitivity; [apply (f_equal (fun m => bind m _)); exact M1|]. cbn [bind]. rewrite !map_map. reflexivity.
  - etransitivity; [apply (f_equal (fun m => bind m _)); exact M2|]. reflexivity.
  - rewrite map_length. exact Lr.
  - rewrite map_length. exact Lr.
  - intros v [Hv|Hv]; apply in_map_iff in Hv; destruct Hv as (x & <- & Hx); apply M4; exact Hx.
Qed.

(** Vapour pressures of the profile: relative humidity times the Goff-Gratch saturation pressure. *)
Definition vap (ts rhs : list R) : list R := map (fun x => snd x * goff_water (fst x)) (combine ts rhs).
(** Vapour densities. *)
Definition vap_density (ts rhs : list R) : list R := map (fun x => snd x * goff_water (fst x) / (461.52 * 1e-5 * fst x)) (combine ts rhs).

Lemma vapor_D (ts rhs : list R) : (forall t, In t ts -> 0 < t) -> vapor (A:=XA) (map Fin ts) (map Fin rhs) false = Ok (map Fin (vap ts rhs), map Fin (vap_density ts rhs)).
Proof.
  intros Ht. unfold vapor, vap, vap_density. f_equal.
  assert (X : map (fun '(a, b) => vapor1 (A:=XA) a b) (combine (map Fin ts) (map Fin rhs))
            = map (fun x => finpair (snd x * goff_water (fst x), snd x * goff_water (fst x) / (461.52 * 1e-5 * fst x))) (combine ts rhs)).
  { revert rhs. induction ts as [|t ts IH]; intros [|r rhs]; try reflexivity. cbn [map combine]. f_equal; [|apply IH; intros x Hx; apply Ht; right; exact Hx].
    assert (T : 0 < t) by (apply Ht; left; reflexivity).
    destruct (vapor1_D (Fin t) (Fin r) t r eq_refl eq_refl T) as [V1 V2]. rewrite (surjective_pairing (vapor1 (A:=XA) (Fin t) (Fin r))). rewrite V1, V2.
    unfold vapor1, finpair, k_Rwatvap. cbn [fst snd]. rewrite vapor_es_R. generalize (goff_water t). intros s.
    change (mul (a:=RA) r s) with (r * s). f_equal. }
  match goal with |- (?a, ?b) = _ => transitivity (map fst (map (fun x => finpair (snd x * goff_water (fst x), snd x * goff_water (fst x) / (461.52 * 1e-5 * fst x))) (combine ts rhs)),
     map snd (map (fun x => finpair (snd x * goff_water (fst x), snd x * goff_water (fst x) / (461.52 * 1e-5 * fst x))) (combine ts rhs))) end.
  - f_equal; [exact (f_equal (map fst) X)|exact (f_equal (map snd) X)].
  - rewrite !map_map. reflexivity.
Qed.
