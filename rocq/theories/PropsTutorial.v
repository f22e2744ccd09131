(** Claim C148: the Jacobian of the uncertainty tutorial. *)

From Coq Require Import ZArith Reals Lra Lia List Bool String PeanoNat.
Import ListNotations.
From Verif Require Import Arith PyBase Utils RTE Absorption Clear Spectrum Registry LineData Lineshape RealAux ListAux Uncertainty Tutorial.
Local Open Scope string_scope.
Local Open Scope arith_scope.

Section Tut.
Context {A : Arith}.
Notation num := (car A).

(** ** Specification *)

(** A parameter of the covariance matrices: entry of the table, line (for arrays), perturbation, and the same perturbation in the units of the
    covariance matrix. *)
Record par := mkPar { p_name : string; p_line : option nat; p_step : num; p_unit : num }.

(** The element of the list [l] at [i]. *)
Definition at_ (l : list num) (i : nat) : num := nth i l #0.

(** Entries that hold the same array as [k]. *)
Definition aliases (k : string) : list string :=
  if str_in k ["O2gamma"; "Y300"; "O2_V"] then [k; k ++ "_NL"] else [k].

(** A value with the step [u] added: to the number, or to the element [i] of the array. *)
Definition plus (i : option nat) (u : num) (c : pcon A) : pcon A :=
  match c, i with
  | CFloat x, _ => CFloat (x + u)
  | CArr l, Some i => CArr (firstn i l ++ match skipn i l with x :: l' => (x + u) :: l' | [] => [] end)%list
  | c, _ => c
  end.

(** The table with one parameter changed. *)
Definition changed (q : par) (t : list (string * pcon A)) : list (string * pcon A) :=
  map (fun '(k, c) => (k, if str_in k (aliases (p_name q)) then plus (p_line q) (p_step q) c else c)) t.

(** The unperturbed table: the numbers of the line lists of oxygen R18 and water vapour R17. *)
Definition table0 (ol : o2_ll A) (wl : h2o_ll A) : list (string * pcon A) :=
  let o f := CArr (map f (o_lines ol)) in let w f := CArr (map f (h_lines wl)) in
  [ ("O2FL", o o_f); ("O2S", o o_s300); ("O2BE", o o_be); ("O2gamma", o o_w300); ("O2gamma_NL", o o_w300); ("Snr", CFloat #1.6e-17);
    ("WB300", CFloat (o_wb300 ol)); ("X11", CFloat #0.785); ("X16", CFloat #0.765); ("X05", CFloat (o_x ol)); ("O2_nS", CFloat #2.0); ("w2a", CFloat #1.2);
    ("O2_V", o o_v); ("O2_V_NL", o o_v); ("Y300", o o_y300); ("Y300_NL", o o_y300);
    ("con_Cf", CFloat (h_cf wl)); ("con_Cs", CFloat (h_cs wl)); ("con_Xf", CFloat (h_xcf wl)); ("con_Xs", CFloat (h_xcs wl));
    ("FL", w h_fl); ("S", w h_s1); ("B2", w h_b2); ("gamma_a", CArr (map (fun l => h_w0 l * #1e3) (h_lines wl))); ("gamma_w", CArr (map (fun l => h_w0s l * #1e3) (h_lines wl)));
    ("n_a", w h_x); ("n_w", w h_xs); ("wv_nS", CFloat #0); ("SR", w h_sr); ("con_Cf_factr", CFloat #1.11); ("con_Cs_factr", CFloat #0.79) ].

(** The 112 parameters of Cimini et al. (2018, 2019): common oxygen line intensity, temperature exponent, non-resonant width, widths, mixing
    coefficients and their temperature dependence of 34 lines; seven parameters of water vapour.  Intensities in per cent, continuum in absolute units. *)
Definition parameters (ol : o2_ll A) (wl : h2o_ll A) : list par :=
  let s0 := at_ (map o_s300 (o_lines ol)) 0 in
  let cf := sqrtf (powi #0.098 2 + powi #0.03 2) in let cs := sqrtf (powi #0.17 2 + powi #0.06 2) in
  let lines k (us : list num) := map (fun i => mkPar k (Some i) (at_ us i) (at_ us i)) (seq 0 34) in
  [ mkPar "O2S" (Some 0%nat) (s0 / #100) (s0 / #100 / s0 * #100); mkPar "X05" None #0.05 #0.05; mkPar "WB300" None #0.05 #0.05 ]
  ++ lines "O2gamma" gamma_uncer ++ lines "Y300" y_uncer ++ lines "O2_V" v_uncer
  ++ [ mkPar "con_Cf_factr" None cf (h_cf wl * cf); mkPar "con_Cs_factr" None cs (h_cs wl * cs); mkPar "gamma_a" (Some 0%nat) #0.039 #0.039;
       mkPar "S" (Some 0%nat) (#0.043 * #1e-25 * k_light * #100) (#0.043 * #1e-25 * k_light * #100); mkPar "con_Xf" None #0.8 #0.8;
       mkPar "SR" (Some 0%nat) #0.0014 #0.0014; mkPar "con_Xs" None #0.6 #0.6 ].

(** Name of the column of a parameter: the line follows the name, except for line 0. *)
Definition digit (n : nat) : string := String (Ascii.ascii_of_nat (48 + n)) "".
Definition title (q : par) : string :=
  "p_" ++ p_name q ++ match p_line q with
                      | None => ""
                      | Some i => if Nat.eqb i 0 then "" else "_" ++ (if Nat.ltb i 10 then "" else digit (i / 10)) ++ digit (i mod 10)
                      end.

(** Difference quotients of the response [exec] to the parameters [ps]. *)
Fixpoint quotients (exec : list (string * pcon A) -> result (list num)) (t : list (string * pcon A)) (tb0 : list num) (ps : list par) : result (list (string * list num)) :=
  match ps with
  | [] => Ok []
  | q :: ps =>
      do tb <- exec (changed q t);
      do cs <- quotients exec t tb0 ps;
      Ok ((title q, map (fun '(x, y) => (x - y) / p_unit q) (combine tb tb0)) :: cs)
  end.

(** ** Proofs *)

(** The dictionaries and divisors of the loop, without the solver. *)
Fixpoint requests (d : pdict) (todo : list (string * option nat)) (s : store A) : result (list (string * list (string * pcon A) * num)) :=
  match todo with
  | [] => Ok []
  | (k, i) :: rest =>
      do r <- parameters_perturbation (Some d) [k] "max" (option_map Z.of_nat i) s;
      let s2 := convert d k (snd r) in
      do w <- divisor d k i s2;
      do l <- requests d rest s2;
      Ok ((field_name k i, readout (snd r) (fst r), w) :: l)
  end.

Fixpoint answer (exec : list (string * pcon A) -> result (list num)) (tb0 : list num) (l : list (string * list (string * pcon A) * num)) : result (list (string * list num)) :=
  match l with
  | [] => Ok []
  | (n, v, w) :: rest =>
      do tb <- exec v; do cols <- answer exec tb0 rest;
      Ok ((n, map (fun '(x, y) => (x - y) / w) (combine tb tb0)) :: cols)
  end.

Lemma columns_requests exec tb0 d todo : forall s l, requests d todo s = Ok l -> columns exec tb0 d todo s = answer exec tb0 l.
Proof.
  induction todo as [|(k, i) rest IH]; intros s l H; cbn [requests columns] in *; [injection H as <-; reflexivity|].
  destruct (parameters_perturbation _ _ _ _ _) as [r|e]; [|discriminate]. cbn [bind] in *.
  destruct (divisor d k i (convert d k (snd r))) as [w|e] eqn:E; [|discriminate]. cbn [bind] in *.
  destruct (requests d rest (convert d k (snd r))) as [l'|e] eqn:E2; [|discriminate]. cbn [bind] in H. injection H as <-. cbn [answer].
  rewrite (IH _ _ E2). reflexivity.
Qed.

(** The line lists of the two models. *)
Definition R18_lines : o2_ll A := match db_o2 (@shipped A) "R18" with Some l => l | None => mkO2LL #0 #0 [] end.
Definition R17_lines : h2o_ll A := match db_h2o (@shipped A) "R17" with Some l => l | None => mkH2OLL #0 #0 #0 #0 #0 #0 #0 #0 [] end.

Notation t0 := (table0 R18_lines R17_lines).
Notation ps0 := (parameters R18_lines R17_lines).

Definition start : result (pdict * store A) := do t <- tables; Ok (fst t, with_uncertainties (fst t) (snd t)).

Lemma start_table : (do t <- start; Ok (readout (snd t) (fst t))) = Ok t0.
Proof. vm_cast_no_check (eq_refl (@Ok (list (string * pcon A)) t0)). Qed.

Lemma start_requests : (do t <- start; requests (fst t) plan (snd t)) = Ok (map (fun q => (title q, changed q t0, p_unit q)) ps0).
Proof. vm_cast_no_check (eq_refl (@Ok (list (string * list (string * pcon A) * num)) (map (fun q => (title q, changed q t0, p_unit q)) ps0))). Qed.

Lemma answer_map exec tb0 l : answer exec tb0 (map (fun q => (title q, changed q t0, p_unit q)) l) = quotients exec t0 tb0 l.
Proof.
  induction l as [|q l IH]; [reflexivity|]. cbn [map answer quotients]. destruct (exec _); [|reflexivity]. cbn [bind]. rewrite IH. reflexivity.
Qed.

Theorem C148_quotients exec : jacobian exec = do tb0 <- exec t0; quotients exec t0 tb0 ps0.
Proof.
  pose proof start_table as H1. pose proof start_requests as H2. unfold start in *. unfold jacobian.
  destruct tables as [t|e]; [|discriminate]. cbn [bind fst snd] in *. injection H1 as H1. rewrite H1.
  destruct (exec t0) as [tb0|e]; [|reflexivity]. cbn [bind]. rewrite (columns_requests _ _ _ _ _ _ H2). apply answer_map.
Qed.

Lemma quotients_titles exec t tb0 l : forall cols, quotients exec t tb0 l = Ok cols -> map fst cols = map title l.
Proof.
  induction l as [|q l IH]; intros cols H; cbn [quotients] in H; [injection H as <-; reflexivity|].
  destruct (exec (changed q t)); [|discriminate]. cbn [bind] in H. destruct (quotients exec t tb0 l) as [cs|]; [|discriminate]. cbn [bind] in H.
  injection H as <-. cbn [map fst]. rewrite (IH _ eq_refl). reflexivity.
Qed.

Fixpoint unique (l : list string) : bool := match l with [] => true | x :: l => negb (existsb (String.eqb x) l) && unique l end.
Lemma unique_NoDup l : unique l = true -> NoDup l.
Proof.
  induction l as [|x l IH]; intros H; [constructor|]. cbn [unique] in H. apply andb_prop in H. destruct H as [H1 H2]. constructor; [|exact (IH H2)].
  intros I. apply Bool.negb_true_iff in H1. rewrite <- Bool.not_true_iff_false in H1. apply H1. apply existsb_exists. exists x. split; [exact I|apply String.eqb_refl].
Qed.
Lemma titles_unique : NoDup (map title ps0).
Proof. apply unique_NoDup. vm_cast_no_check (eq_refl true). Qed.
Lemma first_111 : existsb (String.eqb "p_con_Xs") (firstn 111 (map title ps0)) = false.
Proof. vm_cast_no_check (eq_refl false). Qed.
Lemma last_1 : skipn 111 (map title ps0) = ["p_con_Xs"].
Proof. vm_cast_no_check (eq_refl ["p_con_Xs"]). Qed.
Lemma ps_length : List.length (map title ps0) = 112%nat.
Proof. vm_cast_no_check (eq_refl 112%nat). Qed.

(** 112 distinct columns, in the order of the parameters; without [p_con_Xs] the first 111. *)
Theorem C148_columns exec cols : jacobian exec = Ok cols ->
  map fst cols = map title ps0 /\ NoDup (map fst cols) /\ List.length cols = 112%nat /\ @without A "p_con_Xs" cols = firstn 111 cols.
Proof.
  rewrite C148_quotients. intros H. destruct (exec t0) as [tb0|]; [|discriminate]. cbn [bind] in H. pose proof (quotients_titles _ _ _ _ _ H) as T.
  split; [exact T|]. split; [rewrite T; exact titles_unique|]. assert (L : List.length cols = 112%nat) by (rewrite <- (map_length fst cols), T; exact ps_length). split; [exact L|].
  assert (G : forall l : list (string * list num), ~ In "p_con_Xs" (map fst l) -> @without A "p_con_Xs" l = l).
  { intros l. induction l as [|(k, c) l IH]; intros N; [reflexivity|]. unfold without. cbn [filter fst]. destruct (String.eqb_spec k "p_con_Xs") as [->|D].
    - exfalso. apply N. left. reflexivity.
    - cbn [negb]. f_equal. apply IH. intros I. apply N. right. exact I. }
  rewrite <- (firstn_skipn 111 cols) at 1. unfold without. rewrite filter_app. fold (@without A "p_con_Xs" (firstn 111 cols)). fold (@without A "p_con_Xs" (skipn 111 cols)).
  rewrite G; [|rewrite <- firstn_map, T; intros I; pose proof first_111 as F; rewrite <- Bool.not_true_iff_false in F; apply F; apply existsb_exists; exists "p_con_Xs"; split; [exact I|reflexivity]].
  assert (S1 : map fst (skipn 111 cols) = ["p_con_Xs"]) by (rewrite <- skipn_map, T; exact last_1).
  destruct (skipn 111 cols) as [|(k, c) [|x y]]; try discriminate. cbn [map fst] in S1. injection S1 as ->. cbn [without filter fst String.eqb negb]. apply app_nil_r.
Qed.
End Tut.

(** ** Over the reals *)

Section Values.
Context {A : Arith}.
Lemma s0_value : at_ (map o_s300 (o_lines (@R18_lines A))) 0 = #2.906e-15. Proof. vm_cast_no_check (eq_refl (#2.906e-15 : car A)). Qed.
Lemma cf_value : h_cf (@R17_lines A) = #5.96e-10. Proof. vm_cast_no_check (eq_refl (#5.96e-10 : car A)). Qed.
Lemma cs_value : h_cs (@R17_lines A) = #1.42e-8. Proof. vm_cast_no_check (eq_refl (#1.42e-8 : car A)). Qed.
Lemma o2_some : exists x l, o_lines (@R18_lines A) = x :: l.
Proof.
  assert (H : List.length (o_lines (@R18_lines A)) = S (List.length (tl (o_lines (@R18_lines A))))) by (vm_cast_no_check (eq_refl (List.length (o_lines (@R18_lines A))))).
  destruct (o_lines (@R18_lines A)) as [|x l]; [discriminate|]. exists x, l. reflexivity.
Qed.
End Values.

Notation ps := (@parameters RA R18_lines R17_lines).
Notation t := (@table0 RA R18_lines R17_lines).
Local Open Scope R_scope.

Lemma lines_pos k (us : list R) : List.length us = 34%nat -> Forall (fun u => 0 < u) us ->
  Forall (fun q => 0 < @p_unit RA q) (map (fun i => @mkPar RA k (Some i) (@at_ RA us i) (@at_ RA us i)) (seq 0 34)).
Proof.
  intros L F. apply Forall_forall. intros q I. apply in_map_iff in I. destruct I as (i & <- & I). apply in_seq in I. cbn [p_unit].
  rewrite Forall_forall in F. apply F. unfold at_. apply nth_In. change (car RA) with R. lia.
Qed.

(** No divisor is zero. *)
Theorem C148_units : Forall (fun q => 0 < @p_unit RA q) ps.
Proof.
  unfold parameters. rewrite s0_value, cf_value, cs_value.
  assert (Q : forall x y : R, 0 < x -> 0 < y -> 0 < sqrt (x + y)) by (intros; apply sqrt_lt_R0; lra).
  assert (P : forall (x : R) n, 0 < x -> 0 < @powi RA x n) 
    by (intros x n X; induction n as [|[|n] IH]; [cbn; unfold litR; cbn; lra|exact X|change (0 < x * @powi RA x (S n)); apply Rmult_lt_0_compat; assumption]).
  repeat (apply Forall_app; split); try (apply lines_pos; [reflexivity|]; unfold gamma_uncer, y_uncer, v_uncer; repeat (apply Forall_cons; [cbn; unfold litR; cbn; lra|]); apply Forall_nil).
  - repeat (apply Forall_cons; [cbn [p_unit]; ra; cbn|]); [|unfold litR; cbn; lra|unfold litR; cbn; lra|apply Forall_nil].
    replace (2906 / 1000000000000000000 / (100 / 1) / (2906 / 1000000000000000000) * (100 / 1)) with 1 by field. lra.
  - repeat (apply Forall_cons; [cbn [p_unit]|]); [| | | | | | |apply Forall_nil].
    1,2: ra; apply Rmult_lt_0_compat; [lra|]; apply Q; apply P; lra.
    all: unfold k_light; ra; lra.
Qed.

(** The value of an entry, or of element [i] of it. *)
Definition val (t : list (string * pcon RA)) (k : string) (i : nat) : R :=
  match assoc k t with Some (CFloat x) => x | Some (CArr l) => @at_ RA l i | _ => 0 end.

(** A response to the continuum coefficients as the absorption model sees them (absorption_model.py:455-479: coefficient times factor), to the strength of
    the first oxygen line and to the exponent X05. *)
Definition response (b cf cs s x : R) (t : list (string * pcon RA)) : result (list R) :=
  Ok [ b + cf * (val t "con_Cf" 0 * val t "con_Cf_factr" 0) + cs * (val t "con_Cs" 0 * val t "con_Cs_factr" 0) + s * val t "O2S" 0 + x * val t "X05" 0 ].

Definition seen (b cf cs s x vf f vs g st e : R) : R := b + cf * (vf * f) + cs * (vs * g) + s * st + x * e.

Lemma quotients_in exec t tb0 l : forall cols q, @quotients RA exec t tb0 l = Ok cols -> In q l ->
  exists tb, exec (changed q t) = Ok tb /\ In (title q, map (fun '(a, b) => (a - b) / p_unit q) (combine tb tb0)) cols.
Proof.
  induction l as [|q' l IH]; intros cols q H I; [destruct I|]. cbn [quotients] in H.
  destruct (exec (changed q' t)) as [tb|] eqn:E; [|discriminate]. cbn [bind] in H. destruct (quotients exec t tb0 l) as [cs|] eqn:E2; [|discriminate]. cbn [bind] in H.
  injection H as <-. destruct I as [->|I].
  - exists tb. split; [exact E|]. left. reflexivity.
  - destruct (IH _ _ eq_refl I) as (tb' & X & Y). exists tb'. split; [exact X|]. right. exact Y.
Qed.

Lemma quotients_ok (exec : list (string * pcon RA) -> result (list R)) t tb0 l : (forall t, exists y, exec t = Ok y) -> exists cols, @quotients RA exec t tb0 l = Ok cols.
Proof.
  intros T. induction l as [|q l [cs IH]]; [eexists; reflexivity|]. cbn [quotients]. destruct (T (changed q t)) as [y ->]. cbn [bind]. change (car RA) with R in *. rewrite IH. cbn [bind].
  eexists; reflexivity.
Qed.

Section Abstract.
Variables (b cf cs s x : R) (ol : o2_ll RA) (wl : h2o_ll RA).
Let sn (f g st e : R) : result (list R) := Ok [seen b cf cs s x (@h_cf RA wl) f (@h_cs RA wl) g st e].
Let st0 : R := @at_ RA (map (@o_s300 RA) (o_lines ol)) 0.
Let ff : R := litR (Dec 111 100). Let fg : R := litR (Dec 79 100).
Lemma response_0 : response b cf cs s x (table0 ol wl) = sn ff fg st0 (@o_x RA ol). Proof. reflexivity. Qed.
Lemma response_f u w : response b cf cs s x (changed (@mkPar RA "con_Cf_factr" None u w) (table0 ol wl)) = sn (ff + u) fg st0 (@o_x RA ol). Proof. reflexivity. Qed.
Lemma response_s u w : response b cf cs s x (changed (@mkPar RA "con_Cs_factr" None u w) (table0 ol wl)) = sn ff (fg + u) st0 (@o_x RA ol). Proof. reflexivity. Qed.
Lemma response_x u w : response b cf cs s x (changed (@mkPar RA "X05" None u w) (table0 ol wl)) = sn ff fg st0 (@o_x RA ol + u). Proof. reflexivity. Qed.
Lemma response_w u w : response b cf cs s x (changed (@mkPar RA "WB300" None u w) (table0 ol wl)) = sn ff fg st0 (@o_x RA ol). Proof. reflexivity. Qed.
Lemma response_i u w : (exists x0 l, o_lines ol = x0 :: l) ->
  response b cf cs s x (changed (@mkPar RA "O2S" (Some 0%nat) u w) (table0 ol wl)) = sn ff fg (st0 + u) (@o_x RA ol).
Proof. intros (x0 & l & E). unfold sn, st0. destruct ol as [? ? ls]. cbn [o_lines] in *. subst ls. reflexivity. Qed.
End Abstract.

Lemma per_cent b cf cs s x vf f vs g e s0 : s0 = 2.906e-15 ->
  (seen b cf cs s x vf f vs g (s0 + s0 / litR (Dec 100 1)) e - seen b cf cs s x vf f vs g s0 e) / (s0 / litR (Dec 100 1) / s0 * litR (Dec 100 1)) = s * 2.906e-15 / 100.
Proof. intros E. assert (N : s0 <> 0) by lra. rewrite <- E. unfold seen, litR. field. exact N. Qed.

(** The columns are the derivatives in the units of the covariance matrices: per unit of the continuum coefficients (not of the factors), per cent of
    the strength, per unit of the exponent. *)
Theorem C148_response b cf cs s x : exists cols, jacobian (A := RA) (response b cf cs s x) = Ok cols /\
  In ("p_con_Cf_factr", [cf]) cols /\ In ("p_con_Cs_factr", [cs]) cols /\ In ("p_O2S", [s * 2.906e-15 / 100]) cols /\ In ("p_X05", [x]) cols /\ In ("p_WB300", [0]) cols.
Proof.
  rewrite (C148_quotients (A := RA)). rewrite response_0. cbn [bind].
  set (tb0 := [_]). destruct (quotients_ok (response b cf cs s x) t tb0 ps) as [cols H]; [intros; eexists; reflexivity|]. exists cols. split; [exact H|].
  pose proof C148_units as U. rewrite Forall_forall in U.
  assert (B : tb0 = [seen b cf cs s x (@h_cf RA R17_lines) (litR (Dec 111 100)) (@h_cs RA R17_lines) (litR (Dec 79 100)) (@at_ RA (map (@o_s300 RA) (o_lines R18_lines)) 0) (@o_x RA R18_lines)]) by reflexivity.
  assert (G : forall q f g st e c, In q ps -> response b cf cs s x (changed q t) = Ok [seen b cf cs s x (@h_cf RA R17_lines) f (@h_cs RA R17_lines) g st e] ->
            (seen b cf cs s x (@h_cf RA R17_lines) f (@h_cs RA R17_lines) g st e - seen b cf cs s x (@h_cf RA R17_lines) (litR (Dec 111 100)) (@h_cs RA R17_lines) (litR (Dec 79 100)) (@at_ RA (map (@o_s300 RA) (o_lines R18_lines)) 0) (@o_x RA R18_lines)) / p_unit q = c ->
            In (title q, [c]) cols).
  { intros q f g st e c I E C. destruct (quotients_in _ _ _ _ _ _ H I) as (tb & X & Y). rewrite E in X. injection X as <-. rewrite B in Y. cbn [combine map] in Y. rewrite <- C. exact Y. }
  assert (W : forall q, In q ps -> p_unit q <> 0) by (intros q I; apply Rgt_not_eq; exact (U q I)).
  pose (s0 := @at_ RA (map (@o_s300 RA) (o_lines R18_lines)) 0).
  pose (q1 := @mkPar RA "O2S" (Some 0%nat) (s0 / litR (Dec 100 1)) (s0 / litR (Dec 100 1) / s0 * litR (Dec 100 1))).
  pose (q2 := @mkPar RA "X05" None (litR (Dec 5 100)) (litR (Dec 5 100))).
  pose (q3 := @mkPar RA "WB300" None (litR (Dec 5 100)) (litR (Dec 5 100))).
  pose (uf := @sqrtf RA (@add RA (@powi RA (litR (Dec 98 1000)) 2) (@powi RA (litR (Dec 3 100)) 2))).
  pose (us := @sqrtf RA (@add RA (@powi RA (litR (Dec 17 100)) 2) (@powi RA (litR (Dec 6 100)) 2))).
  pose (q4 := @mkPar RA "con_Cf_factr" None uf (@h_cf RA R17_lines * uf)).
  pose (q5 := @mkPar RA "con_Cs_factr" None us (@h_cs RA R17_lines * us)).
  assert (I1 : In q1 ps) by (unfold parameters; left; reflexivity).
  assert (I2 : In q2 ps) by (unfold parameters; right; left; reflexivity).
  assert (I3 : In q3 ps) by (unfold parameters; right; right; left; reflexivity).
  assert (I4 : In q4 ps) by (unfold parameters; do 4 (apply in_or_app; right); left; reflexivity).
  assert (I5 : In q5 ps) by (unfold parameters; do 4 (apply in_or_app; right); right; left; reflexivity).
  pose proof (W q4 I4) as W4. pose proof (W q5 I5) as W5. cbn [p_unit q4 q5] in W4, W5.
  split; [|split; [|split; [|split]]].
  - apply (G q4 (litR (Dec 111 100) + uf) (litR (Dec 79 100)) s0 (@o_x RA R18_lines)); [exact I4|apply response_f|]. unfold seen. fold s0. cbn [p_unit q4]. field. split; intros Z; apply W4; rewrite Z; (apply Rmult_0_l || apply Rmult_0_r).
  - apply (G q5 (litR (Dec 111 100)) (litR (Dec 79 100) + us) s0 (@o_x RA R18_lines)); [exact I5|apply response_s|]. unfold seen. fold s0. cbn [p_unit q5]. field. split; intros Z; apply W5; rewrite Z; (apply Rmult_0_l || apply Rmult_0_r).
  - apply (G q1 (litR (Dec 111 100)) (litR (Dec 79 100)) (s0 + s0 / litR (Dec 100 1)) (@o_x RA R18_lines)); [exact I1|apply response_i; exact o2_some|].
    apply per_cent. transitivity (litR (Dec 2906 1000000000000000000)); [exact (@s0_value RA)|unfold litR; lra].
  - apply (G q2 (litR (Dec 111 100)) (litR (Dec 79 100)) s0 (@o_x RA R18_lines + litR (Dec 5 100))); [exact I2|apply response_x|]. unfold seen. fold s0. cbn [p_unit q2]. unfold litR; cbn. field.
  - apply (G q3 (litR (Dec 111 100)) (litR (Dec 79 100)) s0 (@o_x RA R18_lines)); [exact I3|apply response_w|]. unfold seen. fold s0. cbn [p_unit q3]. unfold litR; cbn. field.
Qed.

(** A case: a response with slope 2 in C_f and 5 in X05; 112 columns, the column of the foreign continuum is 2, that of X05 is 5. *)
Example C148_example : exists cols, jacobian (A := RA) (response 1 2 3 0 5) = Ok cols /\ List.length cols = 112%nat /\
  In ("p_con_Cf_factr", [2]) cols /\ In ("p_X05", [5]) cols.
Proof.
  destruct (C148_response 1 2 3 0 5) as (cols & E & I1 & _ & _ & I4 & _). exists cols. split; [exact E|]. split; [exact (proj1 (proj2 (proj2 (C148_columns _ _ E))))|]. split; assumption.
Qed.
