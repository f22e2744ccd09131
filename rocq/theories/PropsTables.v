(** Claim C62: the default parameter tables; also the tables of [oxygen_parameters] as an instance of claim C60. *)

From Coq Require Import ZArith List Bool String PeanoNat Lia.
Import ListNotations.
From Verif Require Import Arith PyBase Utils Absorption Clear Spectrum Registry ListAux SolverGen PropsHistory Uncertainty PropsCopy PropsUnc.
Local Open Scope string_scope.
Local Open Scope arith_scope.

Section Tables.
Context {A : Arith}.
Notation num := (car A).
Notation store := (store A).

(** ** Loading a module *)

Lemma bind_attrs_ok : forall (l : list (string * attr (A:=A))) next n v, bind_attrs l next = (n, v) ->
  forall k, match assoc k l with
            | None => assoc k n = None
            | Some (AScal x) => assoc k n = Some (PFloat x)
            | Some (AArr a) => exists i, assoc k n = Some (PArr (next + i)) /\ nth_error v i = Some a
            end.
Proof.
  induction l as [|[k0 [x|a]] l IH]; intros next n v E k; cbn in E.
  - injection E as <- <-. reflexivity.
  - destruct (bind_attrs l next) as [n1 v1] eqn:E1. injection E as <- <-. specialize (IH _ _ _ E1 k). cbn. destruct (String.eqb k k0); auto.
  - destruct (bind_attrs l (S next)) as [n1 v1] eqn:E1. injection E as <- <-. specialize (IH _ _ _ E1 k). cbn. destruct (String.eqb k k0).
    + exists 0%nat. rewrite Nat.add_0_r. auto.
    + destruct (assoc k l) as [[x|b]|]; auto. destruct IH as (i & H1 & H2). exists (S i). rewrite Nat.add_succ_r. auto.
Qed.

Lemma assoc_app {T} k (a b : list (string * T)) : assoc k (a ++ b)%list = match assoc k a with Some x => Some x | None => assoc k b end.
Proof. induction a as [|[k' x] a IH]; cbn; auto. destruct (String.eqb k k'); auto. Qed.

Lemma load_ok (l : list (string * attr (A:=A))) ns s ns' s' : load_module l ns s = (ns', s') ->
  extends s s' /\ st_objs s' = st_objs s /\
  forall k, match assoc k l with
            | None => assoc k ns' = assoc k ns
            | Some (AScal x) => getattr ns' k = Ok (PFloat x)
            | Some (AArr a) => exists i, getattr ns' k = Ok (PArr i) /\ nth_error (st_arrs s') i = Some a /\ (List.length (st_arrs s) <= i)%nat
            end.
Proof.
  unfold load_module. destruct (bind_attrs l (List.length (st_arrs s))) as [n v] eqn:E. intros [= <- <-]. cbn.
  split; [split; [exists []; cbn; rewrite app_nil_r; auto|eexists; reflexivity]|]. split; [reflexivity|].
  intros k. pose proof (bind_attrs_ok _ _ _ _ E k) as H. unfold getattr. rewrite assoc_app. destruct (assoc k l) as [[x|a]|].
  - rewrite H. reflexivity.
  - destruct H as (i & -> & Hi). eexists. split; [reflexivity|]. split; [|lia]. rewrite nth_error_app2 by lia.
    replace (List.length (st_arrs s) + i - List.length (st_arrs s))%nat with i by lia. exact Hi.
  - rewrite H. reflexivity.
Qed.

(** ** Building a table *)

Definition slot_con (s : store) (x : slot (A:=A)) : pcon A := match x with Keep v => content s v | Fresh a => CArr a end.
Definition slot_wf (s : store) (x : slot (A:=A)) : Prop := match x with Keep v => wf_val s v | Fresh _ => True end.

Lemma bind_table_ok : forall l no na d os ars, bind_table (A:=A) l no na = (d, os, ars) ->
  map fst d = map fst l /\
  forall k, match assoc k l with
            | None => assoc k d = None
            | Some (v, u) => exists i p, assoc k d = Some (no + i)%nat /\ nth_error os i = Some p /\
                match v with Keep x => sp_value p = x | Fresh a => exists j, sp_value p = PArr (na + j) /\ nth_error ars j = Some a end /\
                match u with Keep x => sp_uncer p = x | Fresh a => exists j, sp_uncer p = PArr (na + j) /\ nth_error ars j = Some a end
            end.
Proof.
  induction l as [|[k0 [v u]] l IH]; intros no na d os ars E; cbn in E.
  - injection E as <- <- <-. split; [reflexivity|]. intros k. reflexivity.
  - destruct v as [pv|av], u as [pu|au]; cbn in E;
      (match type of E with context [bind_table l ?no' ?na'] => destruct (bind_table l no' na') as [[d1 os1] ars1] eqn:E1 end);
      injection E as <- <- <-; destruct (IH _ _ _ _ _ E1) as [IK IH']; (split; [cbn; congruence|]);
      intros k; specialize (IH' k); cbn; (destruct (String.eqb_spec k k0) as [->|];
       [ exists 0%nat; eexists; rewrite Nat.add_0_r; split; [reflexivity|]; split; [reflexivity|]; cbn; split;
         try reflexivity; first [exists 0%nat; rewrite Nat.add_0_r; split; reflexivity | exists 1%nat; rewrite Nat.add_1_r; split; reflexivity]
       | destruct (assoc k l) as [[v' u']|]; [|exact IH']; destruct IH' as (i & p & H1 & H2 & H3 & H4); exists (S i), p; rewrite H1;
         split; [f_equal; lia|]; split; [exact H2|]; split;
         [ destruct v' as [?|?]; [exact H3|]; destruct H3 as (j & H5 & H6)
         | destruct u' as [?|?]; [exact H4|]; destruct H4 as (j & H5 & H6) ] ]);
      first [ exists j; split; [rewrite H5; f_equal; lia|exact H6]
            | exists (S j); split; [rewrite H5; f_equal; lia|exact H6]
            | exists (S (S j)); split; [rewrite H5; f_equal; lia|exact H6] ].
Qed.

Lemma make_table_ok l (s : store) d s' : make_table l s = (d, s') ->
  (forall k v u, assoc k l = Some (v, u) -> slot_wf s v /\ slot_wf s u) ->
  map fst d = map fst l /\ extends s s' /\
  forall k, entry s' d k = option_map (fun '(v, u) => (slot_con s v, slot_con s u)) (assoc k l).
Proof.
  unfold make_table. destruct (bind_table l (List.length (st_objs s)) (List.length (st_arrs s))) as [[d1 os] ars] eqn:E.
  intros [= <- <-] W. destruct (bind_table_ok _ _ _ _ _ _ E) as [HK HB]. split; [exact HK|].
  split; [split; eexists; reflexivity|]. intros k. specialize (HB k). specialize (W k). unfold entry. destruct (assoc k l) as [[v u]|]; [|rewrite HB; reflexivity].
  destruct HB as (i & p & -> & Hp & Hv & Hu). cbn. rewrite nth_error_app2 by lia.
  replace (List.length (st_objs s) + i - List.length (st_objs s))%nat with i by lia. rewrite Hp. destruct (W _ _ eq_refl) as [W1 W2].
  assert (G : forall x q, match x with Keep y => q = y | Fresh a => exists j, q = PArr (List.length (st_arrs s) + j) /\ nth_error ars j = Some a end ->
     slot_wf s x -> content (mkStore (st_objs s ++ os)%list (st_arrs s ++ ars)%list) q = slot_con s x).
  { intros [y|a] q Hq Wq.
    - subst q. destruct y; cbn in *; auto. rewrite app_nth1; auto.
    - destruct Hq as (j & -> & Hj). cbn. rewrite app_nth2 by lia. replace (List.length (st_arrs s) + j - List.length (st_arrs s))%nat with j by lia.
      f_equal. apply nth_error_nth. exact Hj. }
  rewrite (G v _ Hv W1), (G u _ Hu W2). reflexivity.
Qed.

Lemma bind_table_wf (s : store) os0 ars0 : forall l no na d os ars, bind_table (A:=A) l no na = (d, os, ars) ->
  (forall e, In e l -> slot_wf s (fst (snd e)) /\ slot_wf s (snd (snd e))) ->
  (List.length (st_arrs s) <= na)%nat -> List.length os0 = no -> List.length ars0 = na ->
  forall k o, In (k, o) d -> exists p, nth_error (os0 ++ os)%list o = Some p /\
    wf_val (mkStore (os0 ++ os) (ars0 ++ ars))%list (sp_value p) /\ wf_val (mkStore (os0 ++ os) (ars0 ++ ars))%list (sp_uncer p).
Proof.
  intros l. revert os0 ars0. induction l as [|[k0 [v u]] l IH]; intros os0 ars0 no na d os ars E W Hs Ho Ha k o Hin; cbn in E.
  - injection E as <- <- <-. destruct Hin.
  - destruct (W _ (or_introl eq_refl)) as [W1 W2]. cbn in W1, W2. assert (W' := fun e H => W e (or_intror H)). clear W.
    assert (KW : forall q n, wf_val s q -> (List.length (st_arrs s) <= n)%nat -> match q with PArr x => (x < n)%nat | _ => True end)
      by (intros [?|?|?] n; cbn; intros; auto; lia).
    destruct v as [pv|av], u as [pu|au]; cbn in E, W1, W2;
      (match type of E with context [bind_table l ?no' ?na'] => destruct (bind_table l no' na') as [[d1 os1] ars1] eqn:E1 end);
      injection E as <- <- <-; destruct Hin as [[= <- <-]|Hin].
    all: try (rewrite nth_error_app2 by lia; rewrite Ho, Nat.sub_diag; cbn; eexists; split; [reflexivity|]; cbn; unfold wf_val; cbn;
      split; (try (apply KW; [assumption|])); rewrite ?app_length; cbn; lia).
    + specialize (IH (os0 ++ [mkSP pv pu ("", "", "")])%list ars0 _ _ _ _ _ E1 W'). rewrite <- !app_assoc in IH. cbn in IH. rewrite app_length in IH. cbn in IH. apply (IH ltac:(lia) ltac:(lia) Ha _ _ Hin).
    + specialize (IH (os0 ++ [mkSP pv (PArr na) ("", "", "")])%list (ars0 ++ [au])%list _ _ _ _ _ E1 W'). rewrite <- !app_assoc in IH. cbn in IH. rewrite !app_length in IH. cbn in IH. apply (IH ltac:(lia) ltac:(lia) ltac:(lia) _ _ Hin).
    + specialize (IH (os0 ++ [mkSP (PArr na) pu ("", "", "")])%list (ars0 ++ [av])%list _ _ _ _ _ E1 W'). rewrite <- !app_assoc in IH. cbn in IH. rewrite !app_length in IH. cbn in IH. apply (IH ltac:(lia) ltac:(lia) ltac:(lia) _ _ Hin).
    + specialize (IH (os0 ++ [mkSP (PArr na) (PArr (S na)) ("", "", "")])%list (ars0 ++ [av; au])%list _ _ _ _ _ E1 W'). rewrite <- !app_assoc in IH. cbn in IH. rewrite !app_length in IH. cbn in IH. apply (IH ltac:(lia) ltac:(lia) ltac:(lia) _ _ Hin).
Qed.

(** ** Specification of the tables: names, values and uncertainties *)

Definition col_of {T} (f : T -> num) (l : list T) : pcon A := CArr (map f l).
Definition zeros_of {T} (l : list T) : pcon A := CArr (repeat #0 (List.length l)).
Definition f0 : pcon A := CFloat #0.

Definition water_common (ll : h2o_ll A) : list (string * (pcon A * pcon A)) :=
  let L := h_lines ll in
  [ ("con_Cf", (CFloat (h_cf ll), f0)); ("con_Cs", (CFloat (h_cs ll), f0));
    ("con_Xf", (CFloat (h_xcf ll), f0)); ("con_Xs", (CFloat (h_xcs ll), f0));
    ("FL", (col_of h_fl L, zeros_of L)); ("S", (col_of h_s1 L, zeros_of L)); ("B2", (col_of h_b2 L, f0));
    ("gamma_a", (col_of (fun k => h_w0 k * #1e3) L, zeros_of L)); ("gamma_w", (col_of (fun k => h_w0s k * #1e3) L, zeros_of L));
    ("n_a", (col_of h_x L, zeros_of L)); ("n_w", (col_of h_xs L, zeros_of L)); ("wv_nS", (f0, f0)) ].

Definition water_spec (m : string) (ll : h2o_ll A) : list (string * (pcon A * pcon A)) :=
  let L := h_lines ll in
  (water_common ll ++
   if str_in m ["R03"; "R16"; "R17"] then
     [ ("SR", (col_of h_sr L, zeros_of L));
       ("con_Cf_factr", (CFloat #1.11, CFloat (sqrtf (#0.098 * #0.098 + #0.03 * #0.03))));
       ("con_Cs_factr", (CFloat #0.79, CFloat (sqrtf (#0.17 * #0.17 + #0.06 * #0.06)))) ]
   else
     [ ("con_Cf_factr", (CInt 1, f0)); ("con_Cs_factr", (CInt 1, f0));
       ("n_da", (col_of h_xh L, zeros_of L)); ("n_dw", (col_of h_xhs L, zeros_of L));
       ("delta_a", (col_of (fun k => h_sh k * #1e3) L, zeros_of L)); ("delta_w", (col_of (fun k => h_shs k * #1e3) L, zeros_of L)) ])%list.

Definition oxygen_spec (m : string) (ll : o2_ll A) : list (string * (pcon A * pcon A)) :=
  let L := o_lines ll in
  ([ ("O2FL", (col_of o_f L, f0)); ("O2S", (col_of o_s300 L, zeros_of L)); ("O2BE", (col_of o_be L, f0));
     ("O2gamma", (col_of o_w300 L, zeros_of L)); ("O2gamma_NL", (col_of o_w300 L, f0)); ("Snr", (CFloat #1.6e-17, f0));
     ("WB300", (CFloat (o_wb300 ll), f0)); ("X11", (CFloat #0.785, f0)); ("X16", (CFloat #0.765, f0));
     ("X05", (CFloat (o_x ll), f0)); ("O2_nS", (CFloat #2.0, f0)); ("w2a", (CFloat #1.2, f0)) ] ++
   if str_in m ["R03"; "R17"; "R18"; "R19"] then
     [ ("O2_V", (col_of o_v L, zeros_of L)); ("O2_V_NL", (col_of o_v L, f0)); ("Y300", (col_of o_y300 L, zeros_of L)); ("Y300_NL", (col_of o_y300 L, f0)) ]
   else
     [ ("y0", (col_of o_y0 L, f0)); ("y1", (col_of o_y1 L, f0)); ("dnu0", (col_of o_dnu0 L, f0)); ("dnu1", (col_of o_dnu1 L, f0)) ])%list.

Definition ozone_spec (sr : list num) (ll : o3_ll A) : list (string * (pcon A * pcon A)) :=
  let L := z_lines ll in
  [ ("O3_FL", (col_of z_fl L, zeros_of L)); ("O3_S1", (col_of z_s1 L, zeros_of L)); ("O3_B", (col_of z_b L, zeros_of L));
    ("O3_W", (col_of z_w L, zeros_of L)); ("O3_X", (col_of z_x L, zeros_of L)); ("O3_SR", (CArr sr, zeros_of L)) ].

Definition water_ok := ["R03"; "R16"; "R17"; "R18"; "R19"; "R19SD"; "R20"; "R20SD"; "R21SD"; "R22SD"; "R23SD"; "R24"].
Definition oxygen_ok := ["R03"; "R17"; "R18"; "R19"; "R20"; "R20SD"; "R22"].

(** Helpers for the proofs. *)
Lemma entry_map (l : list (string * (slot (A:=A) * slot))) (s : store) spec :
  map (fun '(k, (v, u)) => (k, (slot_con s v, slot_con s u))) l = spec ->
  forall k, option_map (fun '(v, u) => (slot_con s v, slot_con s u)) (assoc k l) = assoc k spec.
Proof.
  intros <- k. induction l as [|[k0 [v u]] l IH]; cbn; [reflexivity|]. destruct (String.eqb k k0); auto.
Qed.

Lemma assoc_all {T} (P : T -> Prop) (l : list (string * T)) : (forall e, In e l -> P (snd e)) -> forall k x, assoc k l = Some x -> P x.
Proof. intros H k x E. apply assoc_In in E. exact (H _ E). Qed.

Lemma nth_error_lt {T} (l : list T) i x : nth_error l i = Some x -> (i < List.length l)%nat.
Proof. intros H. apply nth_error_Some. congruence. Qed.

(** The table built from slots with known contents. *)
Lemma table_done l (s : store) d s' spec : make_table l s = (d, s') ->
  (forall e, In e l -> slot_wf s (fst (snd e)) /\ slot_wf s (snd (snd e))) ->
  map (fun '(k, (v, u)) => (k, (slot_con s v, slot_con s u))) l = spec ->
  map fst d = map fst spec /\ (extends s s' /\ wf_dict s' d) /\ forall k, entry s' d k = assoc k spec.
Proof.
  intros E W S. assert (WD : wf_dict s' d).
  { unfold make_table in E. destruct (bind_table _ _ _) as [[d1 os] ars] eqn:EB. injection E as <- <-. intros k o Hin.
    exact (bind_table_wf s (st_objs s) (st_arrs s) _ _ _ _ _ _ EB W (le_n _) eq_refl eq_refl k o Hin). } destruct (make_table_ok _ _ _ _ E) as (H1 & H2 & H3).
  { intros k v u Ha. apply (assoc_all (fun x => slot_wf s (fst x) /\ slot_wf s (snd x)) l) in Ha; auto. }
  split; [|split; [split; [exact H2|exact WD]|]].
  - rewrite H1, <- S, map_map. apply map_ext. intros [k [v u]]. reflexivity.
  - intros k. rewrite H3. apply entry_map. exact S.
Qed.

End Tables.

(** Fetch attribute [k] of the loaded module: its address is [x] and its contents are known. *)
Ltac fetch HL k x :=
  let H := fresh "G" in let N := fresh "N" in
  pose proof (HL k) as H; cbn [assoc String.eqb Ascii.eqb Bool.eqb] in H;
  destruct H as (x & H & N & _); rewrite H; cbn [bind].
Ltac fetch_num HL k :=
  let H := fresh "G" in
  pose proof (HL k) as H; cbn [assoc String.eqb Ascii.eqb Bool.eqb] in H; rewrite H; cbn [bind].

(** Contents and well-formedness of the slots of a finished table. *)
Ltac slots :=
  cbn [In]; intros e He;
  repeat (destruct He as [<-|He]; [cbn [fst snd slot_wf wf_val zeros zero times1000]; split; auto; eapply nth_error_lt; eassumption|]); destruct He.
Ltac contents :=
  cbn [map slot_con content zeros zero times1000];
  repeat match goal with H : nth_error (st_arrs ?s) ?i = Some _ |- context [nth ?i (st_arrs ?s) []] => rewrite (nth_error_nth (st_arrs s) i [] H) end;
  rewrite ?map_map, ?map_length.

Section Claims.
Context {A : Arith}.

(** Claim C62, positive part: whatever was loaded before, the tables of the following models are built and hold the line
    parameters of that model (water vapour: all implemented models but R98 and MWL24). *)
Theorem C62_water : forall (db : lldb A) m ll u, db_h2o db m = Some ll -> In m water_ok ->
  exists d u', water_parameters db m u = (Ok d, u') /\ map fst d = map fst (water_spec m ll) /\
    extends (u_store u) (u_store u') /\ wf_dict (u_store u') d /\ forall k, entry (u_store u') d k = assoc k (water_spec m ll).
Proof.
  intros db m ll u Hdb Hm. unfold water_parameters. rewrite Hdb.
  destruct (load_module (h2o_module m ll) (u_h2o u) (u_store u)) as [ns s] eqn:EL. destruct (load_ok _ _ _ _ _ EL) as (X & _ & HL). clear EL.
  unfold water_ok in Hm. cbn [In] in Hm.
  repeat (destruct Hm as [<-|Hm]; [|]); try destruct Hm;
    cbn [h2o_module str_in existsb String.eqb Ascii.eqb Bool.eqb orb app] in HL;
    fetch_num HL "cf"; fetch_num HL "cs"; fetch_num HL "xcf"; fetch_num HL "xcs"; fetch HL "fl" fl; fetch HL "s1" s1; fetch HL "b2" b2;
    fetch HL "w0" w0; fetch HL "w0s" w0s; fetch HL "x" x; fetch HL "xs" xs;
    cbn [arr_of]; rewrite N, N2, N3; cbn [bind];
    (match goal with |- context [str_gtb ?a ?b] => let v := eval vm_compute in (str_gtb a b) in change (str_gtb a b) with v end; cbv iota);
    first [ fetch HL "xh" xh; fetch HL "xhs" xhs; fetch HL "sh" sh; fetch HL "shs" shs; cbn [arr_of]; rewrite N8, N9; cbn [bind app]
          | fetch HL "sr" sr; cbn [bind app] ];
    (match goal with |- context [make_table ?l s] => destruct (make_table l s) as [d s'] eqn:EM end);
    (eexists; eexists; split; [reflexivity|]); cbn [u_store];
    (match goal with |- context [water_spec ?m ll] => destruct (table_done _ _ _ _ (water_spec m ll) EM) as (T1 & (T2 & TW) & T3) end;
     [slots|contents; reflexivity|]);
    (split; [exact T1|]); (split; [eapply extends_trans; eassumption|split; [exact TW|exact T3]]).
Qed.

Theorem C62_oxygen : forall (db : lldb A) m ll u, db_o2 db m = Some ll -> In m oxygen_ok ->
  exists d u', oxygen_parameters db m u = (Ok d, u') /\ map fst d = map fst (oxygen_spec m ll) /\
    extends (u_store u) (u_store u') /\ wf_dict (u_store u') d /\ forall k, entry (u_store u') d k = assoc k (oxygen_spec m ll).
Proof.
  intros db m ll u Hdb Hm. unfold oxygen_parameters. rewrite Hdb.
  destruct (load_module (o2_module m ll) (u_o2 u) (u_store u)) as [ns s] eqn:EL. destruct (load_ok _ _ _ _ _ EL) as (X & _ & HL). clear EL.
  unfold oxygen_ok in Hm. cbn [In] in Hm.
  repeat (destruct Hm as [<-|Hm]; [|]); try destruct Hm;
    cbn [o2_module str_in existsb String.eqb Ascii.eqb Bool.eqb orb app] in HL;
    fetch HL "f" f; fetch HL "s300" s300; fetch HL "be" be; fetch HL "w300" w300; fetch_num HL "wb300"; fetch_num HL "x";
    cbn [arr_of]; rewrite N; cbn [bind];
    (match goal with |- context [str_gtb ?a ?b] => let v := eval vm_compute in (str_gtb a b) in change (str_gtb a b) with v end; cbv iota);
    first [ fetch HL "y0" y0; fetch HL "y1" y1; fetch HL "dnu0" dnu0; fetch HL "dnu1" dnu1
          | fetch HL "v" v; fetch HL "y300" y300 ];
    cbn [app];
    (match goal with |- context [make_table ?l s] => destruct (make_table l s) as [d s'] eqn:EM end);
    (eexists; eexists; split; [reflexivity|]); cbn [u_store];
    (match goal with |- context [oxygen_spec ?m ll] => destruct (table_done _ _ _ _ (oxygen_spec m ll) EM) as (T1 & (T2 & TW) & T3) end;
     [slots|contents; reflexivity|]);
    (split; [exact T1|]); (split; [eapply extends_trans; eassumption|split; [exact TW|exact T3]]).
Qed.

Theorem C62_ozone : forall (db : lldb A) sr m ll u, db_o3 db m = Some ll ->
  exists d u', ozono_parameters db sr m u = (Ok d, u') /\ map fst d = map fst (ozone_spec sr ll) /\
    extends (u_store u) (u_store u') /\ wf_dict (u_store u') d /\ forall k, entry (u_store u') d k = assoc k (ozone_spec sr ll).
Proof.
  intros db sr m ll u Hdb. unfold ozono_parameters. rewrite Hdb.
  destruct (load_module (o3_module sr ll) (u_o3 u) (u_store u)) as [ns s] eqn:EL. destruct (load_ok _ _ _ _ _ EL) as (X & _ & HL). clear EL.
  cbn [o3_module] in HL. fetch HL "fl" fl; fetch HL "s1" s1; fetch HL "b" b; fetch HL "w" w; fetch HL "x" x; fetch HL "sr" srv.
  cbn [arr_of]; rewrite N; cbn [bind].
  match goal with |- context [make_table ?l s] => destruct (make_table l s) as [d s'] eqn:EM end.
  eexists; eexists; split; [reflexivity|]; cbn [u_store].
  destruct (table_done _ _ _ _ (ozone_spec sr ll) EM) as (T1 & (T2 & TW) & T3); [slots|contents; reflexivity|].
  split; [exact T1|]. split; [eapply extends_trans; eassumption|split; [exact TW|exact T3]].
Qed.

Lemma missing (l : list (string * attr (A:=A))) s ns s' k : load_module l [] s = (ns, s') -> assoc k l = None -> getattr ns k = Err AttributeError.
Proof.
  intros E H. destruct (load_ok _ _ _ _ _ E) as (_ & _ & HL). specialize (HL k). rewrite H in HL. unfold getattr. rewrite HL. reflexivity.
Qed.

(** Claim C62 is false: in a fresh process the table of some implemented models cannot be built. *)
Theorem C62_refuted : forall (db : lldb A) (s : store A) m,
  (In m ["R98"; "MWL24"] -> forall ll, db_h2o db m = Some ll -> fst (water_parameters db m (mkU [] [] [] s)) = Err AttributeError) /\
  (In m ["R98"; "R16"; "R19SD"; "R23"; "R24"] -> forall ll, db_o2 db m = Some ll -> fst (oxygen_parameters db m (mkU [] [] [] s)) = Err AttributeError).
Proof.
  intros db s m. split; intros Hm ll Hdb.
  - unfold water_parameters. rewrite Hdb. cbn [u_h2o u_store].
    destruct (load_module (h2o_module m ll) [] s) as [ns s1] eqn:EL. pose proof (missing _ _ _ _ "xh" EL) as M1. pose proof (missing _ _ _ _ "sr" EL) as M2.
    destruct (load_ok _ _ _ _ _ EL) as (X & _ & HL). clear EL. cbn [In] in Hm.
    repeat (destruct Hm as [<-|Hm]; [|]); try destruct Hm;
      cbn [h2o_module str_in existsb String.eqb Ascii.eqb Bool.eqb orb app] in HL, M1, M2;
      fetch_num HL "cf"; fetch_num HL "cs"; fetch_num HL "xcf"; fetch_num HL "xcs"; fetch HL "fl" fl; fetch HL "s1" s1'; fetch HL "b2" b2;
      fetch HL "w0" w0; fetch HL "w0s" w0s; fetch HL "x" x; fetch HL "xs" xs;
      cbn [arr_of]; rewrite N, N2, N3; cbn [bind];
      (match goal with |- context [str_gtb ?a ?b] => let v := eval vm_compute in (str_gtb a b) in change (str_gtb a b) with v end; cbv iota);
      first [rewrite M1 by reflexivity | rewrite M2 by reflexivity]; reflexivity.
  - unfold oxygen_parameters. rewrite Hdb. cbn [u_o2 u_store].
    destruct (load_module (o2_module m ll) [] s) as [ns s1] eqn:EL. pose proof (missing _ _ _ _ "y0" EL) as M1. pose proof (missing _ _ _ _ "v" EL) as M2.
    destruct (load_ok _ _ _ _ _ EL) as (X & _ & HL). clear EL. cbn [In] in Hm.
    repeat (destruct Hm as [<-|Hm]; [|]); try destruct Hm;
      cbn [o2_module str_in existsb String.eqb Ascii.eqb Bool.eqb orb app] in HL, M1, M2;
      fetch HL "f" f; fetch HL "s300" s300; fetch HL "be" be; fetch HL "w300" w300; fetch_num HL "wb300"; fetch_num HL "x";
      cbn [arr_of]; rewrite N; cbn [bind];
      (match goal with |- context [str_gtb ?a ?b] => let v := eval vm_compute in (str_gtb a b) in change (str_gtb a b) with v end; cbv iota);
      first [rewrite M1 by reflexivity | rewrite M2 by reflexivity]; reflexivity.
Qed.

(** ... and after another model was loaded the same call returns a table that mixes the two models: the shift exponents
    listed for R98 are those of R18. *)
Theorem C62_stale_refuted : forall (db : lldb A) (u : ustate A) l18 l98, db_h2o db "R18" = Some l18 -> db_h2o db "R98" = Some l98 ->
  exists d u', water_parameters db "R98" (snd (water_parameters db "R18" u)) = (Ok d, u') /\
    option_map fst (entry (u_store u') d "FL") = Some (CArr (map h_fl (h_lines l98))) /\
    option_map fst (entry (u_store u') d "n_da") = Some (CArr (map h_xh (h_lines l18))).
Proof.
  intros db u l18 l98 H18 H98. unfold water_parameters at 2. rewrite H18.
  destruct (load_module (h2o_module "R18" l18) (u_h2o u) (u_store u)) as [ns1 s1] eqn:E1. destruct (load_ok _ _ _ _ _ E1) as (X1 & _ & HL1). clear E1.
  cbn [h2o_module str_in existsb String.eqb Ascii.eqb Bool.eqb orb app] in HL1.
  fetch_num HL1 "cf"; fetch_num HL1 "cs"; fetch_num HL1 "xcf"; fetch_num HL1 "xcs"; fetch HL1 "fl" fl; fetch HL1 "s1" s1'; fetch HL1 "b2" b2.
  fetch HL1 "w0" w0; fetch HL1 "w0s" w0s; fetch HL1 "x" x; fetch HL1 "xs" xs.
  cbn [arr_of]; rewrite N, N2, N3; cbn [bind].
  change (str_gtb "R18" "R17") with true; cbv iota.
  fetch HL1 "xh" xh; fetch HL1 "xhs" xhs; fetch HL1 "sh" sh; fetch HL1 "shs" shs; cbn [arr_of]; rewrite N8, N9; cbn [bind app].
  match goal with |- context [make_table ?l s1] => destruct (make_table l s1) as [d1 s2] eqn:EM end. cbn [snd].
  assert (X2 : extends s1 s2) by (unfold make_table in EM; destruct (bind_table _ _ _) as [[? ?] ?] in EM; injection EM as <- <-; split; eexists; reflexivity).
  clear EM. unfold water_parameters. rewrite H98. cbn [u_h2o u_store u_o2 u_o3].
  destruct (load_module (h2o_module "R98" l98) ns1 s2) as [ns3 s3] eqn:E3. destruct (load_ok _ _ _ _ _ E3) as (X3 & _ & HL). clear E3.
  cbn [h2o_module str_in existsb String.eqb Ascii.eqb Bool.eqb orb app] in HL.
  assert (X13 : extends s1 s3) by (eapply extends_trans; eassumption).
  assert (T : forall i a, nth_error (st_arrs s1) i = Some a -> nth_error (st_arrs s3) i = Some a).
  { intros i a Hi. destruct X13 as [_ [ars ->]]. rewrite nth_error_app1; auto. eapply nth_error_lt; eauto. }
  assert (S : forall k i, getattr ns1 k = Ok (PArr i) ->
     assoc k [("reftline", 0%nat); ("fl", 0%nat); ("s1", 0%nat); ("b2", 0%nat); ("w0", 0%nat); ("x", 0%nat); ("w0s", 0%nat); ("xs", 0%nat);
              ("reftcon", 0%nat); ("cf", 0%nat); ("xcf", 0%nat); ("cs", 0%nat); ("xcs", 0%nat)] = None ->
     getattr ns3 k = Ok (PArr i)).
  { intros k i Hk Hn. specialize (HL k). unfold getattr in *. cbn [assoc] in HL, Hn.
    repeat match goal with H : context [String.eqb k ?z] |- _ => destruct (String.eqb k z); [discriminate|] end. rewrite HL. exact Hk. }
  pose proof (S "xh" xh G10 eq_refl) as S1. pose proof (S "xhs" xhs G11 eq_refl) as S2. pose proof (S "sh" sh G12 eq_refl) as S3. pose proof (S "shs" shs G13 eq_refl) as S4.
  apply T in N6, N7, N8, N9. clear - HL S1 S2 S3 S4 N6 N7 N8 N9.
  rename N6 into Z6, N7 into Z7, N8 into Z8, N9 into Z9.
  fetch_num HL "cf"; fetch_num HL "cs"; fetch_num HL "xcf"; fetch_num HL "xcs"; fetch HL "fl" fl'; fetch HL "s1" sa; fetch HL "b2" b2'.
  fetch HL "w0" w0'; fetch HL "w0s" w0s'; fetch HL "x" x'; fetch HL "xs" xs'.
  cbn [arr_of]; rewrite N, N2, N3; cbn [bind].
  change (str_gtb "R98" "R17") with true; cbv iota. rewrite S1, S2, S3, S4. cbn [bind arr_of]. rewrite Z8, Z9. cbn [bind app].
  match goal with |- context [make_table ?l s3] => destruct (make_table l s3) as [d s'] eqn:EM end.
  eexists; eexists; split; [reflexivity|]; cbn [u_store].
  pose proof (fun W => table_done _ _ _ _ _ EM W eq_refl) as TD. destruct TD as (T1 & (T2 & TW) & T3); [slots|].
  rewrite !T3. cbn [map slot_con content assoc String.eqb Ascii.eqb Bool.eqb option_map fst].
  rewrite (nth_error_nth _ _ _ N), (nth_error_nth _ _ _ Z6). split; reflexivity.
Qed.
End Claims.
