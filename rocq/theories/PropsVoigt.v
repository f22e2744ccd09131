(** Claims C87 and C56, continued: sign of the real part of the complex error function approximation and of the ozone Voigt
    profile, over the reals.  The sign of Re (asum * conj bsum) is decided by expanding it, with exact integer
    coefficients, into a polynomial in x and y - 1/40. *)

From Coq Require Import ZArith Reals Lra Lia Psatz String List Bool.
Import ListNotations.
From Verif Require Import Arith PyBase Utils Absorption Clear Spectrum Spec RealAux SolverGen LineData Lineshape PropsAbsN2 PropsLiq PropsClear PropsO2H2O PropsH2O PropsO3 PropsErf.
Local Open Scope string_scope.
Open Scope R_scope.

(** ** Polynomials with integer coefficients in one and two variables *)

Fixpoint padd (p q : list Z) : list Z := match p, q with [], _ => q | _, [] => p | a :: p', b :: q' => (a + b)%Z :: padd p' q' end.
Fixpoint pscale (k : Z) (p : list Z) : list Z := match p with [] => [] | a :: p' => (k * a)%Z :: pscale k p' end.
Fixpoint pmul (p q : list Z) : list Z := match p with [] => [] | a :: p' => padd (pscale a q) (0%Z :: pmul p' q) end.
Fixpoint pev (p : list Z) (u : R) : R := match p with [] => 0 | a :: p' => IZR a + u * pev p' u end.

Fixpoint badd (p q : list (list Z)) : list (list Z) := match p, q with [], _ => q | _, [] => p | a :: p', b :: q' => padd a b :: badd p' q' end.
Fixpoint brow (r : list Z) (q : list (list Z)) : list (list Z) := match q with [] => [] | a :: q' => pmul r a :: brow r q' end.
Fixpoint bmul (p q : list (list Z)) : list (list Z) := match p with [] => [] | a :: p' => badd (brow a q) ([] :: bmul p' q) end.
Fixpoint bev (p : list (list Z)) (x u : R) : R := match p with [] => 0 | a :: p' => pev a u + x * bev p' x u end.

Lemma padd_ev p q u : pev (padd p q) u = pev p u + pev q u.
Proof. revert q. induction p as [|a p IH]; intros [|b q]; cbn [padd pev]; try lra. rewrite IH, plus_IZR. ring. Qed.
Lemma pscale_ev k p u : pev (pscale k p) u = IZR k * pev p u.
Proof. induction p as [|a p IH]; cbn [pscale pev]; [lra|]. rewrite IH, mult_IZR. ring. Qed.
Lemma pmul_ev p q u : pev (pmul p q) u = pev p u * pev q u.
Proof. induction p as [|a p IH]; cbn [pmul pev]; [lra|]. rewrite padd_ev, pscale_ev. cbn [pev]. rewrite IH. ring. Qed.
Lemma badd_ev p q x u : bev (badd p q) x u = bev p x u + bev q x u.
Proof. revert q. induction p as [|a p IH]; intros [|b q]; cbn [badd bev]; try lra. rewrite IH, padd_ev. ring. Qed.
Lemma brow_ev r q x u : bev (brow r q) x u = pev r u * bev q x u.
Proof. induction q as [|a q IH]; cbn [brow bev]; [lra|]. rewrite IH, pmul_ev. ring. Qed.
Lemma bmul_ev p q x u : bev (bmul p q) x u = bev p x u * bev q x u.
Proof. induction p as [|a p IH]; cbn [bmul bev]; [lra|]. rewrite badd_ev, brow_ev. cbn [bev pev]. rewrite IH. ring. Qed.

(** Horner evaluation at (1 + u) - i x, real and imaginary part. *)
Fixpoint bhorner (lead : Z) (cs : list Z) : list (list Z) * list (list Z) :=
  match cs with
  | [] => ([[lead]], [])
  | c :: cs' =>
      let '(r, i) := bhorner lead cs' in
      (badd (badd (bmul [[1; 1]%Z] r) (bmul [[]; [1%Z]] i)) [[c]], badd (bmul [[1; 1]%Z] i) (bmul [[]; [(-1)%Z]] r))
  end.

Lemma bhorner_ev lead cs x u :
  horner (A:=RA) (mkC (A:=RA) (IZR lead) 0) (map (IZR : Z -> car RA) cs) (mkC (A:=RA) (1 + u) (- x)) =
  mkC (A:=RA) (bev (fst (bhorner lead cs)) x u) (bev (snd (bhorner lead cs)) x u).
Proof.
  induction cs as [|c cs IH].
  - cbn. f_equal; ring.
  - cbn [map horner bhorner]. rewrite IH. destruct (bhorner lead cs) as [r i]. cbn [fst snd].
    rewrite !badd_ev, !bmul_ev. cbn [bev pev]. set (R0 := bev r x u). set (I0 := bev i x u).
    unfold c_add, c_mul, c_of. cbn [re im]. apply cpx_eq; cbn [re im]; ra; field.
Qed.

(** Scaling: [10^15 * 40^n] times the value at [z / 40] of a polynomial with decimal coefficients is an integer polynomial at
    [z]. *)
Definition dz (d : dec) (k : Z) : Z := match d with Dec n p => (n * (10 ^ 15 * k) / Zpos p)%Z end.
Definition dz_ok (d : dec) : bool := match d with Dec _ p => Z.eqb (10 ^ 15 mod Zpos p) 0 end.
Lemma dz_R d k : dz_ok d = true -> IZR (dz d k) = litR d * (IZR (10 ^ 15) * IZR k).
Proof.
  destruct d as [n p]. unfold dz_ok, dz, litR. intros H%Z.eqb_eq. 
  assert (Hp : IZR (Zpos p) <> 0) by (apply not_0_IZR; lia).
  set (K := (10 ^ 15)%Z) in *. clearbody K. apply Z.mod_divide in H; [|lia]. destruct H as [q ->].
  replace (n * (q * Zpos p * k))%Z with (n * q * k * Zpos p)%Z by ring. rewrite Z.div_mul by lia. rewrite !mult_IZR. field. auto.
Qed.

Fixpoint scaled (ds : list dec) (k : Z) : list Z :=   (* [k] = 40 ^ length ds *)
  match ds with [] => [] | d :: ds' => dz d k :: scaled ds' (k / 40)%Z end.

Lemma pow40 n : (40 ^ Z.of_nat (S n) / 40 = 40 ^ Z.of_nat n)%Z.
Proof. rewrite Nat2Z.inj_succ, Z.pow_succ_r by lia. rewrite Z.mul_comm, Z.div_mul by lia. reflexivity. Qed.

Lemma scaled_horner (ld : dec) ds (z : cpx RA) : dz_ok ld = true -> forallb dz_ok ds = true ->
  horner (A:=RA) (mkC (A:=RA) (IZR (dz ld 1)) 0) (map (IZR : Z -> car RA) (scaled ds (40 ^ Z.of_nat (List.length ds)))) z =
  c_scale (A:=RA) (IZR (10 ^ 15) * IZR (40 ^ Z.of_nat (List.length ds)))
    (horner (A:=RA) (c_of (A:=RA) (lit (a:=RA) ld)) (map (@lit RA) ds) (c_scale (A:=RA) (1 / 40) z)).
Proof.
  intros Hl H. induction ds as [|d ds IH].
  - cbn [List.length scaled map horner Z.of_nat]. rewrite dz_R by auto. change (40 ^ 0)%Z with 1%Z. change (lit (a:=RA) ld) with (litR ld). set (K := IZR (10 ^ 15)). set (c := litR ld). clearbody K c.
    unfold c_scale, c_of. cbn [re im]. apply cpx_eq; cbn [re im]; ra; field.
  - cbn [forallb] in H. apply andb_true_iff in H. destruct H as [Hd Hds]. specialize (IH Hds).
    cbn [List.length scaled map horner]. rewrite pow40, IH, dz_R by auto.
    set (h := horner (A:=RA) (c_of (A:=RA) (lit (a:=RA) ld)) (map (@lit RA) ds) (c_scale (A:=RA) (1 / 40) z)). clearbody h.
    rewrite Nat2Z.inj_succ, Z.pow_succ_r by lia. rewrite mult_IZR. set (k := IZR (40 ^ Z.of_nat (List.length ds))). set (K := IZR (10 ^ 15)). clearbody k K.
    change (lit (a:=RA) d) with (litR d). set (c := litR d). clearbody c. destruct h as [hr hi], z as [zr zi].
    unfold c_scale, c_add, c_mul, c_of. cbn [re im]. apply cpx_eq; cbn [re im]; ra; field.
Qed.

(** ** The polynomial Re (asum * conj bsum) *)
Definition dA : list dec := [122.607931777104326; 214.382388694706425; 181.928533092181549; 93.155580458138441; 30.180142196210589; 5.912626209773153]%dec.
Definition dB : list dec := [122.607931773875350; 352.730625110963558; 457.334478783897737; 348.703917719495792; 170.354001821091472; 53.992906912940207; 10.479857114260399]%dec.
Definition NB := Eval vm_compute in bhorner (dz 0.564189583562615%dec 1) (scaled dA (40 ^ Z.of_nat 6)).
Definition DB := Eval vm_compute in bhorner (dz 1%dec 1) (scaled dB (40 ^ Z.of_nat 7)).
Definition PB : list (list Z) := Eval vm_compute in badd (bmul (fst NB) (fst DB)) (bmul (snd NB) (snd DB)).

Lemma PB_sign (x y : R) : 0 <= y ->
  exists K, 0 < K /\ exists D, 0 <= D /\ re (dcerror (A:=RA) x y) = bev PB (40 * x) (40 * y - 1) / K / D /\
    exists k, 0 < k /\ k * k * D = bev (fst DB) (40 * x) (40 * y - 1) * bev (fst DB) (40 * x) (40 * y - 1) + bev (snd DB) (40 * x) (40 * y - 1) * bev (snd DB) (40 * x) (40 * y - 1).
Proof.
  intros Hy. unfold dcerror. replace (leb (a:=RA) (lit (a:=RA) (Dec 0 1)) y) with true by (symmetry; apply Rleb_true; ra; lra).
  set (X := 40 * x). set (U := 40 * y - 1).
  unfold dcerr_w. cbv zeta.
  assert (Z : mkC (A:=RA) (absv (a:=RA) y) (opp (a:=RA) x) = c_scale (A:=RA) (1 / 40) (mkC (A:=RA) (1 + U) (- X))).
  { unfold c_scale, U, X. apply cpx_eq; cbn [re im]; ra; [rewrite Rabs_pos_eq by auto|]; field. }
  rewrite Z. clear Z.
  assert (HN := scaled_horner 0.564189583562615%dec dA (mkC (A:=RA) (1 + U) (- X)) eq_refl eq_refl).
  assert (HD := scaled_horner 1%dec dB (mkC (A:=RA) (1 + U) (- X)) eq_refl eq_refl).
  rewrite bhorner_ev in HN, HD.
  change (firstn 6 (dcerr_a (A:=RA))) with (map (@lit RA) dA). change (dcerr_b (A:=RA)) with (map (@lit RA) dB).
  set (N := horner (A:=RA) _ (map (@lit RA) dA) _) in *. set (D := horner (A:=RA) _ (map (@lit RA) dB) _) in *.
  clearbody N D.
  change (bhorner (dz 0.564189583562615%dec 1) (scaled dA (40 ^ Z.of_nat (List.length dA)))) with NB in HN.
  change (bhorner (dz 1%dec 1) (scaled dB (40 ^ Z.of_nat (List.length dB)))) with DB in HD.
  change PB with (badd (bmul (fst NB) (fst DB)) (bmul (snd NB) (snd DB))). rewrite badd_ev, !bmul_ev.
  assert (Nr := f_equal (@re RA) HN). assert (Ni := f_equal (@im RA) HN). assert (Dr := f_equal (@re RA) HD). assert (Di := f_equal (@im RA) HD).
  clear HN HD. unfold c_scale in Nr, Ni, Dr, Di. cbn [re im] in Nr, Ni, Dr, Di. cbn [mul RA] in Nr, Ni, Dr, Di.
  assert (K1 : 0 < IZR (10 ^ 15) * IZR (40 ^ Z.of_nat (List.length dA))) by (rewrite <- mult_IZR; apply (IZR_lt 0); reflexivity).
  assert (K2 : 0 < IZR (10 ^ 15) * IZR (40 ^ Z.of_nat (List.length dB))) by (rewrite <- mult_IZR; apply (IZR_lt 0); reflexivity).
  set (k1 := IZR (10 ^ 15) * IZR (40 ^ Z.of_nat (List.length dA))) in *. set (k2 := IZR (10 ^ 15) * IZR (40 ^ Z.of_nat (List.length dB))) in *. clearbody k1 k2.
  exists (k1 * k2). split; [apply Rmult_lt_0_compat; auto|]. exists (re D * re D + im D * im D).
  assert (S1 := sq_nonneg (re D)). assert (S2 := sq_nonneg (im D)). split; [lra|].
  split; [|exists k2; split; auto; fold X U; rewrite Dr, Di; ring].
  rewrite Nr, Ni, Dr, Di. unfold c_div, c_norm2. cbn [re im]. ra.
  match goal with |- ?n / ?d = ?m / ?k / ?d' => replace (m / k) with n by (field; lra); reflexivity end.
Qed.

(** ** Sign certificate *)
Definition nn (p : list Z) : bool := forallb (Z.leb 0) p.
Definition zz (p : list Z) : bool := forallb (Z.eqb 0) p.
Fixpoint tail_ok (l : list (list Z)) : bool :=
  match l with [] => true | [z] => zz z | z :: r :: l' => zz z && nn r && tail_ok l' end.
Definition disc (a b c : Z) : bool := Z.leb 0 a && Z.leb 0 c && Z.leb (b * b) (4 * a * c).
Definition cert (p : list (list Z)) : bool :=
  match p with
  | (a0 :: b0 :: r0) :: z1 :: (a2 :: b2 :: r2) :: z3 :: (a4 :: b4 :: r4) :: l =>
      zz z1 && zz z3 && nn r0 && nn r2 && nn r4 && tail_ok l && disc a0 a2 a4 && disc b0 b2 b4
  | _ => false
  end.

Lemma nn_ev p u : nn p = true -> 0 <= u -> 0 <= pev p u.
Proof. unfold nn. induction p as [|a p IH]; cbn [forallb pev]; [lra|]. intros [H%Z.leb_le%IZR_le K]%andb_true_iff Hu. specialize (IH K Hu). assert (0 <= u * pev p u) by (apply Rmult_le_pos; auto). lra. Qed.
Lemma zz_ev p u : zz p = true -> pev p u = 0.
Proof. unfold zz. induction p as [|a p IH]; cbn [forallb pev]; [lra|]. intros [H%Z.eqb_eq K]%andb_true_iff. rewrite IH, <- H by auto. lra. Qed.
Lemma tail_ev l x u : tail_ok l = true -> 0 <= u -> 0 <= x * bev l x u.
Proof.
  intros H Hu. revert H. enough (G : (tail_ok l = true -> 0 <= x * bev l x u) /\ (forall a, tail_ok (a :: l) = true -> 0 <= x * bev (a :: l) x u)) by apply G.
  induction l as [|r l [IH1 IH2]].
  - split; [cbn; lra|]. intros a H. cbn [tail_ok] in H. cbn [bev]. rewrite zz_ev by auto. lra.
  - split; [intros H; apply IH2; auto|]. intros a H. cbn [tail_ok] in H. apply andb_true_iff in H. destruct H as [[Ha Hr]%andb_true_iff Hl].
    cbn [bev]. rewrite (zz_ev a) by auto. specialize (IH1 Hl). assert (Nr := nn_ev r u Hr Hu). assert (X := sq_nonneg x).
    replace (x * (0 + x * (pev r u + x * bev l x u))) with (x * x * pev r u + x * x * (x * bev l x u)) by ring.
    apply Rplus_le_le_0_compat; apply Rmult_le_pos; auto.
Qed.

Lemma disc_ev a b c s : disc a b c = true -> 0 <= IZR a + IZR b * s + IZR c * (s * s).
Proof.
  unfold disc. rewrite !andb_true_iff. intros ((Ha%Z.leb_le & Hc%Z.leb_le) & H%Z.leb_le).
  apply IZR_le in Ha, Hc, H. rewrite !mult_IZR in H. set (A := IZR a) in *. set (B := IZR b) in *. set (C := IZR c) in *. clearbody A B C.
  destruct (Req_dec C 0) as [->|HC].
  - assert (B * B <= 0) by lra. assert (B = 0) by (assert (X := sq_nonneg B); nra). subst B. lra.
  - assert (0 < C) by lra. assert (X := sq_nonneg (2 * C * s + B)). 
    apply (Rmult_le_reg_l (4 * C)); [lra|]. rewrite Rmult_0_r.
    replace (4 * C * (A + B * s + C * (s * s))) with ((2 * C * s + B) * (2 * C * s + B) + (4 * A * C - B * B)) by ring. lra.
Qed.

Lemma cert_ev p x u : cert p = true -> 0 <= u -> 0 <= bev p x u.
Proof.
  intros H Hu. destruct p as [|[|a0 [|b0 r0]] [|z1 [|[|a2 [|b2 r2]] [|z3 [|[|a4 [|b4 r4]] l]]]]]; try discriminate H.
  unfold cert in H. rewrite !andb_true_iff in H. destruct H as (((((((Hz1 & Hz3) & H0) & H2) & H4) & Hl) & D0) & D1).
  cbn [bev pev]. rewrite (zz_ev z1), (zz_ev z3) by auto.
  apply (disc_ev _ _ _ (x * x)) in D0. apply (disc_ev _ _ _ (x * x)) in D1.
  assert (T := tail_ev l x u Hl Hu). apply (nn_ev _ u) in H0, H2, H4; auto.
  set (e := x * bev l x u) in *. clearbody e. set (q0 := pev r0 u) in *. set (q2 := pev r2 u) in *. set (q4 := pev r4 u) in *. clearbody q0 q2 q4.
  assert (X := sq_nonneg x). set (s := x * x) in *. 
  match goal with |- 0 <= ?g => replace g with ((IZR a0 + IZR a2 * s + IZR a4 * (s * s)) + u * (IZR b0 + IZR b2 * s + IZR b4 * (s * s)) + u * u * (q0 + s * q2 + s * s * q4) + s * s * e) by (unfold s; ring) end.
  clearbody s. assert (U2 := sq_nonneg u). assert (S2 := sq_nonneg s).
  assert (0 <= s * q2) by (apply Rmult_le_pos; auto). assert (0 <= s * s * q4) by (apply Rmult_le_pos; auto).
  assert (0 <= u * (IZR b0 + IZR b2 * s + IZR b4 * (s * s))) by (apply Rmult_le_pos; auto).
  assert (0 <= u * u * (q0 + s * q2 + s * s * q4)) by (apply Rmult_le_pos; lra). assert (0 <= s * s * e) by (apply Rmult_le_pos; auto). lra.
Qed.

Lemma PB_cert : cert PB = true.
Proof. vm_compute. reflexivity. Qed.

(** The real part is non-negative away from the real axis ... *)
Theorem C87_real_part (x y : R) : 1 / 40 <= y -> 0 <= re (dcerror (A:=RA) x y).
Proof.
  intros Hy. destruct (PB_sign x y ltac:(lra)) as (K & HK & D & HD & E & _). rewrite E.
  assert (P := cert_ev PB (40 * x) (40 * y - 1) PB_cert ltac:(lra)).
  destruct (Req_dec D 0) as [->|]; [unfold Rdiv; rewrite Rinv_0; lra|]. apply div_nonneg; [apply div_nonneg; auto|lra].
Qed.

Definition pevz (p : list Z) (u : Z) : Z := fold_right (fun a r => (a + u * r)%Z) 0%Z p.
Definition bevz (p : list (list Z)) (x u : Z) : Z := fold_right (fun a r => (pevz a u + x * r)%Z) 0%Z p.
Lemma pevz_R p u : pev p (IZR u) = IZR (pevz p u).
Proof. induction p as [|a p IH]; [reflexivity|]. cbn [pev pevz fold_right]. fold (pevz p u). rewrite plus_IZR, mult_IZR, IH. reflexivity. Qed.
Lemma bevz_R p x u : bev p (IZR x) (IZR u) = IZR (bevz p x u).
Proof. induction p as [|a p IH]; [reflexivity|]. cbn [bev bevz fold_right]. fold (bevz p x u). rewrite plus_IZR, mult_IZR, IH, pevz_R. reflexivity. Qed.

(** ... but not on it, where the function it approximates is exp(-x^2) > 0. *)
Theorem C87_real_part_refuted : re (dcerror (A:=RA) 6 0) < 0.
Proof.
  destruct (PB_sign 6 0 ltac:(lra)) as (K & HK & D & HD & E & k & Hk & ED). rewrite E.
  replace (40 * 6) with (IZR 240) in * by lra. replace (40 * 0 - 1) with (IZR (-1)) in * by lra. rewrite !bevz_R in *.
  assert (N : IZR (bevz PB 240 (-1)) < 0) by (apply (IZR_lt _ 0); vm_compute; reflexivity).
  assert (P : 0 < IZR (bevz (fst DB) 240 (-1)) * IZR (bevz (fst DB) 240 (-1)) + IZR (bevz (snd DB) 240 (-1)) * IZR (bevz (snd DB) 240 (-1))).
  { rewrite <- !mult_IZR, <- plus_IZR. apply (IZR_lt 0). vm_compute. reflexivity. }
  rewrite <- ED in P. assert (Dp : 0 < D) by (destruct (Req_dec D 0) as [Z|]; [rewrite Z, Rmult_0_r in P; lra|lra]).
  set (n := IZR (bevz PB 240 (-1))) in *. clearbody n.
  assert (0 < - n / K) by (apply div_pos; lra). assert (0 < - n / K / D) by (apply div_pos; auto). unfold Rdiv in *. lra.
Qed.

(** ** Ozone with the Voigt profile (models R22 and R22SD) *)

Lemma voigt_nonneg t p f ti (k : o3_line RA) : good_o3 k -> 0 < t -> 0 < ti -> 0 < z_fl k ->
  1 / 40 * (0.62065e-7 * z_fl k * R_sqrt.sqrt t) <= z_w k * p * Rpower ti (z_x k) -> 0 <= o3_term_voigt (A:=RA) t p f ti k.
Proof.
  intros G Ht Hti Hf H. assert (S := strength_nonneg ti k G). unfold o3_term_voigt. cbv zeta.
  set (s := o3_strength (A:=RA) ti k) in *. clearbody s.
  assert (Q : 0 < R_sqrt.sqrt t) by (apply sqrt_lt_R0; auto).
  match goal with |- context [dcerror ?a ?b] => assert (C : 0 <= re (dcerror (A:=RA) a b)) end.
  { apply C87_real_part. ra. rewrite Rpowf_pos by auto. set (B := 62065 / 1000000000000 * z_fl k * R_sqrt.sqrt t).
    assert (HB : 0 < B) by (unfold B; apply Rmult_lt_0_compat; auto; apply Rmult_lt_0_compat; lra).
    assert (HB2 : 1 / 40 * B <= z_w k * p * Rpower ti (z_x k)) by (refine (Rle_trans _ _ _ _ H); unfold B; lra). clearbody B.
    set (w := z_w k * p * Rpower ti (z_x k)) in *. clearbody w. apply (Rmult_le_reg_r B); auto.
    replace (w / B * B) with w by (field; lra). exact HB2. }
  match goal with |- context [re (dcerror ?a ?b)] => set (c := re (dcerror (A:=RA) a b)) in * end. clearbody c. ra.
  apply div_nonneg; [apply Rmult_le_pos; auto|]. apply Rmult_lt_0_compat; auto. apply Rmult_lt_0_compat; lra.
Qed.

(** Non-negative as long as every line is broader, by pressure, than 1/40 of its Doppler width. *)
Theorem C56_voigt_nonnegative m (ll : o3_ll RA) t p f o3n : str_in m ["R22"; "R22SD"] = true -> Forall good_o3 (z_lines ll) -> 0 < z_reftline ll ->
  0 < t -> 0 <= o3n ->
  Forall (fun k : o3_line RA => 0 < z_fl k /\ 1 / 40 * (0.62065e-7 * z_fl k * R_sqrt.sqrt t) <= z_w k * p * Rpower (z_reftline ll / t) (z_x k)) (z_lines ll) ->
  0 <= o3_absorption (A:=RA) m ll t p f o3n.
Proof.
  intros Hm G Hr Ht Hn HW. unfold o3_absorption. destruct (@eqb RA _ _); [ra; lra|]. cbv zeta. rewrite Hm.
  assert (Hti : 0 < z_reftline ll / t) by (apply div_pos; auto).
  match goal with |- context [o3_loop ?a ?b ?c ?d] => assert (L : 0 <= o3_loop (A:=RA) a b c d) end.
  { apply loop_nonneg; [|ra; lra]. intros k Hk. destruct (proj1 (Forall_forall _ _) HW k Hk) as [H1 H2]. apply voigt_nonneg; auto. exact (proj1 (Forall_forall _ _) G k Hk). }
  match goal with |- context [o3_loop ?a ?b ?c ?d] => set (x := o3_loop (A:=RA) a b c d) in * end. clearbody x. ra.
  rewrite Rpowf_pos by auto. assert (P := Rpower_pos (z_reftline ll / t) (25 / 10)). assert (V := qvinv_pos t Ht).
  replace (- (10080 / 10) / t) with (- 1008 / t) by (unfold Rdiv; lra).
  apply Rmult_le_pos; [|lra]. apply Rmult_le_pos; [|lra]. apply Rmult_le_pos; [|lra]. lra.
Qed.

(** At zero pressure (only Doppler broadening) the Voigt branch can return negative absorption. *)
Definition doppler_line : o3_line RA := mkO3Line (A:=RA) 100 1 0 (2 / 1000) (3 / 4).
Theorem C56_voigt_zero_pressure_refuted : exists (ll : o3_ll RA) f, Forall good_o3 (z_lines ll) /\ 0 < z_reftline ll /\ 0 < f /\
  o3_absorption (A:=RA) "R22" ll 225 0 f 1 < 0.
Proof.
  set (B := 62065 / 1000000000000 * 100 * 15). exists (mkO3LL (A:=RA) 225 [doppler_line]), (100 - 6 * B). cbn [z_lines z_reftline].
  split; [constructor; [|constructor]; split; cbn; lra|]. split; [lra|]. split; [unfold B; lra|].
  unfold o3_absorption. cbv zeta. match goal with |- context [@eqb ?A ?a ?b] => replace (@eqb A a b) with false by (symmetry; apply Reqb_false; ra; lra) end.
  cbn [str_in String.eqb Ascii.eqb Bool.eqb existsb orb z_lines z_reftline].
  assert (T : o3_term_voigt (A:=RA) 225 0 (100 - 6 * B) (225 / 225) doppler_line = re (dcerror (A:=RA) 6 0) / B).
  { unfold o3_term_voigt, o3_strength, doppler_line. cbn [z_w z_fl z_s1 z_b z_x]. cbv zeta. ra.
    assert (S : R_sqrt.sqrt 225 = 15) by (replace 225 with (15 * 15) by lra; apply sqrt_square; lra). rewrite S. fold B.
    assert (HB : B <> 0) by (unfold B; lra).
    replace ((100 - (100 - 6 * B)) / B) with 6 by (field; auto). rewrite !Rmult_0_r, !Rmult_0_l. replace (0 / B) with 0 by (field; auto).
    rewrite exp_0. set (w := re (dcerror (A:=RA) 6 0)). clearbody w. rewrite !Rmult_1_l. reflexivity. }
  cbn [o3_loop]. change (z_fl doppler_line) with (100 : car RA).
  match goal with |- context [@ltb ?A ?a ?b] => replace (@ltb A a b) with false by (symmetry; apply Rltb_false; unfold B; ra; lra) end.
  match goal with |- context [@leb ?A ?a ?b] => replace (@leb A a b) with true by (symmetry; apply Rleb_true; unfold B; ra; lra) end.
  change (div (a:=RA) 225 225) with (225 / 225). rewrite T. assert (N := C87_real_part_refuted). set (w := re (dcerror (A:=RA) 6 0)) in *. clearbody w. ra.
  assert (V := qvinv_pos 225 ltac:(lra)). replace (- (10080 / 10) / 225) with (- 1008 / 225) by lra. set (q := 1 - exp (- 1008 / 225)) in *.
  replace (10 / 10 - exp (- 1008 / 225)) with q by (unfold q; lra). clearbody q. replace (225 / 225) with 1 by lra.
  assert (R1 : Rpowf 1 (25 / 10) = 1) by (rewrite Rpowf_pos by lra; unfold Rpower; rewrite ln_1, Rmult_0_r, exp_0; reflexivity). rewrite R1.
  assert (0 < - w / B) by (apply div_pos; unfold B; lra). unfold Rdiv in H.
  assert (0 < q * (- w * / B)) by (apply Rmult_lt_0_compat; auto). unfold Rdiv. lra.
Qed.

(** The shipped R22 list: enough pressure broadening from 0.02 hPa upwards, for 150 K to 350 K. *)
Definition r22_row_ok (r : list dec) : bool :=
  dec_pos (nth 1 r 0%dec) && dec_le (nth 1 r 0%dec) 1001%dec && dec_le 1.944%dec (nth 4 r 0%dec) && dec_nn (nth 5 r 0%dec) && dec_le (nth 5 r 0%dec) 1%dec.

Lemma Rpower_ge_base th d : 8 / 10 <= th -> 0 <= d <= 1 -> 8 / 10 <= Rpower th d.
Proof.
  intros Ht Hd. destruct (Rle_lt_dec 1 th) as [L|L].
  - assert (1 <= Rpower th d); [|lra]. rewrite <- (Rpower_O th) by lra. apply Rle_Rpower; lra.
  - assert (X : Rpower th 1 <= Rpower th d).
    { unfold Rpower. assert (Ln : ln th <= 0) by (rewrite <- ln_1; apply Rlt_le, ln_increasing; lra).
      destruct (Req_dec (1 * ln th) (d * ln th)) as [->|N]; [lra|]. apply Rlt_le, exp_increasing. nra. }
    rewrite Rpower_1 in X by lra. lra.
Qed.

Theorem C56_shipped_voigt ll t p f o3n : db_o3 (@shipped RA) "R22" = Some ll -> 150 <= t <= 350 -> 1 / 50 <= p -> 0 <= o3n ->
  0 <= o3_absorption (A:=RA) "R22" ll t p f o3n.
Proof.
  intros E Ht Hp Hn. destruct (C56_shipped_lists "R22" ll E) as (_ & G & R). apply C56_voigt_nonnegative; auto; try lra.
  change (shipped_o3 (A:=RA) "R22" = Some ll) in E.
  apply (f_equal (fun o : option (o3_ll RA) => match o with Some l => l | None => ll end)) in E. unfold shipped_o3 in E. cbn [String.eqb Ascii.eqb Bool.eqb] in E. cbv iota beta in E.
  rewrite <- E. unfold o3_load. cbn [z_lines z_reftline]. apply Forall_forall. intros k Hk. apply in_map_iff in Hk. destruct Hk as (r & <- & Hr).
  assert (C : forallb r22_row_ok o3_mtx_R22 = true) by (vm_compute; reflexivity).
  assert (K := proj1 (forallb_forall _ _) C r Hr). unfold r22_row_ok in K. rewrite !andb_true_iff in K. destruct K as ((((K1 & K2) & K3) & K4) & K5).
  apply dec_pos_R in K1. apply dec_le_R in K2, K3, K5. apply dec_nn_R in K4. unfold o3_row, col. cbn [z_fl z_w z_x]. change (@lit RA) with litR.
  change (litR o3_reftline_R22) with (2960 / 10). set (fl := litR (nth 1 r 0%dec)) in *. set (w := litR (nth 4 r 0%dec)) in *. set (x := litR (nth 5 r 0%dec)) in *. clearbody fl w x.
  cbn [litR] in *. split; [lra|]. assert (T8 : 8 / 10 <= 2960 / 10 / t).
  { apply (Rmult_le_reg_r t); [lra|]. replace (2960 / 10 / t * t) with (2960 / 10) by (field; lra). lra. }
  assert (P8 := Rpower_ge_base (2960 / 10 / t) x T8 ltac:(lra)). set (q := Rpower (2960 / 10 / t) x) in *. clearbody q.
  assert (S : R_sqrt.sqrt t <= 19) by (rewrite <- (sqrt_square 19) by lra; apply sqrt_le_1; lra).
  assert (S0 := sqrt_pos t). set (s := R_sqrt.sqrt t) in *. clearbody s.
  assert (A : fl * s <= 1001 * 19) by (apply Rmult_le_compat; lra).
  assert (B : 1944 / 1000 * (1 / 50) <= w * p) by (apply Rmult_le_compat; lra).
  assert (B2 : 1944 / 1000 * (1 / 50) * (8 / 10) <= w * p * q) by (apply Rmult_le_compat; lra).
  ra. lra.
Qed.
