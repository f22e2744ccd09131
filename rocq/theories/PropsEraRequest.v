(** Claim C135: requests to the climate data store and the files they leave. *)

From Coq Require Import ZArith Reals Lra Lia List Bool Ascii String Sorting.Sorted.
Import ListNotations.
From Verif Require Import Arith PyBase PyStr StrAux Igra Web EraRequest RealAux PropsIgra PropsWeb.

(** ** What is asked for *)

(** The names the store gives to the variables that [read_data] reads from the file. *)
Definition store_name : list (string * string) :=
  [("t", "temperature"); ("r", "relative_humidity"); ("clwc", "specific_cloud_liquid_water_content"); ("ciwc", "specific_cloud_ice_water_content");
   ("crwc", "specific_rain_water_content"); ("cswc", "specific_snow_water_content"); ("o3", "ozone_mass_mixing_ratio"); ("q", "specific_humidity")]%string.

(** The number at the head of a text, and what follows it. *)
Fixpoint leading (acc : Z) (s : str) : Z * str :=
  match s with
  | c :: s' => let d := (Z.of_N (N_of_ascii c) - 48)%Z in if ((0 <=? d) && (d <=? 9))%Z%bool then leading (10 * acc + d) s' else (acc, s)
  | [] => (acc, s)
  end.

Lemma hour_text_reads h : (0 <= h <= 23)%Z -> leading 0 (hour_text h) = (h, tx ":00").
Proof.
  intros H. rewrite <- (Z2Nat.id h) by lia. assert (Hn : (Z.to_nat h < 24)%nat) by lia. generalize dependent (Z.to_nat h). intros n Hn.
  do 24 (destruct n as [|n]; [vm_compute; reflexivity|]). lia.
Qed.

Theorem C135_request (time : datetime) (lonlat : R * R) res off : (0 <= off)%R ->
  let r := era_request (A:=RA) time lonlat res off in
  (forall short long, In (short, long) store_name -> In long (q_variables r)) /\
  StronglySorted Z.lt (q_levels r) /\ (forall p, In p (q_levels r) -> (1 <= p <= 1000)%Z) /\
  q_year r = yr time /\ q_month r = mo time /\ q_day r = dy time /\ ((0 <= hr time <= 23)%Z -> leading 0 (q_time r) = (hr time, tx ":00")) /\
  let '(north, west, south, east) := q_area r in (south <= snd lonlat <= north /\ west <= fst lonlat <= east /\ north - south = 2 * off /\ east - west = 2 * off)%R.
Proof.
  intros H r. subst r. unfold era_request, extent. cbn [q_variables q_levels q_year q_month q_day q_time q_area]. split; [|split; [|split; [|split; [|split; [|split; [|split]]]]]]; try reflexivity; [| | |apply hour_text_reads|].
  - intros short long Hin. cbn in Hin. repeat (destruct Hin as [E|Hin]; [injection E as <- <-; cbn; auto 9|]). destruct Hin.
  - assert (G : forall l, (fix up (l : list Z) := match l with [] => true | x :: l' => forallb (Z.ltb x) l' && up l' end) l = true -> StronglySorted Z.lt l).
    { induction l as [|x l IH]; intros E; [constructor|]. apply andb_true_iff in E. destruct E as [E1 E2]. constructor; [apply IH, E2|]. apply Forall_forall. intros y Hy. rewrite forallb_forall in E1. apply Z.ltb_lt, E1, Hy. }
    apply G. reflexivity.
  - intros p Hp. assert (G : forallb (fun p => (1 <=? p)%Z && (p <=? 1000)%Z) era_levels = true) by reflexivity. rewrite forallb_forall in G. specialize (G p Hp). lia.
  - destruct lonlat as [lon lat]. ra. cbn [fst snd]. lra.
Qed.

(** ** Names of files *)

Definition stamp (t : datetime) : Prop := (1 <= yr t <= 9999 /\ 1 <= mo t <= 12 /\ 1 <= dy t <= 31 /\ 0 <= hr t <= 23 /\ 0 <= mi t <= 59 /\ 0 <= se t <= 59)%Z.
Lemma isoformat_inj t1 t2 x y : stamp t1 -> stamp t2 -> isoformat t1 ++ x = isoformat t2 ++ y -> t1 = t2.
Proof.
  intros (Y1 & M1 & D1 & H1 & N1 & S1) (Y2 & M2 & D2 & H2 & N2 & S2) E. unfold isoformat in E.
  rewrite <- !app_assoc in E. change (fmt4 (yr t1)) with (pad4 (yr t1)) in E. change (fmt4 (yr t2)) with (pad4 (yr t2)) in E.
  assert (EY : yr t1 = yr t2).
  { rewrite <- (pad4_val (yr t1)), <- (pad4_val (yr t2)) by lia. apply (f_equal (firstn 4)) in E. cbn [pad4 app firstn] in E. unfold pad4. rewrite E. reflexivity. }
  rewrite EY in E. apply app_inv_head in E. apply app_inv_head in E. apply fmt2_inj in E; [|lia|lia]. destruct E as [EM E]. apply app_inv_head in E. apply fmt2_inj in E; [|lia|lia]. destruct E as [ED E].
  apply app_inv_head in E. apply fmt2_inj in E; [|lia|lia]. destruct E as [EH E]. apply app_inv_head in E. apply fmt2_inj in E; [|lia|lia]. destruct E as [EN E]. apply app_inv_head in E. apply fmt2_inj in E; [|lia|lia].
  destruct E as [ES E]. destruct t1, t2; cbn in *; congruence.
Qed.
Lemma era_file_inj path t1 t2 : stamp t1 -> stamp t2 -> era_file path t1 = era_file path t2 -> t1 = t2.
Proof.
  intros S1 S2 E. unfold era_file, posix_join in E. assert (B : forall t, starts_with "/" (tx "era5_reanalysis-" ++ isoformat t ++ tx ".nc") = false) by reflexivity. rewrite !B in E. clear B.
  destruct path as [|c path]; [apply app_inv_head in E; eapply isoformat_inj; eauto|]. destruct (ends_with "/" (c :: path)).
  - apply app_inv_head in E. apply app_inv_head in E. eapply isoformat_inj; eauto.
  - do 3 apply app_inv_head in E. eapply isoformat_inj; eauto.
Qed.

(** ** A file keeps what was asked for until the same time is asked for again *)

Section Files.
Context {C : Type} (cds : request RA -> C).
Record call := Call { c_time : datetime; c_lonlat : R * R; c_res : R; c_off : R }.
Definition run (path : str) (d : disk C) (c : call) : disk C := fst (request_data (A:=RA) cds d path (c_time c) (c_lonlat c) (c_res c) (c_off c)).

Lemma write_other (d : disk C) n m c : n <> m -> write d m c n = d n.
Proof. intros N. unfold write. destruct (str_eqb n m) eqn:E; [apply str_eqb_spec in E; contradiction|reflexivity]. Qed.
Lemma write_same (d : disk C) n c : write d n c n = Some c.
Proof. unfold write. rewrite (proj2 (str_eqb_spec n n) eq_refl). reflexivity. Qed.

Theorem C135_kept path d c later : stamp (c_time c) -> Forall (fun k => stamp (c_time k) /\ c_time k <> c_time c) later ->
  let '(d1, name) := request_data (A:=RA) cds d path (c_time c) (c_lonlat c) (c_res c) (c_off c) in
  fold_left (run path) later d1 name = Some (cds (era_request (A:=RA) (c_time c) (c_lonlat c) (c_res c) (c_off c))).
Proof.
  intros S F. unfold request_data. cbv zeta iota. set (name := era_file path (c_time c)). set (v := cds _).
  assert (G : forall d0 : disk C, d0 name = Some v -> fold_left (run path) later d0 name = Some v).
  { induction F as [|k later [Sk Nk] F IH]; intros d0 E; [exact E|]. cbn [fold_left]. apply IH. unfold run, request_data. cbn [fst]. rewrite write_other; [exact E|].
    intros E2. apply Nk. symmetry. eapply era_file_inj; eauto. }
  apply G, write_same.
Qed.

(** The place is not part of the name: a second request for the same time replaces the file of the first, and the area of
    the second need not contain the first place. *)
Theorem C135_refuted path d t lonlat1 lonlat2 res off : (0 <= off)%R -> (off < Rabs (fst lonlat1 - fst lonlat2) \/ off < Rabs (snd lonlat1 - snd lonlat2))%R ->
  let '(d1, name1) := request_data (A:=RA) cds d path t lonlat1 res off in
  let '(d2, name2) := request_data (A:=RA) cds d1 path t lonlat2 res off in
  name1 = name2 /\ d2 name1 = Some (cds (era_request (A:=RA) t lonlat2 res off)) /\
  let '(north, west, south, east) := q_area (era_request (A:=RA) t lonlat2 res off) in ~ (south <= snd lonlat1 <= north /\ west <= fst lonlat1 <= east)%R.
Proof.
  intros H0 H. unfold request_data. cbv zeta iota. split; [reflexivity|]. split; [apply write_same|]. unfold era_request, extent. cbn [q_area]. destruct lonlat1 as [x1 y1], lonlat2 as [x2 y2]. ra. cbn [fst snd] in *.
  intros [[A1 A2] [B1 B2]]. destruct H as [H|H]; unfold Rabs in H; destruct (Rcase_abs _) in H; lra.
Qed.
End Files.

Example C135_example : let rome := (12.45, 41.66)%R in let oslo := (10.7, 59.9)%R in
  (0.4 < Rabs (snd rome - snd oslo))%R /\ stamp (DT 2020 2 22 12 0 0) /\ stamp (DT 2020 2 22 18 0 0) /\ DT 2020 2 22 18 0 0 <> DT 2020 2 22 12 0 0 /\
  let '(d1, name) := request_data (A:=RA) (fun r => q_area r) (fun _ => None) (tx "/tmp") (DT 2020 2 22 12 0 0) rome 0.25%R 0.4%R in
  d1 name = Some (41.66 + 0.4, 12.45 - 0.4, 41.66 - 0.4, 12.45 + 0.4)%R.
Proof.
  cbv zeta. cbn [fst snd]. repeat split; try (cbn; lia); try discriminate. unfold Rabs. destruct (Rcase_abs _); lra.
Qed.
