(** Model of /repo/pyrtlib/absorption_model.py: the absorption coefficients.

    The class attribute [X.model] is an explicit argument [m] and the loaded
    line-list module an explicit record.  The per-line arrays of the line-list module are
    modelled as a list of records (one per line); fields that a model does not
    load are ignored by the branch of that model (which attributes exist for
    which model is modelled in Registry.v).  The [amu] overrides are
    modelled in Uncertainty.v. *)

From Coq Require Import ZArith List Bool String.
Import ListNotations.
From Verif Require Import Arith PyBase Utils.
Local Open Scope string_scope.
Local Open Scope arith_scope.

Section Absorption.
Context {A : Arith}.
Notation num := (car A).

(** ** Liquid water, absorption_model.py:121-176 *)

Definition liq_debye_models := ["R03"; "R98"].
Definition liq_dilec_models :=
  ["R17"; "R16"; "R19"; "R20"; "R19SD"; "R22SD"; "R23"; "R23SD"; "R24"].

(** lines 155-165: double-Debye permittivity of the models R03 and R98. *)
Definition liq_eps_debye (m : string) (freq temp : num) : cpx A :=
  let theta1 := #1.0 - #300.0 / temp in
  let eps0 := #77.66 - #103.3 * theta1 in
  let eps1 := #0.0671 * eps0 in
  let eps2 := #3.52 in
  let fp := (#316.0 * theta1 + #146.4) * theta1 + #20.2 in
  let fp := if String.eqb m "R03" then #20.1 * expf (#7.88 * theta1) else fp in
  let fs := #39.8 * fp in
  c_add (c_add (c_div (c_of (eps0 - eps1)) (mkC #1.0 (freq / fp)))
               (c_div (c_of (eps1 - eps2)) (mkC #1.0 (freq / fs))))
        (c_of eps2).

(** lines 172-174. *)
Definition liq_from_eps (eps : cpx A) (freq water : num) : num :=
  let re_ := c_div (c_sub eps (c_of #1.0)) (c_add eps (c_of #2.0)) in
  - #0.06286 * im re_ * freq * water.

(** lines 126-176 [liquid_water_absorption]. *)
Definition liquid_water_absorption (m : string) (water freq temp : num) : result num :=
  if water <=? #0 then Ok #0
  else if str_in m liq_debye_models then
    Ok (liq_from_eps (liq_eps_debye m freq temp) freq water)
  else if str_in m liq_dilec_models then
    Ok (liq_from_eps (dilec12 freq temp) freq water)
  else Err ValueError.

(** ** Nitrogen, absorption_model.py:179-283 *)

(** lines 228-230: sum of a[i] * f**i for i in range(4), left to right from 0. *)
Definition poly4 (c0 c1 c2 c3 f : num) : num :=
  #0.0 + c0 * #1 + c1 * f + c2 * powi f 2 + c3 * powi f 3.

(** lines 184-234 [n2_absorption_mwl24]. *)
Definition n2_absorption_mwl24 (t p f : num) : num :=
  let ti := #300.0 / t in
  let p_torr := p * #0.7500616827 in
  let kbcm := #0.6950354549 in
  let d0 := #108.0 / (kbcm * t) in
  let d_ref := #108.0 / (kbcm * #300.0) in
  let potential := (expf d0 - (#1 + d0)) / (expf d_ref - (#1 + d_ref)) in
  let t2 := #0.1420 * expf (- powi (f / #92.0 - #1) 2) in
  let t1_denom := #1.0 + powi ((f - #44.0) / #568.0) 2 in
  let t1_num_denom := #1.0 + powi ((f - #358.0) / #127.0) 2 in
  let t1_num := #1 + #0.1510 / t1_num_denom in
  let spec_fun := #1.754e-18 * #0.5 * (#1 + #1.033 * t1_num / t1_denom + t2) in
  let m0 := poly4 #1.4359 (- #0.0005385) #1.6182e-7 #1.8845e-10 f in
  let aa := poly4 #0.07988 (- #0.0005165) #1.131e-6 (- #5.738e-10) f in
  let t_dep := ti ** (m0 + aa * lnf ti) in
  spec_fun * t_dep * potential * powi p_torr 2 * powi f 2.

(** lines 261-274: the parameters (l, m, n) of a model, and whether fdepen is 1. *)
Definition n2_params (m : string) : result (num * num * num * bool) :=
  if str_in m ["R16"; "R17"; "R18"; "R19"; "R19SD"] then Ok (#6.5e-14, #3.6, #1.34, false)
  else if str_in m ["R20"; "R20SD"; "R21SD"; "R22"; "R22SD"; "R23"; "R23SD"; "R24"] then
    Ok (#9.95e-14, #3.22, #1, false)
  else if String.eqb m "R03" then Ok (#6.5e-14, #3.6, #1.29, false)
  else if String.eqb m "MWL24" then Ok (#9.95e-14, #3.22, #0.84, false)
  else if str_in m ["R98"] then Ok (#6.4e-14, #3.55, #1, true)
  else Err ValueError.

(** lines 237-283 [n2_absorption]. *)
Definition n2_absorption (m : string) (t p f : num) : result num :=
  let th := #300.0 / t in
  do q <- n2_params m;
  let '(l, mm, n, flat) := q in
  let fdepen := if flat then #1 else #0.5 + #0.5 / (#1.0 + powi (f / #450.0) 2) in
  let bf := if String.eqb m "MWL24" then n2_absorption_mwl24 t p f * #1.0e5
            else l * fdepen * p * p * f * f * th ** mm in
  Ok (n * bf).

(** ** Water vapour, absorption_model.py:286-684 *)

Record h2o_line := mkH2OLine {
  h_fl : num; h_s1 : num; h_b2 : num; h_w0 : num; h_x : num; h_w0s : num; h_xs : num;
  h_sr : num; h_sh : num; h_xh : num; h_shs : num; h_xhs : num; h_aair : num; h_aself : num;
  h_w2 : num; h_w2s : num; h_xw2 : num; h_xw2s : num; h_d2 : num; h_d2s : num }.

Record h2o_ll := mkH2OLL {
  h_reftcon : num; h_reftline : num; h_cf : num; h_xcf : num; h_cs : num; h_xcs : num;
  h_d2air : num; h_d2self : num; h_lines : list h2o_line }.

(** Tables of lines 328-330. *)
Definition selfcon : list num :=
  [ #2.877e-21; #2.855e-21; #2.731e-21; #2.49e-21; #2.178e-21; #1.863e-21 ].
Definition selftexp : list num := [ #6.413; #6.414; #6.275; #6.049; #5.789; #5.557 ].

(** lines 334-338: the seven interpolation ordinates. *)
Definition continuum_table (vx : num) : list num :=
  let t := #300.0 / vx in
  let theta := #296.0 / t in
  let a := map (fun '(c, e) => #6.532e+12 * c * theta ** (e + #3.0)) (combine selfcon selftexp) in
  nth 1 a #0 :: a.

Definition deltaf : num := #299.792458.

(** lines 344-349: the interpolation weights applied to four consecutive ordinates. *)
Definition cubic4 (a0 a1 a2 a3 p : num) : num :=
  let c := (#3.0 - #2.0 * p) * p * p in
  let b := #0.5 * p * (#1.0 - p) in
  let b1 := b * (#1.0 - p) in
  let b2 := b * p in
  - a0 * b1 + a1 * (#1.0 - c + b2) + a2 * (c + b1) - a3 * b2.

(** lines 314-350 [h2o_continuum] (the single element of the returned array). *)
Definition h2o_continuum (frq vx : num) : result num :=
  let a := continuum_table vx in
  let fj := frq / deltaf in
  match trunc fj with
  | None => Err ValueError
  | Some j0 =>
      let j := Z.min j0 4 in
      let p := fj - lit (Dec j 1) in
      do a0 <- py_get a j;
      do a1 <- py_get a (j + 1);
      do a2 <- py_get a (j + 2);
      do a3 <- py_get a (j + 3);
      Ok (cubic4 a0 a1 a2 a3 p)
  end.

(** lines 383-387: second virial coefficient polynomial. *)
Definition b_svc : list num :=
  [ - #7.804242e+6; #8.345651e+4; - #4.212794e+2; #1.242946; - #2.409822e-3;
    #3.017768e-6; - #2.518957e-9; #1.350628e-12; - #4.134191e-16; #5.530774e-20 ].

Fixpoint poly_from (acc : num) (i : nat) (cs : list num) (t : num) : num :=
  match cs with
  | [] => acc
  | c :: cs' => poly_from (acc + c * powi t i) (S i) cs' t
  end.

(** lines 352-410 [h2o_continuum_mwl24]. *)
Definition h2o_continuum_mwl24 (frq vx : num) : num :=
  let atm2mbar := #1013.25 in
  let t := #300.0 / vx in
  let ti_bd := #268.0 / t in
  let ti_md := #266.0 / t in
  let ti_fw := #296.0 / t in
  let b_t := match b_svc with c0 :: cs => poly_from c0 1 cs t | [] => #0 end in
  let b_t := b_t * (- powi (#100.0 / t) 6) in
  let r_t := #82.05746 * t in
  let k_bd := #4.7856e-4 * expf (#1669.8 / t - #5.10485e-3 * t) in
  let k_md := ((b_t - #30.5) / r_t - k_bd) / atm2mbar in
  let k_bd := k_bd / atm2mbar in
  let con_bd := #5.55e-8 / (#434.8 * #434.8 + (frq - #219.5) * (frq - #219.5)) in
  let con_bd := con_bd + (#4.93e-10 / (#21.06 * #21.06 + frq * frq) + #1.34e-14) in
  let con_bd := con_bd * ti_bd ** #10.0 in
  let s2mon := #1.0e-13 * (#4.06 + #7.12e-3 * frq) * (#1 / atm2mbar) in
  let con_md := (s2mon * (#1 - #0.7) * ti_md ** #2.9 + #0.7 * con_bd / k_bd) * k_md in
  let con_fw := #8.5e-15 * frq ** #2.2 * ti_fw ** #1.5 in
  let cs := (con_bd + con_md) * powi frq 2 + con_fw in
  cs * #1.0e5.

Definition h2o_sd_models := ["R19SD"; "R20SD"; "R21SD"; "R22SD"; "R23SD"; "R24"; "MWL24"].
Definition h2o_delta2_models := ["R21SD"; "R22SD"; "R23SD"; "R24"; "MWL24"].

(** Python [s.startswith(tuple)] (line 529). *)
Definition startswith (s : string) (l : list string) : bool :=
  existsb (fun p => String.prefix p s) l.

(** Thermodynamic quantities of lines 484-507. *)
Record h2o_env := mkH2OEnv { e_t : num; e_rho : num; e_pvap : num; e_pda : num; e_den : num }.

Definition h2o_env_of (m : string) (pdrykpa vx ekpa : num) : h2o_env :=
  let rvap := (#0.01 * #8.31451) / #18.01528 in
  let t := #300.0 / vx in
  let p := (pdrykpa + ekpa) * #10.0 in
  let rho := ekpa * #10.0 / (rvap * t) in
  let pvap := (rho * t) / #216.68 in
  let pvap := if str_in m ["R03"; "R16"; "R17"; "R98"] then (rho * t) / #217.0 else pvap in
  let pvap := if str_in m ["R22SD"; "R23SD"; "R24"; "MWL24"]
              then (k_Rwatvap * #1e-05) * rho * t else pvap in
  let den := if str_in m ["R03"; "R16"; "R98"] then #3.335e+16 * rho else #3.344e+16 * rho in
  mkH2OEnv t rho pvap (p - pvap) den.

(** lines 508-521: continuum before the R23SD/R24 replacement of lines 670-672. *)
Definition h2o_con1 (m : string) (ll : h2o_ll) (e : h2o_env) (vx f : num) : num :=
  let t := e_t e in let pda := e_pda e in let pvap := e_pvap e in
  let ti := h_reftcon ll / t in
  if str_in m ["R03"; "R98"] then
    (#5.43e-10 * pda * powi ti 3 + #1.8e-08 * pvap * ti ** #7.5) * pvap * f * f
  else if String.eqb m "MWL24" then
    let con_self := h2o_continuum_mwl24 f vx * pvap * pvap in
    let con_frgn := #7.1e-10 * (#300.0 / t) ** #4.4 * f ** #1.96 * pda * pvap in
    con_self + con_frgn
  else (h_cf ll * pda * ti ** h_xcf ll + h_cs ll * pvap * ti ** h_xcs ll) * pvap * f * f.

(** Van Vleck-Weisskopf/Lorentz term minus the cut-off base ([j] counts both
    resonances); [closed] selects [<=] (line 618) or [<] (lines 592, 642, 663). *)
Definition local_line (closed : bool) (width wsq base df : num) : num :=
  if (if closed then absv df <=? #750.0 else absv df <? #750.0)
  then width / (powi df 2 + wsq) - base else #0.

(** Speed-dependent resonance minus base, lines 572-591. *)
Definition sd_line (m : string) (ll : h2o_ll) (e : h2o_env) (i : nat) (ln : h2o_line)
  (width0 width2 base df : num) : num :=
  let pda := e_pda e in let pvap := e_pvap e in
  let delta2 :=
    if String.eqb m "R20SD" then
      (if Nat.eqb i 1 then h_d2air ll * pda + h_d2self ll * pvap else #0.0)
    else h_d2 ln * pda + h_d2s ln * pvap in
  let has_d2 := orb (String.eqb m "R20SD") (str_in m h2o_delta2_models) in
  let xc := if has_d2
            then c_div (mkC (width0 - #1.5 * width2) (df + #1.5 * delta2)) (mkC width2 (- delta2))
            else c_scale (#1.0 / width2) (mkC (width0 - #1.5 * width2) df) in
  let xrt := c_sqrt xc in
  let pxw := c_mul (c_scale #1.77245385090551603 xrt) (dcerror (- im xrt) (re xrt)) in
  let top := c_scale #2.0 (c_sub (c_of #1.0) pxw) in
  let sd := if has_d2 then c_div top (mkC width2 (- delta2)) else c_scale (#1.0 / width2) top in
  re sd - base.

(** One line of the speed-dependent branch, lines 544-595. *)
Definition h2o_line_sd (m : string) (ll : h2o_ll) (e : h2o_env) (f ti tiln ti2 : num)
  (i : nat) (ln : h2o_line) : num :=
  let pda := e_pda e in let pvap := e_pvap e in
  let width0 := h_w0 ln * pda * ti ** h_x ln + h_w0s ln * pvap * ti ** h_xs ln in
  let width2 :=
    if str_in m h2o_delta2_models then
      (if #0 <? h_w2 ln
       then h_w2 ln * pda * ti ** h_xw2 ln + h_w2s ln * pvap * ti ** h_xw2s ln
       else #0)
    else h_w2 ln * pda + h_w2s ln * pvap in
  let shiftf := h_sh ln * pda * (#1.0 - h_aair ln * tiln) * ti ** h_xh ln in
  let shifts := h_shs ln * pvap * (#1.0 - h_aself ln * tiln) * ti ** h_xhs ln in
  let shift := shiftf + shifts in
  let wsq := powi width0 2 in
  let s := h_s1 ln * ti2 * expf (h_b2 ln * (#1.0 - ti)) in
  let df0 := f - h_fl ln - shift in
  let df1 := f + h_fl ln + shift in
  let base := width0 / (#562500.0 + wsq) in
  let r0 := if (#0 <? width2) && (absv df0 <? #10 * width0)
            then sd_line m ll e i ln width0 width2 base df0
            else local_line false width0 wsq base df0 in
  let r1 := local_line false width0 wsq base df1 in
  s * (#0.0 + r0 + r1) * powi (f / h_fl ln) 2.

(** One line of the branches of lines 596-665. *)
Definition h2o_line_std (m : string) (e : h2o_env) (f ti tiln ti2 : num) (ln : h2o_line) : num :=
  let pda := e_pda e in let pvap := e_pvap e in
  let widthf := h_w0 ln * pda * ti ** h_x ln in
  let widths := h_w0s ln * pvap * ti ** h_xs ln in
  let width := widthf + widths in
  let old := str_in m ["R16"; "R03"; "R17"; "R98"] in
  let shift :=
    if String.eqb m "R98" then #0.0
    else if old then h_sr ln * (if String.eqb m "R03" then width else widthf)
    else if str_in m ["R19"; "R20"] then
      h_sh ln * pda * (#1.0 - h_aair ln * tiln) * ti ** h_xh ln
      + h_shs ln * pvap * (#1.0 - h_aself ln * tiln) * ti ** h_xhs ln
    else h_sh ln * pda * ti ** h_xh ln + h_shs ln * pvap * ti ** h_xhs ln in
  let wsq := powi width 2 in
  let s := h_s1 ln * ti2 * expf (h_b2 ln * (#1.0 - ti)) in
  let df0 := f - h_fl ln - shift in
  let df1 := f + h_fl ln + shift in
  let base := width / (#562500.0 + wsq) in
  let r0 := local_line old width wsq base df0 in
  let r1 := local_line old width wsq base df1 in
  s * (#0.0 + r0 + r1) * powi (f / h_fl ln) 2.

(** Sum over the lines of the selected branch; [None]: no branch matches and the
    variable [summ] stays unbound. *)
Definition h2o_summ (m : string) (ll : h2o_ll) (e : h2o_env) (f : num) : option num :=
  let ti := h_reftline ll / e_t e in
  let tiln := lnf ti in
  let lines := h_lines ll in
  if startswith m h2o_sd_models then
    let ti2 := expf (#2.5 * tiln) in
    Some (sum_from #0.0 (map (fun '(i, ln) => h2o_line_sd m ll e f ti tiln ti2 i ln)
                             (combine (seq 0 (List.length lines)) lines)))
  else if str_in m ["R16"; "R03"; "R17"; "R98"; "R19"; "R20"; "R18"] then
    let ti2 := ti ** #2.5 in
    Some (sum_from #0.0 (map (h2o_line_std m e f ti tiln ti2) lines))
  else None.

(** lines 533-542 and 670-672: the continuum used by R23SD and R24. *)
Definition h2o_con2 (m : string) (ll : h2o_ll) (e : h2o_env) (vx f : num) : result num :=
  let pda := e_pda e in let pvap := e_pvap e in
  let ti := h_reftline ll / e_t e in
  if str_in m ["R23SD"; "R24"] then
    do npp_cs <- (if #0 <? h_cs ll then Ok (h_cs ll * ti * h_xcs ll)
                  else h2o_continuum f vx);
    let conf := h_cf ll * ti ** h_xcf ll in
    Ok ((conf * pda + npp_cs * pvap) * pvap * powi f 2)
  else Ok (h2o_con1 m ll e vx f).

Definition db2np : num := lnf #10.0 * #0.1.

(** lines 412-684 [h2o_absorption] without [amu]: (npp, ncpp).  Line 493 tests
    [rho.any() <= 0.0], which holds exactly when rho is zero. *)
Definition h2o_absorption (m : string) (ll : h2o_ll) (pdrykpa vx ekpa frq : num)
  : result (num * num) :=
  let factor := #0.182 * frq in
  let e := h2o_env_of m pdrykpa vx ekpa in
  if e_rho e =? #0 then Ok (#0, #0)
  else match h2o_summ m ll e frq with
  | None => Err UnboundLocalError
  | Some summ =>
      do con <- h2o_con2 m ll e vx frq;
      let h20m := #2.9915075e-23 in
      let npp :=
        if str_in m ["R22SD"; "R23SD"] then
          #1.0e-10 * e_rho e * summ / (pif * h20m) / db2np / factor
        else if String.eqb m "R24" then
          #1.0e-10 * (e_rho e / h20m) * (summ / pif) / db2np / factor
        else (#3.1831e-05 * e_den e * summ / db2np) / factor in
      let ncpp := (con / db2np) / factor in
      Ok (npp, ncpp)
  end.

(** ** Oxygen, absorption_model.py:687-1008 *)

Record o2_line := mkO2Line {
  o_f : num; o_s300 : num; o_be : num; o_w300 : num; o_y300 : num; o_v : num;
  o_y0 : num; o_y1 : num; o_g0 : num; o_g1 : num; o_dnu0 : num; o_dnu1 : num }.

Record o2_ll := mkO2LL { o_x : num; o_wb300 : num; o_lines : list o2_line }.

Record o2_env := mkO2Env { q_th : num; q_th1 : num; q_b : num; q_pres : num; q_presda : num;
                           q_den : num; q_pe1 : num; q_pe2 : num; q_dfnr : num }.

(** lines 797-828. *)
Definition o2_env_of (m : string) (ll : o2_ll) (pdrykpa vx ekpa : num) : o2_env :=
  let rvap := (#0.01 * #8.314510) / #18.01528 in
  let temp := #300.0 / vx in
  let pres := (pdrykpa + ekpa) * #10.0 in
  let vapden := (ekpa * #10.0) / (rvap * temp) in
  let th := #300.0 / temp in
  let th1 := th - #1.0 in
  let b := th ** o_x ll in
  let preswv := vapden * temp / #216.68 in
  let preswv := if str_in m ["R03"; "R16"; "R17"; "R18"; "R98"]
                then vapden * temp / #217.0 else preswv in
  let preswv := if str_in m ["R22"; "R22SD"; "R23"; "R23SD"; "R24"]
                then #4.615228e-3 * vapden * temp else preswv in
  let presda := pres - preswv in
  let den := #0.001 * (presda * b + #1.2 * preswv * th) in
  let den := if str_in m ["R03"; "R16"; "R98"]
             then #0.001 * (presda * b + #1.1 * preswv * th) else den in
  let den := if String.eqb m "R03"
             then #0.001 * (presda * th ** #0.9 + #1.1 * preswv * th) else den in
  let den := if String.eqb m "R98" then #0.001 * (presda + #1.1 * preswv) * th else den in
  let pe1 := if str_in m ["R23"; "R23SD"] then #0.99 * den else den in
  let pe2 := if str_in m ["R23"; "R23SD"; "R24"] then powi pe1 2 else den * den in
  mkO2Env th th1 b pres presda den pe1 pe2 (o_wb300 ll * den).

(** Shape of one line in the first-order mixing branches, lines 838-861. *)
Definition o2_line_first (m : string) (q : o2_env) (freq : num) (k : o2_line) : num :=
  let df := o_w300 k * q_den q in
  let y := if str_in m ["R03"; "R98"]
           then #0.001 * q_pres q * q_b q * (o_y300 k + o_v k * q_th1 q)
           else q_den q * (o_y300 k + o_v k * q_th1 q) in
  let strr := o_s300 k * expf (- o_be k * q_th1 q) in
  let sf1 := (df + (freq - o_f k) * y) / (powi (freq - o_f k) 2 + df * df) in
  let sf2 := (df - (freq + o_f k) * y) / (powi (freq + o_f k) 2 + df * df) in
  strr * (sf1 + sf2) * powi (freq / o_f k) 2.

(** Shape of one line in the second-order mixing branch, lines 954-966. *)
Definition o2_line_second (q : o2_env) (freq : num) (k : o2_line) : num :=
  let df := o_w300 k * q_den q in
  let y := q_den q * (o_y0 k + o_y1 k * q_th1 q) in
  let dnu := q_pe2 q * (o_dnu0 k + o_dnu1 k * q_th1 q) in
  let strr := o_s300 k * expf (- o_be k * q_th1 q) in
  let del1 := freq - o_f k - dnu in
  let del2 := freq + o_f k + dnu in
  let gfac := #1.0 + q_pe2 q * (o_g0 k + o_g1 k * q_th1 q) in
  let d1 := del1 * del1 + df * df in
  let d2 := del2 * del2 + df * df in
  let sf1 := (df * gfac + del1 * y) / d1 in
  let sf2 := (df * gfac - del2 * y) / d2 in
  strr * (sf1 + sf2) * powi (freq / o_f k) 2.

(** lines 885-892 / 940-947: speed-dependent shape of the 118-GHz line. *)
Definition o2_sd (width fcen yk freq : num) : num :=
  let width2 := #0.076 * width in
  let xc := c_scale (#1.0 / width2) (mkC (width - #1.5 * width2) (freq - fcen)) in
  let xrt := c_sqrt xc in
  let pxw := c_mul (c_scale #1.77245385090551603 xrt) (dcerror (- im xrt) (re xrt)) in
  let asd := c_scale (#1.0 / width2)
               (c_mul (c_scale #2.0 (mkC #1.0 yk)) (c_sub (c_of #1.0) pxw)) in
  re asd.

(** lines 876-897 / 931-952: one line of the R23 and R24 branches. *)
Definition o2_line_sd (freq : num) (k : nat) (a width y gfac fcen : num) : num :=
  let sf1 := if Nat.eqb k 0 && (absv (freq - fcen) <? #10.0 * width)
             then o2_sd width fcen y freq
             else (width * gfac + (freq - fcen) * y) / (powi (freq - fcen) 2 + powi width 2) in
  let sf2 := (width * gfac - (freq + fcen) * y) / (powi (freq + fcen) 2 + powi width 2) in
  a * (sf1 + sf2).

Definition indexed {T} (l : list T) : list (nat * T) := combine (seq 0 (List.length l)) l.
Definition in_1_37 (k : nat) : bool := Nat.ltb 0 k && Nat.leb k 37.

(** lines 862-899, model R23. *)
Definition o2_summ_R23 (q : o2_env) (ll : o2_ll) (freq : num) : num :=
  let lines := indexed (o_lines ll) in
  let a k := o_s300 k * expf (- o_be k * q_th1 q) / powi (o_f k) 2 in
  let g k := o_g0 k + o_g1 k * q_th1 q in
  let band := filter (fun '(i, _) => in_1_37 i) lines in
  let off := sum_from #0.0 (map (fun '(_, k) => a k * g k) band)
             / sum_from #0.0 (map (fun '(_, k) => a k) band) in
  let dfnr := q_dfnr q in
  let summ0 := (#1.584e-17 / q_th q) * dfnr / (freq * freq + dfnr * dfnr) in
  fold_left (fun summ '(i, k) =>
    let width := o_w300 k * q_den q in
    let y := q_pe1 q * (o_y300 k + o_y1 k * q_th1 q) in
    let gfac := if in_1_37 i then #1.0 + q_pe2 q * (g k - off) else #1.0 in
    let fcen := o_f k + q_pe2 q * (o_dnu0 k + o_dnu1 k * q_th1 q) in
    let summ := summ + o2_line_sd freq i (a k) width y gfac fcen in
    if Nat.eqb i 37 then maxv summ #0.0 else summ) lines summ0.

(** lines 900-952, model R24. *)
Definition o2_summ_R24 (q : o2_env) (ll : o2_ll) (freq : num) : num :=
  let lines := indexed (o_lines ll) in
  let pe1 := q_pe1 q in
  let wnr := o_wb300 ll * pe1 in
  let a k := o_s300 k * expf (- o_be k * q_th1 q) * q_th q / powi (o_f k) 2 in
  let y k := #0.99 * (o_y300 k + o_y1 k * q_th1 q) in
  let g k := o_g0 k + o_g1 k * q_th1 q in
  let low := filter (fun '(i, _) => Nat.leb i 37) lines in
  let band := filter (fun '(i, _) => in_1_37 i) lines in
  let sumy := sum_from (#1.584e-17 * o_wb300 ll)
                (map (fun '(_, k) => #2.0 * a k * (o_w300 k + y k * o_f k)) low) in
  let sumg := sum_from #0.0 (map (fun '(_, k) => a k * g k) band) in
  let asq := sum_from #0.0 (map (fun '(_, k) => powi (a k) 2) band) in
  let anorm := sum_from #0.0 (map (fun '(_, k) => a k) band) in
  let sumy2 := sumy / (#2.0 * anorm) in
  let ratio := sumg / asq in
  let summ0 := #1.584e-17 * wnr / (freq * freq + wnr * wnr) in
  fold_left (fun summ '(i, k) =>
    let yadj := if in_1_37 i then y k - sumy2 / o_f k else y k in
    let gadj := if in_1_37 i then g k - a k * ratio else g k in
    let width := o_w300 k * pe1 in
    let yk := pe1 * yadj in
    let gfac := if in_1_37 i then #1.0 + q_pe2 q * gadj else #1.0 in
    let fcen := o_f k + q_pe2 q * (o_dnu0 k + o_dnu1 k * q_th1 q) in
    summ + o2_line_sd freq i (a k) width yk gfac fcen) lines summ0.

(** Sum over the lines, lines 832-966. *)
Definition o2_summ (m : string) (q : o2_env) (ll : o2_ll) (freq : num) : num :=
  let dfnr := q_dfnr q in
  let nonres := #1.584e-17 * freq * freq * dfnr / (q_th q * (freq * freq + dfnr * dfnr)) in
  let summ0 := if str_in m ["R03"; "R16"; "R17"; "R18"; "R98"] then #0.0 else nonres in
  if str_in m ["R03"; "R98"; "R17"; "R18"; "R19"; "R19SD"] then
    sum_from summ0 (map (o2_line_first m q freq) (o_lines ll))
  else if String.eqb m "R23" then o2_summ_R23 q ll freq
  else if String.eqb m "R24" then o2_summ_R24 q ll freq
  else sum_from summ0 (map (o2_line_second q freq) (o_lines ll)).

(** lines 968-979: o2abs in Np/km. *)
Definition o2_abs (m : string) (q : o2_env) (summ freq : num) : num :=
  let th := q_th q in let presda := q_presda q in
  let o2abs :=
    if str_in m ["R03"; "R98"] then #5.034e+11 * summ * presda * powi th 3 / #3.14159
    else if String.eqb m "R24" then #1.6097e+11 * summ * presda * powi (freq * th) 2
    else if String.eqb m "R23" then #1.6097e+11 * summ * presda * freq * freq * powi th 3
    else #1.6097e+11 * summ * presda * powi th 3 in
  let o2abs := if negb (String.eqb m "R98") then maxv o2abs #0.0 else o2abs in
  if str_in m ["R20"; "R20SD"; "R22"; "R22SD"] then #1.004 * maxv o2abs #0.0 else o2abs.

(** lines 988-1006: continuum in Np/km before the unit change. *)
Definition o2_cont (m : string) (q : o2_env) (freq : num) : num :=
  let th := q_th q in let dfnr := q_dfnr q in
  if str_in m ["R03"; "R98"] then
    #1.6e-17 * freq * freq * dfnr / (th * (freq * freq + dfnr * dfnr))
    * (#5.034e+11 * q_presda q * powi th 3 / #3.14159)
  else
    #1.584e-17 * freq * freq * dfnr / (th * (freq * freq + dfnr * dfnr))
    * (#1.6097e11 * q_presda q * powi th 3).

Definition o2_nocont_models :=
  ["R19"; "R19SD"; "R20"; "R20SD"; "R22"; "R22SD"; "R23"; "R24"].

(** lines 715-1008 [o2_absorption] without [amu]: (npp, ncpp). *)
Definition o2_absorption (m : string) (ll : o2_ll) (pdrykpa vx ekpa frq : num) : num * num :=
  let factor := #0.182 * frq in
  let q := o2_env_of m ll pdrykpa vx ekpa in
  let npp := (o2_abs m q (o2_summ m q ll frq) frq / db2np) / factor in
  let ncpp := if str_in m o2_nocont_models then #0 else (o2_cont m q frq / db2np) / factor in
  (npp, ncpp).

(** ** Ozone, absorption_model.py:1011-1104 *)

Record o3_line := mkO3Line { z_fl : num; z_s1 : num; z_b : num; z_w : num; z_x : num }.
Record o3_ll := mkO3LL { z_reftline : num; z_lines : list o3_line }.

Definition o3_strength (ti : num) (k : o3_line) : num :=
  z_s1 k * expf (z_b k * (#1.0 - ti)).

(** lines 1079-1084. *)
Definition o3_term_voigt (t p f ti : num) (k : o3_line) : num :=
  let widthc := z_w k * p * ti ** z_x k in
  let betad := #0.62065e-7 * z_fl k * sqrtf t in
  let arg1 := (z_fl k - f) / betad in
  let arg2 := widthc / betad in
  o3_strength ti k * re (dcerror arg1 arg2) / betad.

(** lines 1092-1100. *)
Definition o3_term_lorentz (t p f ti : num) (k : o3_line) : num :=
  let widthc := z_w k * p * ti ** z_x k in
  let betad2 := #3.85e-15 * t * powi (z_fl k) 2 in
  let width := #0.5346 * widthc + sqrtf (#0.2166 * widthc * widthc + #0.6931 * betad2) in
  let shape := powi (f / z_fl k) 2 * width / (powi (f - z_fl k) 2 + width * width) in
  o3_strength ti k * shape.

(** The loops of lines 1075-1084 / 1088-1100 with their [break]. *)
Fixpoint o3_loop (term : o3_line -> num) (f : num) (lines : list o3_line) (summ : num) : num :=
  match lines with
  | [] => summ
  | k :: rest =>
      if (f + #1.0) <? z_fl k then summ
      else if (f - #1.0) <=? z_fl k then o3_loop term f rest (summ + term k)
      else o3_loop term f rest summ
  end.

(** lines 1039-1104 [o3_absorption] without [amu]; line 1061 tests
    [o3n.any() <= 0], which holds exactly when o3n is zero. *)
Definition o3_absorption (m : string) (ll : o3_ll) (t p f o3n : num) : num :=
  if o3n =? #0 then #0
  else
    let den := #1e-06 * o3n in
    let ti := z_reftline ll / t in
    let ti2 := ti ** #2.5 in
    let qvinv := #1.0 - expf (- #1008.0 / t) in
    if str_in m ["R22"; "R22SD"] then
      #0.56419e-4 * o3_loop (o3_term_voigt t p f ti) f (z_lines ll) #0.0 * qvinv * ti2 * den
    else
      #3.183e-05 * o3_loop (o3_term_lorentz t p f ti) f (z_lines ll) #0.0 * qvinv * ti2 * den.

End Absorption.
Arguments h2o_line A : clear implicits.
Arguments h2o_ll A : clear implicits.
Arguments h2o_env A : clear implicits.
Arguments o2_line A : clear implicits.
Arguments o2_ll A : clear implicits.
Arguments o2_env A : clear implicits.
Arguments o3_line A : clear implicits.
Arguments o3_ll A : clear implicits.
