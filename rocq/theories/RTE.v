(** Model of /repo/pyrtlib/rt_equation.py, except the two absorption drivers
    (see Clear.v).  The class attributes [RTEquation._from_sat] and
    [RTEquation._emissivity] (rt_equation.py:23-24) are explicit arguments. *)

From Coq Require Import ZArith List Bool String.
Import ListNotations.
From Verif Require Import Arith PyBase Utils.
Local Open Scope arith_scope.

Section RTE.
Context {A : Arith}.
Notation num := (car A).

(** rt_equation.py:62-65 and 73: saturation pressure over water, one level. *)
Definition vapor_es (t : num) : num :=
  let y := #373.16 / t in
  let es := - #7.90298 * (y - #1.0) + #5.02808 * log10f y
            - #1.3816e-07 * (#10 ** (#11.344 * (#1.0 - (#1.0 / y))) - #1.0)
            + #0.0081328 * (#10 ** (- #3.49149 * (y - #1.0)) - #1.0)
            + log10f #1013.246 in
  #10.0 ** es.

(** rt_equation.py:78-79: (e, rho) at one level. *)
Definition vapor1 (t rh : num) : num * num :=
  let rvap := k_Rwatvap * #1e-05 in
  let e := rh * vapor_es t in
  (e, e / (rvap * t)).

(** rt_equation.py:27-81 [vapor]; with [ice] true line 69 calls the array [t]
    ([t(indx)]), a TypeError whatever the data. *)
Definition vapor (t rh : list num) (ice : bool) : result (list num * list num) :=
  if ice then Err TypeError
  else let r := map (fun '(a, b) => vapor1 a b) (combine t rh) in
       Ok (map fst r, map snd r).

(** rt_equation.py:84-103 [bright]. *)
Definition bright (hvk boft : num) : num :=
  if negb (boft =? #0) then hvk / lnf (#1.0 + (#1.0 / boft)) else #0.

(** rt_equation.py:130-145, one level: (dryn, wetn, refindx). *)
Definition refractivity1 (p t e : num) : num * num * num :=
  let pa := p - e in
  let tc := t - #273.16 in
  let tk2 := t * t in
  let tc2 := tc * tc in
  let rza := #1.0 + pa * (#5.79e-07 * (#1.0 + #0.52 / t) - #0.00094611 * tc / tk2) in
  let rzw := #1.0 + #1650.0 * (e / (t * tk2))
             * (#1.0 - #0.01317 * tc + #0.000175 * tc2 + #1.44e-06 * (tc2 * tc)) in
  let wetn := (#64.79 * (e / t) + #377600.0 * (e / tk2)) * rzw in
  let dryn := #77.6036 * (pa / t) * rza in
  let refindx := #1.0 + (dryn + wetn) * #1e-06 in
  (dryn, wetn, refindx).

(** rt_equation.py:106-147 [refractivity] (arrays of equal length). *)
Definition refractivity (p t e : list num) : list num * list num * list num :=
  let r := map (fun '(a, (b, c)) => refractivity1 a b c) (combine p (combine t e)) in
  (map (fun x => fst (fst x)) r, map (fun x => snd (fst x)) r, map snd r).

(** *** Ray tracing, rt_equation.py:149-243 *)

(** Lower-boundary variables carried by the loop (lines 195-198, 238-241). *)
Record ray_state := mkRay { ry_phil : num; ry_taul : num; ry_rl : num; ry_tanthl : num;
                            ry_zprev : num; ry_nprev : num }.

Definition deg2rad : num := pif / #180.

(** Constants of a ray (lines 188-192). *)
Record ray_const := mkRayC { rc_theta0 : num; rc_rs : num; rc_costh0 : num;
                             rc_sina : num; rc_a0 : num; rc_z0 : num; rc_n0 : num }.

Definition ray_const_of (zfirst nfirst angle z0 : num) : ray_const :=
  let theta0 := angle * deg2rad in
  let sina := sinf (theta0 * #0.5) in
  mkRayC theta0 (k_EarthRadius + zfirst + z0) (cosf theta0) sina
         (#2.0 * (sina * sina)) z0 nfirst.

(** Mean refractive index of a layer, lines 202-206. *)
Definition ray_refbar (nprev n : num) : num :=
  if (n =? nprev) || (n =? #1.0) || (nprev =? #1.0)
  then (n + nprev) * #0.5
  else #1.0 + (nprev - n) / lnf ((nprev - #1.0) / (n - #1.0)).

(** One iteration, lines 201-241; [None] is the ducting exit of lines 210-213. *)
Definition ray_step (c : ray_const) (s : ray_state) (z n : num)
  : option (num * ray_state) :=
  let r := k_EarthRadius + z + rc_z0 c in
  let refbar := ray_refbar (ry_nprev s) n in
  let argdth := z / rc_rs c - ((rc_n0 c - n) * rc_costh0 c / n) in
  let argth := #0.5 * (rc_a0 c + argdth) / r in
  if argth <=? #0 then None
  else
    let sint := sqrtf (r * argth) in
    let theta1 := #2.0 * asinf sint in
    let '(theta, dtheta) :=
      if (theta1 - #2.0 * rc_theta0 c) <=? #0.0 then
        let dendth := #2.0 * (sint + rc_sina c) * cosf ((theta1 + rc_theta0 c) * #0.25) in
        let sind4 := (#0.5 * argdth - z * argth) / dendth in
        let dtheta := #4.0 * asinf sind4 in
        (rc_theta0 c + dtheta, dtheta)
      else (theta1, theta1 - rc_theta0 c) in
    let tanth := tanf theta in
    let cthbar := ((#1.0 / tanth) + (#1.0 / ry_tanthl s)) * #0.5 in
    let dtau := cthbar * (ry_nprev s - n) / refbar in
    let tau := ry_taul s + dtau in
    let phi := dtheta + tau in
    let dz := z - ry_zprev s in
    let sn := sinf ((phi - ry_phil s) * #0.5) in
    let d := sqrtf (dz * dz + #4.0 * r * ry_rl s * (sn * sn)) in
    let d := if negb (dtau =? #0.0) then
               let dtaua := absv (tau - ry_taul s) in
               d * (dtaua / (#2.0 * sinf (dtaua * #0.5)))
             else d in
    Some (d, mkRay phi tau r tanth z n).

(** The loop of lines 200-243: after ducting the remaining entries of [ds] keep
    their initial 0. *)
Fixpoint ray_loop (c : ray_const) (s : ray_state) (zn : list (num * num)) : list num :=
  match zn with
  | [] => []
  | (z, n) :: rest =>
      match ray_step c s z n with
      | None => map (fun _ => #0) zn
      | Some (d, s') => d :: ray_loop c s' rest
      end
  end.

(** Height differences, lines 181-184. *)
Fixpoint diffs (l : list num) : list num :=
  match l with
  | x :: ((y :: _) as l') => (y - x) :: diffs l'
  | _ => []
  end.

(** rt_equation.py:150-243 [ray_tracing]; [None] is Python's [return] without value
    (lines 174-177).  Arrays of equal length; an empty profile fails on [ds[0]]/[z[0]]. *)
Definition ray_tracing (z refindx : list num) (angle z0 : num)
  : result (option (list num)) :=
  if existsb (fun n => n <? #1) refindx then Ok None
  else match combine z refindx with
  | [] => Err IndexError
  | (zf, nf) :: rest =>
      if ((#89 <=? angle) && (angle <=? #91))
         || ((- #91 <=? angle) && (angle <=? - #89))
      then Ok (Some (#0.0 :: diffs z))
      else
        let c := ray_const_of zf nf angle z0 in
        let s := mkRay #0.0 #0.0 (k_EarthRadius + zf + z0) (tanf (rc_theta0 c)) zf nf in
        Ok (Some (#0.0 :: ray_loop c s rest))
  end.

(** *** Exponential integration, rt_equation.py:246-290 *)

(** Layer value, lines 273-282 (both samples non-negative). *)
Definition exp_layer (zeroflg : bool) (xprev xi : num) : num :=
  if absv (xi - xprev) <? #1e-09 then xi
  else if (xprev =? #0.0) || (xi =? #0.0) then
    (if negb zeroflg then #0.0 else (xi + xprev) * #0.5)
  else (xi - xprev) / lnf (xi / xprev).

(** The loop of lines 267-285 over the indices [is]; the boolean tells whether
    the loop ran to its end (false = the early return of line 271). *)
Fixpoint exp_loop (zeroflg : bool) (x ds : list num) (is : list Z) (sxds : num)
  (xds : list num) : result (bool * num * list num) :=
  match is with
  | [] => Ok (true, sxds, xds)
  | i :: rest =>
      do xp <- py_get x (i - 1);
      do xi <- py_get x i;
      if (xp <? #0.0) || (xi <? #0.0) then Ok (false, sxds, xds)
      else
        let xlayer := exp_layer zeroflg xp xi in
        do d <- py_get ds i;
        let v := xlayer * d in
        do xds' <- py_set xds i v;
        exp_loop zeroflg x ds rest (sxds + v) xds'
  end.

(** [exponential_integration]: (sxds, xds).  Line 290 reshapes [xds] to [iend]
    elements, a ValueError when [ds] has another length. *)
Definition exponential_integration (zeroflg : bool) (x ds : list num) (ibeg iend : Z)
  (factor : num) : result (num * list num) :=
  do r <- exp_loop zeroflg x ds (zrange ibeg iend) #0.0 (map (fun _ => #0) ds);
  let '(completed, sxds, xds) := r in
  if completed then
    (if Z.eqb (Z.of_nat (List.length xds)) iend then Ok (sxds * factor, xds)
     else Err ValueError)
  else Ok (sxds, xds).

(** *** Clouds *)

Definition expmax : num := #125.0.

(** rt_equation.py:293-340 [cloud_radiating_temperature]; [Ok None] is the early
    [return] of line 325.  Level numbers are integers here. *)
Definition cloud_radiating_temperature (ibase itop : Z) (hvk : num)
  (tauprof boftatm : list num) : result (option num) :=
  do tb <- py_get tauprof ibase;
  if expmax <? tb then Ok None
  else
    do at_ <- py_get boftatm itop;
    do ab_ <- py_get boftatm ibase;
    do ttop <- py_get tauprof itop;
    let batmcld := at_ - ab_ in
    let taucld := ttop - tb in
    let boftcld := if expmax <? taucld then batmcld * expf tb
                   else (batmcld * expf tb) / (#1.0 - expf (- taucld)) in
    Ok (Some (bright hvk boftcld)).

(** Inner loop of lines 359-361. *)
Fixpoint cloud_loop (dencld ds : list num) (js : list Z) (scld : num) : result num :=
  match js with
  | [] => Ok scld
  | j :: rest =>
      do d <- py_get ds j;
      do a <- py_get dencld j;
      do b <- py_get dencld (j - 1);
      cloud_loop dencld ds rest (scld + d * (#0.5 * (a + b)))
  end.

(** Outer loop of lines 358-361 over the clouds. *)
Fixpoint clouds_loop (dencld ds : list num) (levels : list (Z * Z)) (scld : num) : result num :=
  match levels with
  | [] => Ok scld
  | (b, t) :: rest =>
      do s <- cloud_loop dencld ds (zrange (b + 1) t) scld;
      clouds_loop dencld ds rest s
  end.

(** rt_equation.py:343-366 [cloud_integrated_density]. *)
Definition cloud_integrated_density (dencld ds : list num) (lbase ltop : list Z) : result num :=
  do s <- clouds_loop dencld ds (combine lbase ltop) #0.0;
  Ok (s * #0.1).

(** *** Planck, rt_equation.py:369-463 *)

Record planck_out := mkPlanck {
  p_boftotl : num; p_boftatm : list num; p_boftmr : num; p_tauprof : list num;
  p_hvk : num; p_boft : list num; p_bakgrnd : num }.

(** lines 399-401 *)
Definition hvk_of (frq : num) : num := (frq * #1e9) * k_planck / k_boltzmann.

(** One layer of either loop (lines 420-423 / 444-447): emission of a layer whose
    near (antenna side) and far radiances are [bnear], [bfar], seen through [tauabove]. *)
Definition lay_boft (bnear bfar tau : num) : num :=
  (bnear + bfar * expf (- tau)) / (#1.0 + expf (- tau)).
Definition lay_batm (bnear bfar tau tauabove : num) : num :=
  lay_boft bnear bfar tau * expf (- tauabove) * (#1.0 - expf (- tau)).

(** One level of the returned profiles: (boft, boftatm, tauprof). *)
Definition lev : Type := num * num * num.

(** Ground branch, loop of lines 442-449; the arguments are the values at level i-1. *)
Fixpoint planck_dn (hvk bprev atm tau : num) (lv : list (num * num)) : list lev :=
  match lv with
  | [] => []
  | (t, taulay) :: rest =>
      let b := tk2b_mod hvk t in
      let atm' := atm + lay_batm bprev b taulay tau in
      let tau' := tau + taulay in
      (b, atm', tau') :: planck_dn hvk b atm' tau' rest
  end.

(** Satellite branch, loop of lines 418-425 (from the top level down); the result
    lists the levels bottom first.  [taulay] of a level is that of the layer below it. *)
Fixpoint planck_up (hvk : num) (lv : list (num * num)) : list lev :=
  match lv with
  | [] => []
  | (t, _) :: rest =>
      let up := planck_up hvk rest in
      match rest, up with
      | (_, taulay) :: _, (b1, atm1, tau1) :: _ =>
          let b := tk2b_mod hvk t in
          (b, atm1 + lay_batm b1 b taulay tau1, tau1 + taulay) :: up
      | _, _ => [(tk2b_mod hvk t, #0, #0)]
      end
  end.

Definition lev_boft (l : lev) : num := fst (fst l).
Definition lev_atm (l : lev) : num := snd (fst l).
Definition lev_tau (l : lev) : num := snd l.

(** Closing part of both branches (lines 429-439 / 453-461): [far] is the level farthest from the
    antenna and [boftbg] the radiance of the background. *)
Definition planck_close (hvk boftbg : num) (far : lev) (levs : list lev) : planck_out :=
  let atm := lev_atm far in
  let tau := lev_tau far in
  if tau <? expmax then
    let bakgrnd := boftbg * expf (- tau) in
    mkPlanck (bakgrnd + atm) (map lev_atm levs) (atm / (#1.0 - expf (- tau)))
             (map lev_tau levs) hvk (map lev_boft levs) bakgrnd
  else
    mkPlanck atm (map lev_atm levs) atm (map lev_tau levs) hvk (map lev_boft levs) #0.0.

(** [planck(frq, t, taulay)] with the class attributes [from_sat], [es].
    [t] and [taulay] have the same length (as in tb_spectrum.py:362); an empty
    profile raises on [t[0]] / [boft[nl-1]]. *)
Definition planck (from_sat : bool) (es frq : num) (t taulay : list num) : result planck_out :=
  let hvk := hvk_of frq in
  match combine t taulay with
  | [] => Err IndexError
  | (t0, _) :: rest =>
      if from_sat then
        let levs := planck_up hvk (combine t taulay) in
        let boftotl := #0.0 in   (* line 410: still 0 when the background is formed *)
        let boftbg := es * tk2b_mod hvk t0 + (#1 - es) * boftotl in
        Ok (planck_close hvk boftbg (hd (#0, #0, #0) levs) levs)
      else
        let b0 := tk2b_mod hvk t0 in
        let levs := (b0, #0, #0) :: planck_dn hvk b0 #0 #0 rest in
        Ok (planck_close hvk (tk2b_mod hvk k_Tcosmicbkg) (last levs (b0, #0, #0)) levs)
  end.

End RTE.
Arguments planck_out A : clear implicits.
Arguments lev A : clear implicits.
