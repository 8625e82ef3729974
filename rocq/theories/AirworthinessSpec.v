(** Independent specifications for the CS-23 flight envelope. *)
From Verif Require Import Base UnitsModel AtmosModel AtmosSpec ConceptModel MethodsModel MethodsSpec
  ConstraintSpec
  AirworthinessModel.
Open Scope R_scope.

(** ** Units (the repository's constants) *)
Definition ft (x : R) : R := x * 0.3048.
Definition in_knots (v : R) : R := v * 1.9438445.
Definition pounds (newtons : R) : R := newtons * 0.224809.
Definition pounds_per_ft2 (pa : R) : R := pa * 0.020885434273039.
(** equal up to the rounding of the two knot conversion constants *)
Definition nearly (x y : R) : Prop := Rabs (x - y) <= 2e-7 * Rabs y.

(** ** The aircraft and the flight condition *)
Record flight := {
  f_weight : R; f_area : R; f_aspect : R; f_taper : R;
  f_clmax : R; f_clmin : R;                        (* clean, upright and inverted *)
  f_vc : R;                                        (* design cruise speed, KEAS *)
  f_alt : R; f_wf : R;                             (* altitude, fraction of the weight *)
  f_sl : airstate; f_air : airstate;               (* air at sea level and at that altitude *)
  f_slope : R }.                                   (* lift curve slope at the cruise speed *)
Definition cruise_mach (f : flight) : R :=
  mach_no (knots (f_vc f / sqrt (a_rho (f_air f) / 1.225))) (f_air f).
(** what the object [s] says; all numbers physically sensible *)
Definition describes (ext : externals) (s : cert) (f : flight) : Prop :=
  weight_n (acobj s) = Some (Fin (f_weight f)) /\ wingarea_m2 (acobj s) = Some (Fin (f_area f)) /\
  aspectratio (acobj s) = Some (Fin (f_aspect f)) /\ roottaperratio (acobj s) = Some (Fin (f_taper f)) /\
  clmaxclean (acobj s) = Some (Fin (f_clmax f)) /\ clminclean (acobj s) = Some (Fin (f_clmin f)) /\
  cruisespeed_keas s = Some (Fin (f_vc f)) /\ altitude_m s = Fin (f_alt f) /\
  weightfraction s = Fin (f_wf f) /\
  air_at (acobj s) 0 (f_sl f) /\ air_at (acobj s) (f_alt f) (f_air f) /\
  liftslope_prad ext (acobj s) (Fin (cruise_mach f)) = Ok (Fin (f_slope f)) /\
  0 < f_weight f /\ 0 < f_area f /\ 0 < f_aspect f /\ 0 <= f_taper f /\ 0 < f_clmax f /\ f_clmin f < 0 /\
  0 < f_vc f /\ 0 < f_wf f /\ 0 < f_slope f.
Definition wing_loading (f : flight) : R := f_weight f / f_area f.

(** ** CS-23.337: limit manoeuvring load factors *)
Definition limit_positive (c : cat) (weight_lbf : R) : R :=
  match c with
  | Norm | Comm => Rmin 3.8 (2.1 + 24000 / (weight_lbf + 10000))
  | Util => 4.4
  | Aero => 6
  end.
(** the fraction of the category's own positive factor *)
Definition limit_negative (c : cat) (weight_lbf : R) : R :=
  match c with
  | Norm | Util | Comm => -0.4 * limit_positive c weight_lbf
  | Aero => -0.5 * limit_positive c weight_lbf
  end.
(** CS-23.333(b): negative limit at the dive speed *)
Definition limit_negative_dive (c : cat) : R := match c with Norm | Comm => 0 | Util | Aero => -1 end.

(** ** CS-23.333(c): derived gust velocities *)
(** constant up to 20000 ft, linear to 50000 ft, constant above; [h] in feet *)
Definition gust_profile (lo hi h : R) : R :=
  lo + (hi - lo) * clamp01 ((h - 20000) / 30000).
(** shape of such a profile *)
Definition gust_shape (lo hi : R) (U : R -> R) : Prop :=
  (forall h, h <= 20000 -> U h = lo) /\ (forall h, 50000 <= h -> U h = hi) /\
  (forall h, 20000 <= h <= 50000 -> U h = lo - (lo - hi) * (h - 20000) / 30000) /\
  (forall h1 h2, h1 <= h2 -> U h2 <= U h1) /\ (forall h, hi <= U h <= lo) /\ continuity U.
(** the object at another altitude *)
Definition with_altitude (s : cert) (h : R) : cert :=
  {| acobj := acobj s; cruisespeed_keas := cruisespeed_keas s; category := category s;
     divespeed_keas := divespeed_keas s; maxlevelspeed_keas := maxlevelspeed_keas s;
     altitude_m := Fin h; weightfraction := weightfraction s |}.

(** ** CS-23.335: design airspeeds *)
(** linear in the wing loading between 20 and 100 lb/ft2, constant outside *)
Definition by_loading (lo hi wl : R) : R := lo + (hi - lo) * clamp01 ((wl - 20) / 80).
Definition vc_coefficient (c : cat) (wl : R) : R :=
  match c with Norm | Util | Comm => by_loading 33 28.6 wl | Aero => by_loading 36 28.6 wl end.
Definition vd_coefficient (c : cat) (wl : R) : R :=
  match c with
  | Norm | Comm => by_loading 1.4 1.35 wl
  | Util => by_loading 1.5 1.35 wl
  | Aero => by_loading 1.55 1.35 wl
  end.
Definition vc_minimum (c : cat) (f : flight) : R :=
  let wl := pounds_per_ft2 (wing_loading f) in vc_coefficient c wl * sqrt wl.
Definition vd_minimum (c : cat) (f : flight) : R :=
  let wl := pounds_per_ft2 (wing_loading f) in Rmax (1.25 * f_vc f) (vd_coefficient c wl * vc_minimum c f).
(** the dive speed: the one asked for, but not below the minimum *)
Definition dive (s : cert) (c : cat) (f : flight) (vd : R) : Prop :=
  (divespeed_keas s = None /\ vd = vd_minimum c f) \/
  exists v, divespeed_keas s = Some (Fin v) /\ vd = Rmax v (vd_minimum c f).
(** speed [v] in m/s at which the lift coefficient [cl] carries the force [n] *)
Definition carries (rho area cl force v : R) : Prop :=
  0 <= v /\ 1 / 2 * rho * v ^ 2 * area * cl = force.

(** ** CS-23.341: gust load factors *)
Definition std_chord (f : flight) : R := sqrt (f_area f / f_aspect f).
(** aeroplane mass ratio and alleviation factor, for the weight carried *)
Definition mass_ratio (f : flight) : R :=
  2 * (wing_loading f * f_wf f) / (a_rho (f_air f) * std_chord f * f_slope f * gravity).
Definition alleviation (f : flight) : R := 0.88 * mass_ratio f / (5.3 + mass_ratio f).
(** the regulation's load increment at the equivalent speed [v] knots in a gust [u] m/s,
    for wing loading [x] *)
Definition gust_increment (f : flight) (x u v : R) : R :=
  alleviation f * a_rho (f_sl f) * u * knots v * f_slope f / (2 * x).
(** the increment the code computes: the weight fraction enters twice *)
Definition coded_increment (f : flight) (u v : R) : R :=
  gust_increment f (wing_loading f * f_wf f) u v / f_wf f.
Definition gust_c (f : flight) : R := ft (gust_profile 50 25 (f_alt f / 0.3048)).
Definition gust_d (f : flight) : R := ft (gust_profile 25 12.5 (f_alt f / 0.3048)).
Definition gust_b (f : flight) : R := ft (gust_profile 66 38 (f_alt f / 0.3048)).
(** the gust that decides VB *)
Definition rough_gust (c : cat) (f : flight) : R := match c with Comm => gust_b f | _ => gust_c f end.

(** ** Flight envelope *)
(** load factor, in units of the carried weight divided by the weight fraction, at which
    the wing stalls at [v] knots with lift coefficient [cl] *)
Definition stall_line (f : flight) (cl v : R) : R :=
  1 / 2 * a_rho (f_sl f) * (knots v) ^ 2 * cl / (wing_loading f * f_wf f) / f_wf f.
Definition names (c : cat) : string :=
  match c with Norm => "norm" | Util => "util" | Comm => "comm" | Aero => "aero" end.
(** the pieces of a list of points *)
Definition starts (l : list point) (p : point) : Prop := nth_error l 0 = Some p.
Definition ends (l : list point) (p : point) : Prop := l <> [] /\ last l p = p.

(** ** Trapezoidal wing *)
(** chord at the fraction [y] of the semispan *)
Definition chord (root taper y : R) : R := root * (1 - (1 - taper) * y).
(** integrals over the semispan, by antiderivatives *)
Definition integral01 (g : R -> R) (I : R) : Prop :=
  exists G, (forall x, derivable_pt_lim G x (g x)) /\ G 1 - G 0 = I.
(** wing with the given area, aspect ratio and taper: root chord [root] and span [b] *)
Definition trapezoid (area aspect taper root b : R) : Prop :=
  0 < root /\ 0 < b /\ b ^ 2 = aspect * area /\ integral01 (chord root taper) (area / b).

(** ** Dictionary csbrief *)
(** the documented defaults *)
Definition csdefaults : list (string * csv) :=
  [ ("altitude_m", CNum (Fin 0)); ("certcat", CStr "norm"); ("weightfraction", CNum (Fin 1)); ("cruisespeed_keas", CBool false);
    ("divespeed_keas", CBool false); ("maxlevelspeed_keas", CBool false) ]%string.
(** the quantity an entry stands for: False is no value; truth values count as numbers in
    arithmetic; text is no quantity *)
Inductive cs_quantity : csv -> option num -> Prop :=
| cs_none : cs_quantity (CBool false) None
| cs_true : cs_quantity (CBool true) (Some (Fin 1))
| cs_some x : cs_quantity (CNum x) (Some x).
Inductive cs_number : csv -> num -> Prop :=
| cn_false : cs_number (CBool false) (Fin 0)
| cn_true : cs_number (CBool true) (Fin 1)
| cn_num x : cs_number (CNum x) x.
