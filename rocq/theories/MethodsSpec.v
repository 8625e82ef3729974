(** Independent specifications for the properties of the constraint methods. *)
From Verif Require Import Base UnitsModel AtmosModel ConceptModel MethodsModel.
Open Scope R_scope.

(** degrees to radians *)
Definition rad (deg : R) : R := deg * (PI / 180).

(** ** Wing planform of a concept: aspect ratio, sweep angles (degrees) of the leading
    edge, the quarter chord and the maximum thickness line, taper ratio *)
Record wing := { w_ar : R; w_le : R; w_25 : R; w_mt : R; w_taper : R }.
Definition has_wing (c : concept) (w : wing) : Prop :=
  aspectratio c = Some (Fin (w_ar w)) /\ sweep_le_deg c = Some (Fin (w_le w)) /\
  sweep_25_deg c = Some (Fin (w_25 w)) /\ sweep_mt_deg c = Some (Fin (w_mt w)) /\
  roottaperratio c = Some (Fin (w_taper w)).
(** positive aspect ratio, every line swept by less than 90 degrees *)
Definition regular (w : wing) : Prop :=
  0 < w_ar w /\ -90 < w_le w < 90 /\ -90 < w_25 w < 90 /\ -90 < w_mt w < 90.

(** the four published estimates of the span efficiency: Raymer straight, Brandt,
    Raymer swept, Nita and Scholz *)
Definition raymer_straight (AR : R) : R := 1.78 * (1 - 0.045 * Rpower AR 0.68) - 0.64.
Definition brandt (AR mt : R) : R := 2 / (2 - AR + sqrt (4 + AR ^ 2 * (1 + tan mt ^ 2))).
Definition raymer_swept (AR le : R) : R :=
  4.61 * (1 - 0.045 * Rpower AR 0.68) * Rpower (cos le) 0.15 - 3.1.
Definition hoerner (t : R) : R :=
  0.0524 * t ^ 4 - 0.15 * t ^ 3 + 0.1659 * t ^ 2 - 0.0706 * t + 0.0119.
Definition compress (m : R) : R :=
  if Rlt_dec 0.3 m then 1 - 0.001521 * Rpower (m / 0.3 - 1) 10.82 else 1.
Definition nita (w : wing) (m : R) : R :=
  Rmax 0.001 ((1 - 2 * 0.114 ^ 2) * 0.85 * compress m
     / (1 + hoerner (w_taper w + 0.357 - 0.45 * exp (-0.0375 * w_25 w)) * w_ar w)).
Definition estimate (w : wing) (m : R) (i : N) : R :=
  match i with
  | 1%N => raymer_straight (w_ar w)
  | 2%N => brandt (w_ar w) (rad (w_mt w))
  | 3%N => raymer_swept (w_ar w) (rad (w_le w))
  | _ => nita w m
  end.

Definition mean_of (l : list R) : R := fold_right Rplus 0 l / INR (List.length l).

(** [d] is a decimal digit of [n] *)
Definition decimal_digit (d n : N) : Prop :=
  exists k, (d = (n / 10 ^ k) mod 10 /\ (10 ^ k <= n \/ k = 0))%N.
(** [sel] lists, without repetition, the methods 1..4 named by the digits of [n] *)
Definition methods_named (n : N) (sel : list N) : Prop :=
  NoDup sel /\ forall d, In d sel <-> (1 <= d <= 4)%N /\ decimal_digit d n.

(** ** Straight-edged wings: the tangent of the sweep angle is affine in the chord
    fraction *)
Definition straight_edges (le s25 x sweep : R) : Prop :=
  tan sweep = tan le + (tan s25 - tan le) / 0.25 * x.

(** ** Lift curve slope, per radian *)
(** sweep (degrees) of the half chord line when the angle is affine along the chord *)
Definition w_half (w : wing) : R := 2 * w_25 w - w_le w.

(** the seven subsonic estimates for a section slope [a0] at Mach number [m] < 1:
    compressible lifting line with sweep, high aspect ratio straight, low aspect ratio
    straight, low aspect ratio swept, DATCOM, Kuechemann, Kuechemann delta *)
Definition kuechemann (a x piar : R) : R :=
  (* [a]: section slope along the effective sweep [x]; shape parameter n *)
  let n := 1 - 1 / (2 * Rpower (1 + (a / piar) ^ 2) (1 / (4 * (1 + Rabs x / (0.5 * PI))))) in
  2 * a * n / (1 - PI * n * (1 / tan (PI * n)) + 4 * a * n ^ 2 / piar).
Definition subsonic_slopes (w : wing) (a0 m : R) : list R :=
  let AR := w_ar w in
  let P := PI * AR in
  let b := sqrt (1 - m ^ 2) in
  let ble := sqrt (1 - (m * cos (rad (w_le w))) ^ 2) in
  let a_le := a0 * cos (rad (w_le w)) in
  let half := rad (w_half w) in
  let eff := half / Rpower (1 + (a0 / b * cos half / P) ^ 2) 0.25 in
  [ P / (1 + sqrt (1 + (P / a0 / cos (rad (w_25 w))) ^ 2 * b ^ 2));
    a0 / (b + a0 / P / brandt AR (rad (w_mt w)));
    a0 / (sqrt (b ^ 2 + (a0 / P) ^ 2) + a0 / P);
    a_le / (sqrt (ble ^ 2 + (a_le / P) ^ 2) + a_le / P);
    2 * P / (2 + sqrt ((AR * b / (a0 / (2 * PI))) ^ 2 * (1 + (tan half / b) ^ 2) + 4));
    kuechemann (a0 / b * cos eff) eff P;
    a0 / b * AR / (sqrt (4 + AR ^ 2 + (a0 / b / PI) ^ 2) + a0 / b / PI) ].

(** supersonic estimates at [m] > 1: slender delta wing while the leading edge is
    subsonic (linear theory afterwards; no estimate for an unswept leading edge), linear
    theory, linear theory with tip correction *)
Definition delta_slope (w : wing) (m : R) : R :=
  let t := tan (rad (w_le w)) in
  let b := sqrt (m ^ 2 - 1) in
  let r := b / t in
  if Rle_dec 0 r then
    if Rle_dec r 1 then 2 * PI ^ 2 * (1 / t) / (PI + r * (0.38 + 2.26 * r - 0.86 * r ^ 2))
    else 4 / b
  else 4 / b.
Definition supersonic_slopes (w : wing) (m : R) : list R :=
  let b := sqrt (m ^ 2 - 1) in
  (if Req_EM_T (w_le w) 0 then [] else [delta_slope w m])
  ++ [4 / b; 4 / b * (1 - 1 / 2 / w_ar w / b)].

(** blending weights: the subsonic estimate fades out between Mach 0.6 and 0.8, the
    supersonic one fades in between 1.3 and 1.4, the transonic curve has the rest *)
Definition clamp01 (x : R) : R := Rmax 0 (Rmin 1 x).
Definition weight_sub (m : R) : R := clamp01 ((0.8 - m) / 0.2).
Definition weight_sup (m : R) : R := clamp01 ((m - 1.3) / 0.1).
Definition weight_trans (m : R) : R := 1 - weight_sub m - weight_sup m.

(** the half chord line is swept by less than 90 degrees *)
Definition half_ok (w : wing) : Prop := -90 < w_half w < 90.
(** the blended slope, [T] being the transonic curve *)
Definition slope_real (w : wing) (a0 : R) (T : R -> R) (m : R) : R :=
  weight_sub m * mean_of (subsonic_slopes w a0 m) + weight_trans m * T m
  + weight_sup m * mean_of (supersonic_slopes w m).
(** the Mach number at which the leading edge becomes sonic *)
Definition sonic_le (w : wing) : R := 1 / cos (rad (w_le w)).

(** ** The points of the transonic curve *)
(** 200 equally spaced abscissae between 0 and 1.5 of the fitted relation between the
    reduced aspect ratio AR t^(1/3) and the Mach number of the largest slope, for a
    thickness t of five percent *)
Definition fit_grid (x : R) : Prop := exists i : nat, (i < 200)%nat /\ x = 1.5 * INR i / 199.
Definition reduced_ar (x : R) : R := x / Rpower 0.05 (1 / 3).
Definition fitted_mach (x : R) : R :=
  sqrt ((3.2784414 * x ^ 2 - 9.73119668 * x + 6.0546588) * Rpower 0.05 (2 / 3) + 1).
(** the peak belongs to the first grid point reaching the aspect ratio; beyond the grid
    it is the smallest fitted Mach number *)
Definition peak_mach (AR p : R) : Prop := exists x, fit_grid x /\ p = fitted_mach x /\
  ((AR <= reduced_ar x /\ forall y, fit_grid y -> y < x -> reduced_ar y < AR) \/
   ((forall y, fit_grid y -> reduced_ar y < AR) /\ forall y, fit_grid y -> p <= fitted_mach y)).
Definition transonic_points (w : wing) (a0 p : R) : list (R * R) :=
  [ (0.6, mean_of (subsonic_slopes w a0 0.6)); (0.63, mean_of (subsonic_slopes w a0 0.63));
    (p - 0.06, 0.95 * (PI / 2 * w_ar w)); (p + 0.06, 0.95 * (PI / 2 * w_ar w));
    (1.37, mean_of (supersonic_slopes w 1.37)); (1.4, mean_of (supersonic_slopes w 1.4)) ].
