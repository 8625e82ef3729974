(** ADRpy/atmospheres.py:963-990 turbopropthrustfactor: the thrust table of the TPE331-10
    and the quadratic tensor-product spline that scipy's RectBivariateSpline(kx=2, ky=2)
    passes through it.  Definitions only.

    scipy is not part of the repository.  What is modelled of it is what its FITPACK
    routines regrid (smoothing 0) and bispev compute, in exact arithmetic: the knots, the
    B-spline weights, the interpolation equations and their solution, the clamping of the
    arguments and the search for the knot interval.  FITPACK solves the equations by Givens
    rotations; here they are solved by elimination, which in exact arithmetic gives the
    same coefficients (the solution is unique).  Rounding is not modelled.  [MethodsModel]
    takes this function as its argument [tpspline]. *)
From Verif Require Import Base.

(* ------------------------------------------------------------------------ *)
(** * The data *)

(* atmospheres.py:972-974 *)
Definition X_dens_ratio : list R :=
  [0.24616951531253428; 0.3098749509963361; 0.3741322424507335;
   0.44811893933199765; 0.5328112272029571; 0.6292375381232487;
   0.7384790974933775; 0.8616704548972803; 1.0].
(* atmospheres.py:975 *)
Definition Y_Mach : list R := [0; 0.1; 0.2; 0.3; 0.4; 0.5; 0.6].
(* atmospheres.py:977-986: one row per density ratio, one column per Mach number *)
Definition Z_thr_ratio : list (list R) :=
  [[0.24301874; 0.22386998; 0.17652686; 0.14221442; 0.11592392; 0.09937799; 0.06240678];
   [0.3128897 ; 0.30047179; 0.26491134; 0.21632642; 0.17804871; 0.1498797 ; 0.12426883];
   [0.38302311; 0.3725948 ; 0.33679446; 0.27993518; 0.23118738; 0.20371041; 0.17623344];
   [0.45869702; 0.44896454; 0.40851692; 0.33699743; 0.27831082; 0.24504059; 0.21177037];
   [0.54553835; 0.53270352; 0.47928574; 0.39099644; 0.32349623; 0.27757851; 0.23166079];
   [0.6440402 ; 0.62518827; 0.55076698; 0.44448741; 0.36925856; 0.30213092; 0.23500329];
   [0.75391673; 0.72629241; 0.62626668; 0.49791383; 0.41741569; 0.3135676 ; 0.20971952];
   [0.87466664; 0.83573268; 0.70577692; 0.53837968; 0.44090342; 0.25876522; 0.07662703];
   [1.0       ; 0.92961537; 0.7332334 ; 0.53288748; 0.42905484; 0.2518872 ; 0.07471956]].

(* ------------------------------------------------------------------------ *)
(** * Quadratic splines in one variable *)

(* atmospheres.py:988, FITPACK fpregr: with smoothing 0 and degree 2 the interior knots are
   the midpoints of consecutive data sites, except the first and the last pair *)
Fixpoint midpoints (x : list R) : list R :=
  match x with
  | a :: ((b :: _) as x') => (b + a) * (1 / 2) :: midpoints x'
  | _ => []
  end.
(* atmospheres.py:988: the knots, the end ones repeated three times *)
Definition fit_knots (x : list R) : list R :=
  let a := hd 0 x in
  let b := last x 0 in
  ([a; a; a] ++ removelast (tl (midpoints x)) ++ [b; b; b])%list.

(* atmospheres.py:988-990, FITPACK fpbspl for degree 2: the three B-splines that are not zero
   between the knots [t0] and [t1] (their neighbours are [tm] and [tp]) *)
Definition bspl (tm t0 t1 tp x : R) : R * R * R :=
  let f := 1 / (t1 - t0) in
  let h1 := f * (t1 - x) in
  let h2 := f * (x - t0) in
  let f1 := h1 / (t1 - tm) in
  let f2 := h2 / (tp - t0) in
  (f1 * (t1 - x), f1 * (x - tm) + f2 * (tp - x), f2 * (x - t0)).

(* atmospheres.py:990, FITPACK fpbisp in one variable: [t] is the knot list without its first
   element and [c] the coefficients; the interval is the first one whose right end exceeds
   [x], or the last one *)
Fixpoint spline_walk (t c : list R) (x : R) : R :=
  match t, c with
  | tm :: ((t0 :: t1 :: tp :: _) as t'), c0 :: ((c1 :: c2 :: c3) as c') =>
      match c3 with
      | [] => let '(w0, w1, w2) := bspl tm t0 t1 tp x in w0 * c0 + w1 * c1 + w2 * c2
      | _ => if Rltb x t1
             then let '(w0, w1, w2) := bspl tm t0 t1 tp x in w0 * c0 + w1 * c1 + w2 * c2
             else spline_walk t' c' x
      end
  | _, _ => 0
  end.
(* atmospheres.py:990, FITPACK fpbisp: an argument outside the data is moved to its end *)
Definition clamp (a b x : R) : R := if Rltb x a then a else if Rltb b x then b else x.
(* atmospheres.py:990: the spline with coefficients [c] on the data sites [x], at [v] *)
Definition spline_at (x c : list R) (v : R) : R :=
  spline_walk (tl (fit_knots x)) c (clamp (hd 0 x) (last x 0) v).

(* atmospheres.py:988: the equations "the spline takes the value z at the data site x".  A
   row (a, b, c, z) stands for a c[i-1] + b c[i] + c c[i+1] = z; between the first and the
   last data site the B-splines i-1, i, i+1 are the ones that are not zero there *)
Fixpoint site_rows (t x z : list R) : list (R * R * R * R) :=
  match t, x, z with
  | tm :: ((t0 :: t1 :: tp :: _) as t'), v :: ((_ :: _) as x'), w :: z' =>
      let '(a, b, c) := bspl tm t0 t1 tp v in (a, b, c, w) :: site_rows t' x' z'
  | _, [_], w :: _ => [(0, 1, 0, w)]
  | _, _, _ => []
  end.
Definition fit_rows (x z : list R) : list (R * R * R * R) :=
  (0, 1, 0, hd 0 z) :: site_rows (tl (fit_knots x)) (tl x) (tl z).
(* atmospheres.py:988: elimination and back substitution; [cp], [dp] come from the rows
   already eliminated *)
Fixpoint eliminate (rows : list (R * R * R * R)) (cp dp : R) : list R :=
  match rows with
  | [] => []
  | (a, b, c, d) :: rows' =>
      let p := b - a * cp in
      let cp' := c / p in
      let dp' := (d - a * dp) / p in
      let rest := eliminate rows' cp' dp' in
      (dp' - cp' * hd 0 rest) :: rest
  end.
(* atmospheres.py:988: the coefficients of the spline through the points (x, z) *)
Definition fit (x z : list R) : list R := eliminate (fit_rows x z) 0 0.

(* ------------------------------------------------------------------------ *)
(** * The tensor product *)

(* atmospheres.py:988: the columns of a table given by rows of length [n] *)
Fixpoint columns (n : nat) (rows : list (list R)) : list (list R) :=
  match n with
  | O => []
  | S n' => map (hd 0) rows :: columns n' (map (@tl R) rows)
  end.
(* atmospheres.py:988: the coefficients, one row per density ratio: first every column is
   fitted along the density ratios, then every row of the result along the Mach numbers *)
Definition thrust_ratio_spline : list (list R) :=
  map (fit Y_Mach)
    (columns (List.length X_dens_ratio)
       (map (fit X_dens_ratio) (columns (List.length Y_Mach) Z_thr_ratio))).
(* atmospheres.py:990: bispev at one point *)
Definition bispev (coefs : list (list R)) (d m : R) : R :=
  spline_at X_dens_ratio (map (fun c => spline_at Y_Mach c m) coefs) d.
(* atmospheres.py:963-990: the single element of the returned array.  A nan argument gives
   nan; numpy's infinities, which FITPACK would clamp, are not distinguished from nan *)
Definition turbopropthrustfactor (dens_ratio mach : num) : num :=
  lift2 (fun d m => Fin (bispev thrust_ratio_spline d m)) dens_ratio mach.
