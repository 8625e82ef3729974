(** scipy's interp1d(x, y, kind='cubic') as constraintanalysis.py:864-865 uses it, and the
    two interpolators of the repository together.  Definitions only.

    Simplification: scipy writes the interpolating spline in B-splines and solves a banded
    linear system for the coefficients (make_interp_spline, LAPACK gbsv).  Here the same
    spline is found piece by piece from the left, the one free coefficient being chosen so
    that the last point is met; C90_any_spline shows that there is no other such spline. *)
From Verif Require Import Base AtmosModel MethodsModel TurbopropModel.
Open Scope R_scope.

(* constraintanalysis.py:864: one piece, k0 + k1 t + k2 t^2 + k3 t^3 with t = x - base *)
Record piece := { base : R; k0 : R; k1 : R; k2 : R; k3 : R }.
(* constraintanalysis.py:865: its value, slope and half of its curvature *)
Definition peval (p : piece) (x : R) : R :=
  let t := x - base p in k0 p + t * (k1 p + t * (k2 p + t * k3 p)).
Definition pslope (p : piece) (x : R) : R :=
  let t := x - base p in k1 p + t * (2 * k2 p + t * (3 * k3 p)).
Definition phalf (p : piece) (x : R) : R :=
  let t := x - base p in k2 p + t * (3 * k3 p).

(* constraintanalysis.py:864: the piece with value [v], slope [s] and half curvature [q] at
   [x] that goes through (x1, y1) *)
Definition join (x v s q x1 y1 : R) : piece :=
  let h := x1 - x in
  {| base := x; k0 := v; k1 := s; k2 := q; k3 := (y1 - v - s * h - q * h ^ 2) / h ^ 3 |}.
(* constraintanalysis.py:864: the pieces from the point (x, v) on, each with its right end,
   and how far the last one misses the last point.  The last point but one is no knot
   (scipy's _not_a_knot), so the last piece goes over it *)
Fixpoint shoot (x v s q : R) (rest : list (R * R)) : list (R * piece) * R :=
  match rest with
  | [] => ([], 0)
  | (x1, y1) :: rest' =>
      let p := join x v s q x1 y1 in
      match rest' with
      | [(x2, y2)] => ([(x2, p)], peval p x2 - y2)
      | _ => let l := shoot x1 y1 (pslope p x1) (phalf p x1) rest' in ((x1, p) :: fst l, snd l)
      end
  end.
(* constraintanalysis.py:864: the first piece goes through the first three points, the
   second of which is no knot; [c] is its free coefficient *)
Definition start (c : R) (p0 p1 p2 : R * R) : piece :=
  let a := fst p2 - fst p0 in
  let b := fst p2 - fst p1 in
  let d1 := (snd p1 - snd p0) / (fst p1 - fst p0) in
  let d2 := (snd p2 - snd p1) / b in
  let dd := (d2 - d1) / a in
  {| base := fst p2; k0 := snd p2; k1 := d2 + dd * b + c * (a * b); k2 := dd + c * (a + b); k3 := c |}.
Definition trial (c : R) (pts : list (R * R)) : list (R * piece) * R :=
  match pts with
  | p0 :: p1 :: p2 :: rest =>
      let p := start c p0 p1 p2 in
      match rest with
      | [(x3, y3)] => ([(x3, p)], peval p x3 - y3)
      | _ => let l := shoot (fst p2) (snd p2) (k1 p) (k2 p) rest in ((fst p2, p) :: fst l, snd l)
      end
  | _ => ([], 0)
  end.
(* constraintanalysis.py:864: the miss is an affine function of the free coefficient *)
Definition free_coefficient (pts : list (R * R)) : R :=
  let r0 := snd (trial 0 pts) in r0 / (r0 - snd (trial 1 pts)).
(* constraintanalysis.py:865: the value at a point between the first and the last *)
Fixpoint walk (l : list (R * piece)) (x : R) : R :=
  match l with
  | [] => 0
  | [(_, p)] => peval p x
  | (e, p) :: l' => if Rltb x e then peval p x else walk l' x
  end.
Definition cubic_at (pts : list (R * R)) (x : R) : R :=
  walk (fst (trial (free_coefficient pts) pts)) x.

(* constraintanalysis.py:864: the points as pairs of reals, if they all are *)
Definition fin_pair (p : num * num) : option (R * R) :=
  match p with (Fin x, Fin y) => Some (x, y) | _ => None end.
Fixpoint fin_pairs (l : list (num * num)) : option (list (R * R)) :=
  match l with
  | [] => Some []
  | p :: l' => match fin_pair p, fin_pairs l' with Some q, Some r => Some (q :: r) | _, _ => None end
  end.
(* constraintanalysis.py:864: make_interp_spline refuses equal abscissae *)
Fixpoint has_duplicates (l : list (R * R)) : bool :=
  match l with
  | p :: ((q :: _) as l') => (Reqb (fst p) (fst q) || has_duplicates l')%bool
  | _ => false
  end.
(* constraintanalysis.py:864-865: interp1d sorts the points, needs four of them, refuses
   equal abscissae and arguments outside the data; a nan in the points or in the argument
   gives nan (an infinity is not distinguished from a nan) *)
Definition interp1d_cubic (tab : list (num * num)) (x : num) : res num :=
  if Nat.ltb (List.length tab) 4 then Err ValueError
  else match fin_pairs tab with
  | None => Ok NonFin
  | Some pts =>
      let s := sort_pts pts in
      if has_duplicates s then Err ValueError
      else match x with
      | NonFin => Ok NonFin
      | Fin v =>
          if (Rltb v (fst (hd (0, 0) s)) || Rltb (fst (last s (0, 0))) v)%bool then Err ValueError
          else Ok (Fin (cubic_at s v))
      end
  end.

(* constraintanalysis.py:864, atmospheres.py:963-990: what the methods of AircraftConcept
   take from elsewhere, now all of it modelled *)
Definition interpolators : externals :=
  {| cubic := interp1d_cubic; tpspline := turbopropthrustfactor |}.
