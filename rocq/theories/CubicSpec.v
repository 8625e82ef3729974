(** What a cubic spline through a table of points is, independent of how it is found. *)
From Coq Require Import Sorting.Sorted.
From Verif Require Import Base.

(** a polynomial of degree three at most, its slope and its second derivative *)
Record cubic_poly := { c3 : R; c2 : R; c1 : R; c0 : R }.
Definition cval (p : cubic_poly) (x : R) : R := c3 p * x ^ 3 + c2 p * x ^ 2 + c1 p * x + c0 p.
Definition cslope (p : cubic_poly) (x : R) : R := 3 * c3 p * x ^ 2 + 2 * c2 p * x + c1 p.
Definition ccurv (p : cubic_poly) (x : R) : R := 6 * c3 p * x + 2 * c2 p.

(** [f] is the polynomial [p] between two consecutive break points, for every such pair, and
    the polynomials on both sides of a break point have the same slope and the same second
    derivative there (that they have the same value follows from both being equal to [f]) *)
Fixpoint cubic_pieces (breaks : list R) (ps : list cubic_poly) (f : R -> R) : Prop :=
  match breaks, ps with
  | a :: ((b :: _) as breaks'), p :: ps' =>
      (forall x, a <= x <= b -> f x = cval p x)
      /\ match ps' with q :: _ => cslope p b = cslope q b /\ ccurv p b = ccurv q b | [] => True end
      /\ cubic_pieces breaks' ps' f
  | [_], [] => True
  | _, _ => False
  end.
Definition cubic_spline (breaks : list R) (f : R -> R) : Prop := exists ps, cubic_pieces breaks ps f.

(** the break points: all the abscissae but the second and the last but one ("not a knot") *)
Fixpoint drop_last_but_one (l : list R) : list R :=
  match l with
  | [_; b] => [b]
  | a :: l' => a :: drop_last_but_one l'
  | [] => []
  end.
Definition breaks_of (x : list R) : list R :=
  match x with a :: _ :: r => a :: drop_last_but_one r | _ => x end.
(** [f] is the not-a-knot cubic spline through the points *)
Definition cubic_through (pts : list (R * R)) (f : R -> R) : Prop :=
  cubic_spline (breaks_of (map fst pts)) f /\ forall p, In p pts -> f (fst p) = snd p.
(** points given from left to right, no two of them above one another *)
Definition left_to_right (pts : list (R * R)) : Prop := StronglySorted Rlt (map fst pts).
(** the table as the program holds it *)
Definition finite_points (pts : list (R * R)) : list (num * num) := map (fun p => (Fin (fst p), Fin (snd p))) pts.
