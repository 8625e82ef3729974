(** Vocabulary of the properties of the demonstration plots (C85). *)
From Verif Require Import Base PropulsionModel DemoModel.

(** the least and the greatest of the numbers in a column *)
Definition extremes (l : list num) (a b : R) : Prop :=
  In (Fin a) l /\ In (Fin b) l /\ forall r, In (Fin r) l -> a <= r <= b.
(** the column starts with a number, and another number occurs in it *)
Definition plottable (l : list num) : Prop :=
  exists a r rest, l = Fin a :: rest /\ In (Fin r) rest /\ r <> a.
(** 1001 evenly spaced numbers, from a to b *)
Definition evenly (a b : R) (l : list num) : Prop :=
  List.length l = 1001%nat /\
  forall k, (k <= 1000)%nat -> nth_error l k = Some (Fin (a + INR k / 1000 * (b - a))).

(** the plot covers the tabulated range of both coordinates and shows [g] on it *)
Definition shows (cx cy : list num) (g : num -> num -> num) (m : mesh) : Prop :=
  exists a b c d, extremes cx a b /\ extremes cy c d /\ a < b /\ c < d /\ evenly a b (m_x m) /\ evenly c d (m_y m) /\
    List.length (m_z m) = (1001 * 1001)%nat /\
    forall i j x y, nth_error (m_x m) i = Some x -> nth_error (m_y m) j = Some y ->
      nth_error (m_z m) (1001 * i + j)%nat = Some (g x y).
(** the outcome of a plotting method for the table t: the plot when both coordinates vary,
    a ValueError otherwise *)
Definition draws (r : res (option mesh)) (t : table) (g : num -> num -> num) (xl yl zl title : string) : Prop :=
  (plottable (tx t) -> plottable (ty t) ->
   exists m, r = Ok (Some m) /\ shows (tx t) (ty t) g m /\
     m_xlabel m = xl /\ m_ylabel m = yl /\ m_zlabel m = zl /\ m_title m = title) /\
  (~ (plottable (tx t) /\ plottable (ty t)) -> r = Err ValueError).

(** the points of a table of which all three entries are numbers *)
Fixpoint complete (xs ys zs : list num) : list (R * R * R) :=
  match xs, ys, zs with
  | Fin x :: xs, Fin y :: ys, Fin z :: zs => (x, y, z) :: complete xs ys zs
  | _ :: xs, _ :: ys, _ :: zs => complete xs ys zs
  | _, _, _ => []
  end.
(** what is interpolated between the complete points *)
Definition between_complete (grid : list num -> list num -> list num -> num -> num -> num) (t : table) (x y : num) : num :=
  let p := complete (tx t) (ty t) (tz t) in
  grid (map (fun p => Fin (fst (fst p))) p) (map (fun p => Fin (snd (fst p))) p) (map (fun p => Fin (snd p)) p) x y.
