(** What the thrust table of atmospheres.py:963-990 and a quadratic spline through it are,
    independent of B-splines, knots and linear systems. *)
From Verif Require Import Base.

(** a polynomial of degree two at most, and its derivative *)
Record quadratic := { q2 : R; q1 : R; q0 : R }.
Definition qval (p : quadratic) (x : R) : R := q2 p * x ^ 2 + q1 p * x + q0 p.
Definition qslope (p : quadratic) (x : R) : R := 2 * q2 p * x + q1 p.

(** [f] is the polynomial [p] between two consecutive break points, for every such pair, and
    the polynomials on both sides of a break point have the same slope there (that they have
    the same value follows from both being equal to [f]) *)
Fixpoint pieces (breaks : list R) (ps : list quadratic) (f : R -> R) : Prop :=
  match breaks, ps with
  | a :: ((b :: _) as breaks'), p :: ps' =>
      (forall x, a <= x <= b -> f x = qval p x)
      /\ match ps' with q :: _ => qslope p b = qslope q b | [] => True end
      /\ pieces breaks' ps' f
  | [_], [] => True
  | _, _ => False
  end.
Definition quadratic_spline (breaks : list R) (f : R -> R) : Prop :=
  exists ps, pieces breaks ps f.

(** the sites of the table *)
Definition dens : list R :=
  [0.24616951531253428; 0.3098749509963361; 0.3741322424507335;
   0.44811893933199765; 0.5328112272029571; 0.6292375381232487;
   0.7384790974933775; 0.8616704548972803; 1].
Definition machs : list R := [0; 0.1; 0.2; 0.3; 0.4; 0.5; 0.6].
(** thrust at a Mach number (one list each) and a density ratio (one entry each), over the
    static thrust at sea level *)
Definition thrust_at_mach : list (list R) :=
  [[0.24301874; 0.3128897; 0.38302311; 0.45869702; 0.54553835; 0.6440402; 0.75391673; 0.87466664; 1];
   [0.22386998; 0.30047179; 0.3725948; 0.44896454; 0.53270352; 0.62518827; 0.72629241; 0.83573268; 0.92961537];
   [0.17652686; 0.26491134; 0.33679446; 0.40851692; 0.47928574; 0.55076698; 0.62626668; 0.70577692; 0.7332334];
   [0.14221442; 0.21632642; 0.27993518; 0.33699743; 0.39099644; 0.44448741; 0.49791383; 0.53837968; 0.53288748];
   [0.11592392; 0.17804871; 0.23118738; 0.27831082; 0.32349623; 0.36925856; 0.41741569; 0.44090342; 0.42905484];
   [0.09937799; 0.1498797; 0.20371041; 0.24504059; 0.27757851; 0.30213092; 0.3135676; 0.25876522; 0.2518872];
   [0.06240678; 0.12426883; 0.17623344; 0.21177037; 0.23166079; 0.23500329; 0.20971952; 0.07662703; 0.07471956]].

(** the break points: the ends of the data, and halfway between neighbouring sites except
    next to the ends *)
Definition dens_breaks : list R :=
  [0.24616951531253428;
   (0.3098749509963361 + 0.3741322424507335) / 2;
   (0.3741322424507335 + 0.44811893933199765) / 2;
   (0.44811893933199765 + 0.5328112272029571) / 2;
   (0.5328112272029571 + 0.6292375381232487) / 2;
   (0.6292375381232487 + 0.7384790974933775) / 2;
   (0.7384790974933775 + 0.8616704548972803) / 2;
   1].
Definition mach_breaks : list R := [0; 0.15; 0.25; 0.35; 0.45; 0.6].

(** [f] is a quadratic spline with these break points that takes the values [z] at [x] *)
Definition spline_through (breaks x z : list R) (f : R -> R) : Prop :=
  quadratic_spline breaks f /\ map f x = z.
