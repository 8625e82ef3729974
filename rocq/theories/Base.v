(** Base vocabulary of the model: exceptions as values, floating point numbers
    that may be non-finite, scalar-or-vector arguments.  Definitions only. *)
From Coq Require Export Reals List Bool ZArith String.
From Coq Require Export Lra Lia.
Export ListNotations.
Open Scope R_scope.

(** Exceptions the modelled code (or numpy / Python on its behalf) raises. *)
Inductive exn : Set :=
| ValueError | TypeError | IndexError | KeyError | AttributeError
| NameError | LookupError | ZeroDivisionError | UnboundLocalError
| FileNotFoundError | OverflowError.

(** Result of a call: a value or an uncaught exception. *)
Inductive res (A : Type) : Type :=
| Ok (a : A)
| Err (e : exn).
Arguments Ok {A} a.
Arguments Err {A} e.

Definition rbind {A B} (x : res A) (f : A -> res B) : res B :=
  match x with Ok a => f a | Err e => Err e end.
Definition rmap {A B} (f : A -> B) (x : res A) : res B :=
  match x with Ok a => Ok (f a) | Err e => Err e end.
Notation "'do' x <- e ; f" := (rbind e (fun x => f))
  (at level 200, x pattern, e at level 100, f at level 200, right associativity).

(** Floating point value.  [Fin r] is a finite float idealised as the real
    number [r]; [NonFin] is a result that is not a finite float: numpy's nan or
    inf (for plain Python floats: ZeroDivisionError, or a complex power).
    Rounding and overflow of finite results are not modelled. *)
Inductive num : Type :=
| Fin (r : R)
| NonFin.

Definition lift1 (f : R -> num) (x : num) : num :=
  match x with Fin a => f a | NonFin => NonFin end.
Definition lift2 (f : R -> R -> num) (x y : num) : num :=
  match x, y with Fin a, Fin b => f a b | _, _ => NonFin end.

Definition Rltb (a b : R) : bool := if Rlt_dec a b then true else false.
Definition Rleb (a b : R) : bool := if Rle_dec a b then true else false.
Definition Reqb (a b : R) : bool := if Req_EM_T a b then true else false.

Definition nadd := lift2 (fun a b => Fin (a + b)).
Definition nsub := lift2 (fun a b => Fin (a - b)).
Definition nmul := lift2 (fun a b => Fin (a * b)).
Definition ndiv := lift2 (fun a b => if Reqb b 0 then NonFin else Fin (a / b)).
Definition nopp := lift1 (fun a => Fin (- a)).
Definition nabs := lift1 (fun a => Fin (Rabs a)).
(** [x ** n] for a literal natural exponent *)
Definition npown (x : num) (n : nat) := lift1 (fun a => Fin (a ^ n)) x.
(** [x ** y] for a float exponent (numpy: nan for a negative base; for integral
    float exponents of negative bases see [npown]; not needed in the code). *)
Definition npow := lift2 (fun a b =>
  if Rltb 0 a then Fin (Rpower a b)
  else if Reqb a 0 then
    (if Rltb 0 b then Fin 0 else if Reqb b 0 then Fin 1 else NonFin)
  else NonFin).
(** numpy.sqrt *)
Definition nsqrt := lift1 (fun a => if Rltb a 0 then NonFin else Fin (sqrt a)).
Definition nexp := lift1 (fun a => Fin (exp a)).
Definition ncos := lift1 (fun a => Fin (cos a)).
Definition nsin := lift1 (fun a => Fin (sin a)).
Definition ntan := lift1 (fun a => if Reqb (cos a) 0 then NonFin else Fin (tan a)).
Definition natan := lift1 (fun a => Fin (atan a)).
(** comparisons: false as soon as one side is nan *)
Definition nltb (x y : num) : bool :=
  match x, y with Fin a, Fin b => Rltb a b | _, _ => false end.
Definition nleb (x y : num) : bool :=
  match x, y with Fin a, Fin b => Rleb a b | _, _ => false end.
Definition neqb (x y : num) : bool :=
  match x, y with Fin a, Fin b => Reqb a b | _, _ => false end.

(** math.sqrt of a Python/numpy scalar: ValueError for a negative argument *)
Definition msqrt (x : num) : res num :=
  match x with
  | Fin a => if Rltb a 0 then Err ValueError else Ok (Fin (sqrt a))
  | NonFin => Ok NonFin
  end.
(** math.log1p: ValueError for an argument <= -1 *)
Definition mlog1p (x : num) : res num :=
  match x with
  | Fin a => if Rleb a (-1) then Err ValueError else Ok (Fin (ln (1 + a)))
  | NonFin => Ok NonFin
  end.

Declare Scope num_scope.
Delimit Scope num_scope with num.
Bind Scope num_scope with num.
Notation "# x" := (Fin x%R) (at level 0, x at level 0, format "# x").
Infix "+" := nadd : num_scope.
Infix "-" := nsub : num_scope.
Infix "*" := nmul : num_scope.
Infix "/" := ndiv : num_scope.
Infix "^" := npown : num_scope.
Infix "**" := npow (at level 30, right associativity) : num_scope.
Notation "- x" := (nopp x) : num_scope.
Infix "<?" := nltb : num_scope.
Infix "<=?" := nleb : num_scope.

(** degrees to radians (numpy.deg2rad, math.radians) *)
Definition ndeg2rad (x : num) : num := (x * Fin (PI / 180))%num.
Definition nrad2deg (x : num) : num := (x * Fin (180 / PI))%num.

(** Run an effectful function over a list, left to right, stopping at the
    first exception (a Python loop or comprehension). *)
Fixpoint mapM {A B} (f : A -> res B) (l : list A) : res (list B) :=
  match l with
  | [] => Ok []
  | x :: r => do y <- f x; do ys <- mapM f r; Ok (y :: ys)
  end.

(** What a caller may pass where the documentation says "float or array":
    a Python number, a Python list, or a numpy array (one-dimensional). *)
Inductive val : Type :=
| VNum (x : num)
| VList (l : list num)
| VArr (l : list num).

(** numpy's elementwise binary operation on one-dimensional arrays with
    broadcasting: equal lengths, or one of the lengths is 1. *)
Definition broadcast (f : num -> num -> num) (a b : list num) : res (list num) :=
  if Nat.eqb (List.length a) (List.length b)
  then Ok (map (fun p => f (fst p) (snd p)) (combine a b))
  else match a, b with
       | [x], _ => Ok (map (f x) b)
       | _, [y] => Ok (map (fun x => f x y) a)
       | _, _ => Err ValueError
       end.
