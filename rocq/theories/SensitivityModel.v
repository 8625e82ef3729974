(** ADRpy/constraintanalysis.py, propulsionsensitivity_monothetic (lines 1835-2301): the
    numbers behind the plots.  Axes, labels and masks are in SensitivityPlotModel.v.  Not
    modelled: argument checks that only warn (1949-1987), colours other than their number
    and the plotting itself. *)
From Verif Require Import Base UnitsModel AtmosModel ConceptModel MethodsModel.
Open Scope string_scope.

(** the y_var argument; anything else counts as 'tw' (1949-1953) *)
Inductive yvar := Ytw | Yhp.

(* constraintanalysis.py:2023-2028 y_function *)
Definition y_function (ext : externals) (c : concept) (ws : val) (mass_kg : num) (y : yvar)
    : res requirement :=
  match y with
  | Yhp => powerrequired ext c ws mass_kg true true
  | Ytw => twrequired ext c ws true true
  end.

(** Python's max(l) and min(l): the first extreme element *)
Definition pymaxn (l : list num) : res num :=
  match l with [] => Err ValueError | x :: r => Ok (fold_left (fun m y => if m <? y then y else m)%num r x) end.
Definition pyminn (l : list num) : res num :=
  match l with [] => Err ValueError | x :: r => Ok (fold_left (fun m y => if y <? m then y else m)%num r x) end.

(* constraintanalysis.py:2079-2080: self.propulsion as an argument of the constructor.
   False is an object that is neither iterable nor None. *)
Definition repackaged (p : propulsion_t) : proparg :=
  match p with
  | PropFalse => ArgObject PropOther
  | PropStr s => ArgStr s
  | e => ArgTuple [e; PropOther]
  end.

(** which of the three dictionaries *)
Inductive chapter := Brief | Design | Performance.
(* constraintanalysis.py:2067-2071: temp_designstate[dictionary_i][dp_k] = x *)
Definition amended (st : dict pv * dict pv * dict pv) (i : chapter) (k : string) (x : num)
    : dict pv * dict pv * dict pv :=
  let '(b, d, p) := st in
  match i with
  | Brief => (dset k (PScal (SNum x)) b, d, p)
  | Design => (b, dset k (PScal (SNum x)) d, p)
  | Performance => (b, d, dset k (PScal (SNum x)) p)
  end.
(* constraintanalysis.py:2079-2080, 2096: AircraftConcept(brief, design, performance,
   designatmosphere, self.propulsion) *)
Definition rebuilt (self : constructed) (st : dict pv * dict pv * dict pv) : res concept :=
  let '(b, d, p) := st in
  rmap obj (construct b d p (designatm (obj self)) (parse_propulsion (repackaged (propulsion (obj self))))).

(* constraintanalysis.py:2019 sensitivityplots_list, with the entry each name selects *)
Definition sensitivityplots_list : list (string * (requirement -> val)) :=
  [ ("climb", rq_climb); ("cruise", rq_cruise); ("servceil", rq_servceil);
    ("take-off", rq_takeoff); ("turn", rq_turn) ].

(* constraintanalysis.py:2086: abs(max - min).  The requirement for a single wing
   loading is a number, on which line 2088 (.all(), len()) raises. *)
Definition reqrange (a b : val) : res (list num) :=
  do d <- vop2 nsub a b;
  match d with
  | VArr l => Ok (map (fun x => match x with Fin r => Fin (Rabs r) | NonFin => NonFin end) l)
  | _ => Err TypeError
  end.
(** bool of an element, in numpy's all(): nan and infinities are true *)
Definition truthy (x : num) : bool := match x with Fin r => negb (Reqb r 0) | NonFin => true end.
(* constraintanalysis.py:2088: range.all() != np.zeros(len(range)).all() *)
Definition recorded (r : list num) : bool :=
  negb (Bool.eqb (forallb truthy r) (forallb truthy (map (fun _ => #0) r))).

(** propulsionreqprime and the keys of clr_dict in order of insertion *)
Record sens := { primes : dict (dict (list num)); colours : list string }.
(* constraintanalysis.py:2020, 2010 *)
Definition sens0 : sens :=
  {| primes := map (fun cn => (fst cn, [])) sensitivityplots_list; colours := [] |}.
(* constraintanalysis.py:2006-2009: len(clr_list) *)
Definition ncolours : nat := 24.

(* constraintanalysis.py:2085-2092, one constraint *)
Definition record1 (k : string) (mx mn : requirement) (st : sens) (cn : string * (requirement -> val))
    : res sens :=
  do r <- reqrange (snd cn mx) (snd cn mn);
  if recorded r then
    do p <- dindex (primes st) (fst cn);
    let primes' := dset (fst cn) (dset k r p) (primes st) in
    if existsb (String.eqb k) (colours st)
    then Ok {| primes := primes'; colours := colours st |}
    else if Nat.ltb (List.length (colours st)) ncolours
    then Ok {| primes := primes'; colours := (colours st ++ [k])%list |}
    else Err IndexError
  else Ok st.

Fixpoint foldM {A B} (f : A -> B -> res A) (l : list B) (a : A) : res A :=
  match l with [] => Ok a | x :: r => do a' <- f a x; foldM f r a' end.

(* constraintanalysis.py:2061-2092: one entry of one dictionary of the design space *)
Definition vary1 (ext : externals) (self : constructed) (ws : val) (mass_kg : num) (y : yvar)
    (i : chapter) (st : sens) (kv : string * pv) : res sens :=
  match snd kv with
  | PList l =>
      do hi <- pymaxn l;
      do lo <- pyminn l;
      do acmax <- rebuilt self (amended (designstate self) i (fst kv) hi);
      do acmin <- rebuilt self (amended (designstate self) i (fst kv) lo);
      do rmax <- y_function ext acmax ws mass_kg y;
      do rmin <- y_function ext acmin ws mass_kg y;
      foldM (record1 (fst kv) rmax rmin) sensitivityplots_list st
  | _ => Ok st
  end.

(* constraintanalysis.py:1989-2097: the recorded ranges and the requirement of the
   nominal design *)
Definition sensitivity (ext : externals) (self : constructed) (wingloading_pa : val) (y : yvar)
    : res (sens * requirement) :=
  do w <- required (weight_n (obj self));
  let ws := VArr (recastasnpfloatarray wingloading_pa) in
  let mass_kg := (w / sc_g)%num in
  let '(b, d, p) := designspace self in
  do s1 <- foldM (vary1 ext self ws mass_kg y Brief) b sens0;
  do s2 <- foldM (vary1 ext self ws mass_kg y Design) d s1;
  do s3 <- foldM (vary1 ext self ws mass_kg y Performance) p s2;
  do acmed <- rebuilt self (designstate self);
  do med <- y_function ext acmed ws mass_kg y;
  Ok (s3, med).

(** acc += v, in place *)
Definition addinto (acc v : list num) : res (list num) :=
  if Nat.eqb (List.length acc) (List.length v)
  then Ok (map (fun q => fst q + snd q)%num (combine acc v))
  else match v with [x] => Ok (map (fun a => a + x)%num acc) | _ => Err ValueError end.
(* constraintanalysis.py:2138-2166: primesum and stackplot of one constraint, for n wing
   loadings *)
Definition shares (n : nat) (prime : dict (list num)) : res (dict (list num)) :=
  do sum <- foldM (fun acc kv => addinto acc (snd kv)) prime (repeat #0 n);
  do stack <- mapM (fun kv => do q <- broadcast ndiv (snd kv) sum; Ok (fst kv, q)) prime;
  match stack with
  | [] => Ok [("N/A", repeat #0 n)]
  | _ => Ok stack
  end.
