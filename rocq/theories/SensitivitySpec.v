(** Specification vocabulary for the sensitivity analysis. *)
From Verif Require Import Base UnitsModel AtmosModel AtmosSpec ConceptModel MethodsModel SensitivityModel ConceptSpec.
Open Scope R_scope.
Open Scope string_scope.

(** the value of a list of results at wing loading number [i]; a list of one is constant *)
Definition at_loading (i : nat) (r : list num) (x : num) : Prop := r = [x] \/ nth_error r i = Some x.

(** the constraints that are analysed *)
Definition analysed : list (string * (requirement -> val)) :=
  [ ("climb", rq_climb); ("cruise", rq_cruise); ("servceil", rq_servceil);
    ("take-off", rq_takeoff); ("turn", rq_turn) ].

Definition part_of {A} (x : A * A * A) (i : chapter) : A :=
  match i with Brief => fst (fst x) | Design => snd (fst x) | Performance => snd x end.

Definition largest (l : list num) (hi : num) : Prop :=
  exists rs m, l = map Fin rs /\ hi = Fin m /\ In m rs /\ forall r, In r rs -> r <= m.
Definition smallest (l : list num) (lo : num) : Prop :=
  exists rs m, l = map Fin rs /\ lo = Fin m /\ In m rs /\ forall r, In r rs -> m <= r.

(** the nominal design with parameter [k] of dictionary [i] set to [x] *)
Definition set_parameter (nominal : dict pv * dict pv * dict pv) (i : chapter) (k : string) (x : num)
    : dict pv * dict pv * dict pv :=
  let put j := if match i, j with Brief, Brief | Design, Design | Performance, Performance => true | _, _ => false end
               then dset k (PScal (SNum x)) (part_of nominal j) else part_of nominal j in
  (put Brief, put Design, put Performance).
(** what is analysed: thrust to weight ratio, or power *)
Definition requirement_of (ext : externals) (c : concept) (ws : val) (mass_kg : num) (y : yvar) (req : requirement) : Prop :=
  match y with
  | Ytw => twrequired ext c ws true true = Ok req
  | Yhp => powerrequired ext c ws mass_kg true true = Ok req
  end.
(** [req] is the requirement of the nominal aircraft with parameter [k] set to [x] *)
Definition with_parameter (ext : externals) (self : constructed) (ws : val) (y : yvar) (i : chapter)
    (k : string) (x : num) (req : requirement) : Prop :=
  exists w ac, weight_n (obj self) = Some w /\
    rebuilt self (set_parameter (designstate self) i k x) = Ok ac /\
    requirement_of ext ac (VArr (elements ws)) (w / sc_g)%num y req.

(** parameter [k], a range of values in the design space, makes entry [sel] of the
    requirement vary between [a] and [b] *)
Definition varies (ext : externals) (self : constructed) (ws : val) (y : yvar) (k : string)
    (sel : requirement -> val) (a b : val) : Prop :=
  exists i l hi lo rh rl, In (k, PList l) (part_of (designspace self) i) /\ largest l hi /\ smallest l lo /\
    with_parameter ext self ws y i k hi rh /\ with_parameter ext self ws y i k lo rl /\
    a = sel rh /\ b = sel rl.

(** two results that differ, or are not both defined, at every wing loading *)
Definition differ_everywhere (a b : val) : Prop :=
  elements a <> [] /\ elements b <> [] /\
  forall i xa xb, at_loading i (elements a) xa -> at_loading i (elements b) xb -> ~ exists v, xa = Fin v /\ xb = Fin v.
(** [r] is the distance between them, wing loading by wing loading *)
Definition distance (x y z : num) : Prop :=
  (exists p q, x = Fin p /\ y = Fin q /\ z = Fin (Rabs (p - q))) \/ ((x = NonFin \/ y = NonFin) /\ z = NonFin).
Definition distances (a b : val) (r : list num) : Prop :=
  (forall i z, nth_error r i = Some z -> exists x y, at_loading i (elements a) x /\ at_loading i (elements b) y /\ distance x y z) /\
  (forall i x y, at_loading i (elements a) x -> at_loading i (elements b) y -> exists z, at_loading i r z /\ distance x y z).

(** [k] is recorded for constraint [cn], with ranges [r] *)
Definition reported (s : sens) (cn k : string) (r : list num) : Prop :=
  exists prime, binds (primes s) cn prime /\ In (k, r) prime.

(** all ranges of the design space are ranges of numbers *)
Definition numeric_space (self : constructed) : Prop :=
  forall i k l, In (k, PList l) (part_of (designspace self) i) -> exists rs, l = map Fin rs.

(** the parameters of the design space that are ranges *)
Definition ranges (self : constructed) : list string :=
  map fst (filter (fun kv => match snd kv with PList _ => true | _ => false end)
    (part_of (designspace self) Brief ++ part_of (designspace self) Design ++ part_of (designspace self) Performance)).

(** a concept with another engine *)
Definition with_engine (c : concept) (p : propulsion_t) : concept := {|
  climbalt_m := climbalt_m c; climbspeed_kias := climbspeed_kias c; climbrate_fpm := climbrate_fpm c;
  cruisealt_m := cruisealt_m c; cruisespeed_ktas := cruisespeed_ktas c; cruisethrustfact := cruisethrustfact c;
  servceil_m := servceil_m c; secclimbspd_kias := secclimbspd_kias c; vstallclean_kcas := vstallclean_kcas c;
  groundrun_m := groundrun_m c; rwyelevation_m := rwyelevation_m c; to_headwind_kts := to_headwind_kts c;
  to_slope_perc := to_slope_perc c; turnalt_m := turnalt_m c; turnspeed_ktas := turnspeed_ktas c;
  stloadfactor := stloadfactor c;
  aspectratio := aspectratio c; sweep_le_deg := sweep_le_deg c; sweep_25_deg := sweep_25_deg c;
  sweep_mt_deg := sweep_mt_deg c; roottaperratio := roottaperratio c; wingarea_m2 := wingarea_m2 c;
  wingheightratio := wingheightratio c;
  bpr := bpr c; spooluptime_s := spooluptime_s c; totalstaticthrust_n := totalstaticthrust_n c;
  throttle_r := throttle_r c; weight_n := weight_n c;
  climb_weight_fraction := climb_weight_fraction c; cruise_weight_fraction := cruise_weight_fraction c;
  sec_weight_fraction := sec_weight_fraction c; turn_weight_fraction := turn_weight_fraction c;
  runwayalpha_deg := runwayalpha_deg c; runwayalpha_max_deg := runwayalpha_max_deg c;
  CD0TO := CD0TO c; cdto := cdto c; cdminclean := cdminclean c; mu_r := mu_r c;
  CL0TO := CL0TO c; clto := clto c; clmaxclean := clmaxclean c; clminclean := clminclean c; clmaxto := clmaxto c;
  a_0i := a_0i c;
  etaprop_climb := etaprop_climb c; etaprop_cruise := etaprop_cruise c; etaprop_sec := etaprop_sec c;
  etaprop_to := etaprop_to c; etaprop_turn := etaprop_turn c;
  designatm := designatm c; propulsion := p |}.
