(** Specification vocabulary for aircraft concepts: which attribute belongs to which
    dictionary entry, and the defaults documented in the class docstring
    (constraintanalysis.py:40-256) or in the comments beside them. *)
From Verif Require Import Base AtmosModel ConceptModel.
Open Scope R_scope.
Open Scope string_scope.

(** entry, attribute, documented default (None: no default, "not specified") *)
Definition entry := (string * (concept -> param) * option R)%type.
Definition brief_entries : list entry :=
  [ ("climbalt_m", climbalt_m, Some 0); ("climbspeed_kias", climbspeed_kias, None);
    ("climbrate_fpm", climbrate_fpm, None); ("cruisealt_m", cruisealt_m, None);
    ("cruisespeed_ktas", cruisespeed_ktas, None); ("cruisethrustfact", cruisethrustfact, Some 1);
    ("servceil_m", servceil_m, None); ("secclimbspd_kias", secclimbspd_kias, None);
    ("vstallclean_kcas", vstallclean_kcas, None); ("groundrun_m", groundrun_m, None);
    ("rwyelevation_m", rwyelevation_m, Some 0); ("to_headwind_kts", to_headwind_kts, Some 0);
    ("to_slope_perc", to_slope_perc, Some 0); ("turnalt_m", turnalt_m, Some 0);
    ("turnspeed_ktas", turnspeed_ktas, None); ("stloadfactor", stloadfactor, None) ].
(** the sweep angles and the taper ratio have derived defaults and are not here *)
Definition design_entries : list entry :=
  [ ("aspectratio", aspectratio, Some 8); ("wingarea_m2", wingarea_m2, None);
    ("wingheightratio", wingheightratio, Some 100); ("bpr", bpr, Some (-1));
    ("spooluptime_s", spooluptime_s, Some 5); ("totalstaticthrust_n", totalstaticthrust_n, None);
    ("tr", throttle_r, Some 1.07); ("weight_n", weight_n, None);
    ("runwayalpha_deg", runwayalpha_deg, Some 0); ("runwayalpha_max_deg", runwayalpha_max_deg, None) ].
Definition shape_entries : list (string * (concept -> param)) :=
  [ ("sweep_le_deg", sweep_le_deg); ("sweep_mt_deg", sweep_mt_deg);
    ("sweep_25_deg", sweep_25_deg); ("roottaperratio", roottaperratio) ].
Definition performance_entries : list entry :=
  [ ("CD0TO", CD0TO, None); ("CDTO", cdto, Some 0.09); ("CDminclean", cdminclean, Some 0.03);
    ("mu_R", mu_r, Some 0.03); ("CL0TO", CL0TO, None); ("CLTO", clto, Some 0.95);
    ("CLmaxTO", clmaxto, Some 1.5); ("CLmaxclean", clmaxclean, None);
    ("CLminclean", clminclean, None); ("CLslope", a_0i, Some (2 * PI)) ].
(** entries of the sub-dictionaries *)
Definition fraction_entries : list entry :=
  [ ("climb", climb_weight_fraction, Some 1); ("cruise", cruise_weight_fraction, Some 1);
    ("servceil", sec_weight_fraction, Some 1); ("turn", turn_weight_fraction, Some 1) ].
Definition eta_entries : list entry :=
  [ ("climb", etaprop_climb, Some 0.75); ("cruise", etaprop_cruise, Some 0.85);
    ("servceil", etaprop_sec, Some 0.65); ("take-off", etaprop_to, Some 0.45);
    ("turn", etaprop_turn, Some 0.85) ].

(** the user's binding of a key *)
Definition binds {V} (d : list (string * V)) (k : string) (v : V) : Prop :=
  exists l r, d = (l ++ (k, v) :: r)%list /\ ~ In k (map fst l).
Definition unbound {V} (d : list (string * V)) (k : string) : Prop := ~ In k (map fst d).

Definition arith_mean (rs : list R) : R := fold_right Rplus 0 rs / INR (List.length rs).

(** the attribute that stands for a user's value *)
Inductive stored : pv -> param -> Prop :=
| st_false : stored (PScal (SBool false)) None
| st_true : stored (PScal (SBool true)) (Some (Fin 1))
| st_num : forall x, stored (PScal (SNum x)) (Some x)
| st_list : forall rs, rs <> [] -> stored (PList (map Fin rs)) (Some (Fin (arith_mean rs))).

(** Dictionaries a caller may reasonably pass: numbers or non-empty lists of
    numbers for the plain entries, dictionaries for the two others. *)
Definition finite_value (v : pv) : Prop :=
  match v with
  | PScal (SNum x) => exists r, x = Fin r
  | PScal (SBool _) => True
  | PList l => exists rs, rs <> [] /\ l = map Fin rs
  | PDict _ => False
  end.
Definition plain_entries (keys : list string) (d : dict pv) : Prop :=
  forall k v, In k keys -> binds d k v -> finite_value v.
Definition names {A B} (l : list (string * A * B)) : list string := map (fun e => fst (fst e)) l.
Definition wellformed (b d p : dict pv) : Prop :=
  plain_entries (names brief_entries) b /\
  plain_entries (names design_entries ++ map fst shape_entries) d /\
  plain_entries (names performance_entries) p /\
  (forall v, binds d "weightfractions" v -> exists e, v = PDict e) /\
  (forall v, binds p "etaprop" v -> exists e, v = PDict e /\
     forall k, In (k, SBool false) e -> In k (names eta_entries)) /\
  (* sweep ranges need an explicit quarter-chord sweep, see C25 *)
  ((forall v, binds d "sweep_25_deg" v -> v = PScal (SBool false)) ->
   forall k l, In k ["sweep_le_deg"; "sweep_mt_deg"] -> ~ binds d k (PList l)).

(** an entry left out, or explicitly flagged with False *)
Definition unspecified (d : dict pv) (k : string) : Prop :=
  unbound d k \/ binds d k (PScal (SBool false)).

(** [construct] reduced to the object, or the error *)
Definition concept_of (r : res constructed) : res concept :=
  match r with Ok c => Ok (obj c) | Err e => Err e end.

(** Python dictionaries never bind a key twice *)
Definition pydict {V} (d : list (string * V)) : Prop := NoDup (map fst d).

(** A history of constructions over a pool of dictionaries: each step builds a concept
    from the pool's current i-th brief, j-th design and k-th performance dictionary,
    which the constructor may modify in place. *)
Definition pool := nat -> dict pv.
Definition put (P : pool) (i : nat) (d : dict pv) : pool := fun j => if Nat.eqb i j then d else P j.
Definition pools := (pool * pool * pool)%type.
Record made := { ib : nat; jd : nat; kp : nat; m_atm : atmosphere; m_prop : propulsion_t; m_obj : concept }.
Inductive history : pools -> list made -> Prop :=
| h_nil : forall S, history S []
| h_step : forall B D P i j k atm prop c b' d' p' rest,
    construct (B i) (D j) (P k) atm prop = Ok c -> callers c = (b', d', p') ->
    history (put B i b', put D j d', put P k p') rest ->
    history (B, D, P) ({| ib := i; jd := j; kp := k; m_atm := atm; m_prop := prop; m_obj := obj c |} :: rest).

(** attribute [q] is right for entry [k] of the user's dictionary [d] *)
Definition default_param (r : option R) : param := option_map Fin r.
Definition holds (d : dict pv) (k : string) (r : option R) (q : param) : Prop :=
  (unbound d k -> q = default_param r) /\
  (forall v, binds d k v -> finite_value v -> stored v q).
(** the same for entry [k] of the sub-dictionary [key] *)
Definition subholds (d : dict pv) (key k : string) (r : option R) (q : param) : Prop :=
  (unbound d key -> q = default_param r) /\
  (forall e, binds d key (PDict e) -> pydict e ->
     (unbound e k -> q = default_param r) /\
     (forall s, binds e k s -> s <> SBool false -> stored (PScal s) q)).
