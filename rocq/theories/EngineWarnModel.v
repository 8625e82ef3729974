(** The warnings of the engine decks of ADRpy/propulsion.py.  The methods are those of
    PropulsionModel with the calls of warnings.warn written down: a computation gives the
    warnings issued before it ends, in order, and its outcome.  Of a text the parts that
    differ between the calls are kept.  The warnings of the demonstration plots are in
    DemoModel. *)
From Verif Require Import Base AtmosModel ConceptModel PropulsionModel.
Open Scope num_scope.

(** the calls of warnings.warn *)
Inductive engine_warning :=
| NoData (quantity deck_type : string) (** No ... available. Call local_data(...) *)
| UsesAnsatz                           (** The propeller_obj argument was not passed *)
| UnknownBest (best : string)          (** Not able to match user input *)
| MachTooHigh (limit : num)            (** limit of provided data is Mach ... *)
| MachTooLow (limit : num).

(** the warnings issued and the outcome *)
Definition noted (A : Type) : Type := (list engine_warning * res A)%type.
Definition silent {A} (r : res A) : noted A := ([], r).
Definition issue (w : engine_warning) : noted unit := ([w], Ok tt).
Definition nbind {A B} (m : noted A) (f : A -> noted B) : noted B :=
  match snd m with
  | Ok x => ((fst m ++ fst (f x))%list, snd (f x))
  | Err e => (fst m, Err e)
  end.
Notation "'note' x <- e ; f" := (nbind e (fun x => f))
  (at level 200, x name, e at level 100, f at level 200, right associativity).

Section Decks.
Variable grid : list num -> list num -> list num -> num -> num -> num.

(** [if self.data_available[..] is False: warnings.warn(...); return] and the look-up *)
Definition query_w (w : engine_warning) (t : option table) (x y : val) : noted (option val) :=
  match t with
  | None => note _ <- issue w; silent (Ok None)
  | Some t => silent (rmap Some (grid_table grid t x y))
  end.

(* propulsion.py:311-332 and alike; the warning comes after the propeller was sized *)
Definition prop_efficiency_w (mach altitude_m : list num) (prop_rpm : num) (prop : proparg)
    (power : option val) : noted (list num * val) :=
  note p <- match prop with
            | PropellerNone =>
                note p <- silent (ansatzprop blank_propeller mach altitude_m prop_rpm (averaged power));
                note _ <- issue UsesAnsatz; silent (Ok p)
            | PropellerObj p => silent (Ok p)
            | PropellerOther => silent (Err TypeError)
            end;
  note w <- silent (entries power);
  note e <- silent (efficiency p mach altitude_m w prop_rpm);
  note vs <- silent (vsound_mps (isa 0) (VArr altitude_m));
  note airspeed <- silent (vop2 nmul (VArr mach) vs);
  silent (Ok (snd e, airspeed)).

(** ** TurbopropDeck *)
(* propulsion.py:215-224 *)
Definition tp_hotthrust_w (d : turboprop) (mach altitude_m : val) :=
  query_w (NoData "Hot thrust data" "turboprop") (tp_thr d) mach altitude_m.
(* propulsion.py:245-254 *)
Definition tp_shaftpower_w (d : turboprop) (mach altitude_m : val) :=
  query_w (NoData "power data" "turboprop") (tp_pwr d) mach altitude_m.
(* propulsion.py:274-287 *)
Definition tp_bsfc_at_w (d : turboprop) (mach altitude_m : val) :=
  query_w (NoData "TSFC" "turboprop") (option_map drop_nan (tp_bsfc d)) mach altitude_m.
(* propulsion.py:289-335 *)
Definition tp_coldthrust_w (d : turboprop) (mach altitude_m : val) (prop_rpm : num) (prop : proparg)
    : noted val :=
  let mach := recastasnpfloatarray mach in
  let altitude_m := recastasnpfloatarray altitude_m in
  note power <- tp_shaftpower_w d (VArr mach) (VArr altitude_m);
  note ev <- prop_efficiency_w mach altitude_m prop_rpm prop power;
  silent (cold_thrust (fst ev) power (snd ev)).
(* propulsion.py:337-369 *)
Definition tp_thrust_w (d : turboprop) (mach altitude_m : val) (prop_rpm : num) (prop : proparg)
    : noted val :=
  let mach := VArr (recastasnpfloatarray mach) in
  let altitude_m := VArr (recastasnpfloatarray altitude_m) in
  note hot <- tp_hotthrust_w d mach altitude_m;
  note cold <- tp_coldthrust_w d mach altitude_m prop_rpm prop;
  note h <- silent (some_val hot);
  silent (vop2 nadd h cold).
(* propulsion.py:371-400 *)
Definition tp_sl_powercorr_w (d : turboprop) (mach altitude_m : val) : noted val :=
  note w <- tp_shaftpower_w d (VArr (recastasnpfloatarray mach)) (VArr (recastasnpfloatarray altitude_m));
  silent (normalised w (tp_pwr d)).
(* propulsion.py:402-456 *)
Definition tp_tsfc_w (d : turboprop) (mach altitude_m : val) (prop_rpm : num) (prop : proparg)
    : noted val :=
  let mach := recastasnpfloatarray mach in
  let altitude_m := recastasnpfloatarray altitude_m in
  note power <- tp_shaftpower_w d (VArr mach) (VArr altitude_m);
  note ev <- prop_efficiency_w mach altitude_m prop_rpm prop power;
  note b <- tp_bsfc_at_w d (VArr mach) (VArr altitude_m);
  silent (tsfc_of b (snd ev) (fst ev)).

(** ** PistonDeck *)
(* propulsion.py:635-645 *)
Definition pi_shaftpower_w (d : piston) (shaft_rpm altitude_m : val) :=
  query_w (NoData "power data" "piston") (pi_pwr d) shaft_rpm altitude_m.
(* propulsion.py:690-714 *)
Definition pi_bsfc_at_w (d : piston) (shaft_rpm shaftpower_w : val) (best : string)
    : noted (option val) :=
  if String.eqb best "economy" then
    query_w (NoData "BSFC for best economy condition" "piston") (pi_bsfc d) shaft_rpm shaftpower_w
  else if String.eqb best "power" then
    query_w (NoData "BSFC for best power condition" "piston") (pi_bsfc_pwr d) shaft_rpm shaftpower_w
  else note _ <- issue (UnknownBest best); silent (Ok None).
(* propulsion.py:716-763 *)
Definition pi_thrust_w (d : piston) (mach altitude_m : val) (prop_rpm : num) (prop : proparg) : noted val :=
  let mach := recastasnpfloatarray mach in
  let altitude_m := recastasnpfloatarray altitude_m in
  note power <- pi_shaftpower_w d (VNum prop_rpm) (VArr altitude_m);
  note ev <- prop_efficiency_w mach altitude_m prop_rpm prop power;
  silent (cold_thrust (fst ev) power (snd ev)).
(* propulsion.py:765-794 *)
Definition pi_sl_powercorr_w (d : piston) (shaft_rpm altitude_m : val) : noted val :=
  note w <- pi_shaftpower_w d (VArr (recastasnpfloatarray shaft_rpm)) (VArr (recastasnpfloatarray altitude_m));
  silent (normalised w (pi_pwr d)).
(* propulsion.py:796-857 *)
Definition pi_tsfc_w (d : piston) (mach altitude_m : val) (prop_rpm : num) (prop : proparg)
    (best : string) : noted val :=
  let mach := recastasnpfloatarray mach in
  let altitude_m := recastasnpfloatarray altitude_m in
  note power <- pi_shaftpower_w d (VArr mach) (VArr altitude_m);
  note ev <- prop_efficiency_w mach altitude_m prop_rpm prop power;
  note w <- silent (some_val power);
  note b <- pi_bsfc_at_w d (VNum prop_rpm) w best;
  silent (tsfc_of b (snd ev) (fst ev)).

(** ** ElectricDeck *)
(* propulsion.py:1021-1030 *)
Definition el_efficiency_w (d : option electric_data) (shaft_rpm torque_nm : val) : noted (option val) :=
  query_w (NoData "efficiency data" "electric") (option_map el_tab d) shaft_rpm torque_nm.
(* propulsion.py:1032-1055 *)
Definition el_bsec_w (d : option electric_data) (shaft_rpm torque_nm : val) : noted val :=
  note e <- el_efficiency_w d shaft_rpm torque_nm;
  note e <- silent (some_val e); silent (vlit (fun x => #1 / x) (toarr e)).
(* propulsion.py:1084-1134 *)
Definition el_thrust_w (shaftpower_w mach altitude_m : val) (prop_rpm : num) (prop : proparg) : noted val :=
  let power := Some (VArr (recastasnpfloatarray shaftpower_w)) in
  note ev <- prop_efficiency_w (recastasnpfloatarray mach) (recastasnpfloatarray altitude_m) prop_rpm prop power;
  silent (cold_thrust (fst ev) power (snd ev)).

(** ** JetDeck *)
(* propulsion.py:1250-1259 *)
Definition jt_thrust_w (d : jet) (mach altitude_m : val) :=
  query_w (NoData "Thrust data" "jet") (jt_thr d) mach altitude_m.
(* propulsion.py:1324-1336 *)
Definition jt_tsfc_at_w (d : jet) (mach thrust_n : val) :=
  query_w (NoData "TSFC" "jet") (option_map drop_nan (jt_tsfc d)) mach thrust_n.
(* propulsion.py:1261-1289 *)
Definition jt_sl_thrustcorr_w (d : jet) (mach altitude_m : val) : noted val :=
  note t <- jt_thrust_w d mach altitude_m;
  silent (normalised t (jt_thr d)).
End Decks.

(* propulsion.py:1866-1902 _poly, with the limits named in the texts *)
Definition poly_query_w (x : num) (p : poly) (limits : list num) (low_warn high_warn : num)
    : noted (option num) :=
  note hi <- silent (index limits 1);
  if hi <? x then note _ <- issue (MachTooHigh high_warn); silent (Ok None)
  else note lo <- silent (index limits 0);
       if x <? lo then note _ <- issue (MachTooLow low_warn); silent (Ok None)
       else silent (Ok (Some (polyval p x))).
(* propulsion.py:1362-1375 JetDeck.sl_thrust, 1402-1415 JetDeck.sl_take_off_thrust *)
Definition poly_deck_w (w : engine_warning) (d : option (poly * list num)) (mach : num)
    : noted (option num) :=
  match d with
  | None => note _ <- issue w; silent (Ok None)
  | Some (p, limits) =>
      note high <- silent (last_index limits); note low <- silent (index limits 0);
      poly_query_w mach p limits low high
  end.
Definition jet_sl_thrust_w (d : jet) (mach : num) : noted (option num) :=
  poly_deck_w (NoData "sea level thrust data" "jet") (jt_sl d) mach.
Definition jet_sl_take_off_thrust_w (d : jet) (mach : num) : noted (option num) :=
  poly_deck_w (NoData "sea level take off thrust data" "jet") (jt_to d) mach.
