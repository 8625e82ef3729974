(** The propulsion argument of AircraftConcept and the engine decks behind it.  In
    ConceptModel and MethodsModel the sea level corrections of a deck are functions; here
    they are the methods of the decks of PropulsionModel. *)
From Verif Require Import Base AtmosModel ConceptModel MethodsModel PropulsionModel DemoModel.
Open Scope num_scope.

(** the objects of propulsion.py that _propulsion_slcorr tells apart, and any other *)
Inductive engine :=
| OfTurboprop (d : turboprop)
| OfPiston (d : piston)
| OfElectric (d : option electric_data)
| OfJet (d : jet)
| OfOther.

(** the argument propulsion: nothing, text, a tuple, or another object, for which [iterates]
    says whether iter(object) succeeds *)
Inductive argument :=
| ArgNothing
| ArgText (s : string)
| ArgTuple (l : list engine)
| ArgObject (iterates : bool) (e : engine).

(* mtools4acdc.py:281-288 iterable: None is not; no exception leaves it *)
Definition iterable (a : argument) : bool :=
  match a with
  | ArgNothing => false
  | ArgText _ => true
  | ArgTuple _ => true
  | ArgObject iterates _ => iterates
  end.

(** self.propulsion: False, text or a pair *)
Inductive stored :=
| SFalse
| SText (s : string)
| SPair (engine_obj propeller : engine).

(* constraintanalysis.py:266-277 *)
Definition stored_propulsion (a : argument) : stored :=
  if iterable a then
    match a with
    | ArgTuple [e; p] => SPair e p
    | ArgText s => SText s
    | _ => SFalse
    end
  else
    match a with
    | ArgNothing => SFalse
    | ArgObject _ e => SPair e OfOther
    | _ => SFalse
    end.

(** numpy.arange(lo, hi) of reals: lo, lo + 1, ... below hi; a bound that is not a number
    raises ValueError *)
Definition arange (lo hi : num) : res (list R) :=
  match lo, hi with
  | Fin lo, Fin hi =>
      Ok (map (fun k => (lo + INR k)%R) (seq 0 (Z.to_nat (- Int_part (- (hi - lo))%R))))
  | _, _ => Err ValueError
  end.

Section Decks.
Variable grid : list num -> list num -> list num -> num -> num -> num.

(* constraintanalysis.py:1063-1065, 1107-1130: the branch for a tuple *)
Definition deck_slcorr (e : engine) (atm : atmosphere) (airspeed_mpstas : val) (altitude_m : num)
    : res (val * val) :=
  do mach <- mach atm airspeed_mpstas (VNum altitude_m);
  let tcorr := VArr (map (fun _ => #1) (recastasnpfloatarray mach)) in
  let pcorr := tcorr in
  match e with
  | OfTurboprop d => do pcorr <- tp_sl_powercorr grid d mach (VNum altitude_m); Ok (tcorr, pcorr)
  | OfPiston d =>
      do pwr <- match pi_pwr d with Some t => Ok t | None => Err AttributeError end;
      do minrpm <- pyminn (tx pwr); do maxrpm <- pymaxn (tx pwr);
      do speed_rpm_array <- arange minrpm maxrpm;
      do _ <- pi_shaftpower grid d (VArr (map Fin speed_rpm_array)) (VNum altitude_m);
      do fastest <- pymax speed_rpm_array;
      let bestpwrspeed_rpm := filter (fun r => Reqb r fastest) speed_rpm_array in
      do pcorr <- pi_sl_powercorr grid d (VArr (map Fin bestpwrspeed_rpm)) (VNum altitude_m);
      Ok (tcorr, pcorr)
  | OfElectric _ => Ok (VNum #1, VNum #1)
  | OfJet d => do tcorr <- jt_sl_thrustcorr grid d mach (VNum altitude_m); Ok (tcorr, pcorr)
  | OfOther => Ok (tcorr, pcorr)
  end.
End Decks.

(* constraintanalysis.py:258-508, 1035-1142: the corrections of a concept constructed with
   the argument [a]; text and False are those of MethodsModel *)
Definition slcorr_of (grid : list num -> list num -> list num -> num -> num -> num) (ext : externals)
    (brief design performance : dict pv) (atm : atmosphere) (a : argument)
    (airspeed_mpstas : val) (altitude_m : num) : res (val * val) :=
  match stored_propulsion a with
  | SFalse => do o <- construct brief design performance atm PropFalse;
              propulsion_slcorr ext (obj o) airspeed_mpstas altitude_m
  | SText t => do o <- construct brief design performance atm (PropStr t);
               propulsion_slcorr ext (obj o) airspeed_mpstas altitude_m
  | SPair e _ => do o <- construct brief design performance atm PropOther;
                 deck_slcorr grid e (designatm (obj o)) airspeed_mpstas altitude_m
  end.
