(** Independent specifications for the V-n diagram. *)
From Verif Require Import Base UnitsModel AtmosModel AtmosSpec ConceptModel MethodsModel MethodsSpec
  ConstraintSpec AirworthinessModel AirworthinessSpec EnvelopePlotModel.
Open Scope R_scope.

(** derived gust velocity and design airspeed of the gusts of a category: VB in the
    commuter category only, VC, VD *)
Definition gusts_of (c : cat) (f : flight) (vb vc vd : R) : list (R * R) :=
  match c with
  | Comm => [(gust_b f, vb); (gust_c f, vc); (gust_d f, vd)]
  | _ => [(gust_c f, vc); (gust_d f, vd)]
  end.
(** load factor in the gust [u] at [v] knots, upward or downward *)
Definition gust_factor (f : flight) (upward : bool) (u v : R) : R :=
  if upward then 1 + coded_increment f u v else 1 - coded_increment f u v.
(** both directions of every gust *)
Definition gust_rays (l : list (R * R)) : list (R * R * bool) :=
  flat_map (fun uv => [(fst uv, snd uv, true); (fst uv, snd uv, false)]) l.
(** the airspeed at which the stall line meets the strongest gust of the category *)
Definition rough_speed (c : cat) (f : flight) (vb : R) : Prop :=
  0 < vb /\ nearly (stall_line f (f_clmax f) vb) (1 + coded_increment f (rough_gust c f) vb).
(** cruise speed used for design *)
Definition design_cruise (c : cat) (f : flight) : R := Rmax (f_vc f) (vc_minimum c f).
(** [y] is a multiple of 10^-dp nearest to [x] *)
Definition rounds (dp : nat) (x y : R) : Prop :=
  exists k : Z, y = IZR k / 10 ^ dp /\ Rabs (y - x) <= / 2 / 10 ^ dp.
(** show arguments that ask for a drawing, and for one without notes *)
Definition wanted (s : vnshow) : Prop := s <> VnFalse /\ s <> VnList [].
Definition without_notes (s : vnshow) : Prop := exists l, s = VnList l /\ In "reducedannotations"%string l.
(** everything that has a place in the diagram, other than the gust lines *)
Definition drawn (d : diagram) (p : point) : Prop :=
  In p (dg_envelope d) \/ In p (dg_manoeuvre d) \/ exists m, In m (dg_markers d) /\ mk_at m = p.
