(** Property C88: the V-n diagram drawn by flightenvelope (airworthiness.py:503-890). *)
From Verif Require Import Base UnitsModel AtmosModel ConceptModel MethodsModel MethodsSpec MethodsExamples ConstraintSpec
  AirworthinessModel AirworthinessSpec EnvelopePlotModel EnvelopePlotSpec EnvelopePlotProofs EnvelopePlotProofs2 EnvelopePlotProofs3.
Open Scope R_scope.

(** the points returned do not depend on the drawing; there is one unless show is False or empty *)
Theorem C88_returned : forall ext s f, describes ext s f -> forall c vd, category s = CStr (names c) -> dive s c f vd ->
  forall t figs sh, exists e w dg, flightenvelope ext s = Ok e /\
    vndiagram ext s t figs sh = Ok (w, dg, poi e) /\ (dg <> None <-> wanted sh).
Proof. exact returned. Qed.
Print Assumptions C88_returned.
Theorem C88_errors : forall ext s t figs sh x, flightenvelope ext s = Err x -> vndiagram ext s t figs sh = Err x.
Proof. exact envelope_error. Qed.
Print Assumptions C88_errors.

(** the gust lines start at load factor 1 at rest, are the lines of the gust load factors,
    and one of them is in the legend *)
Theorem C88_gust_lines : forall ext s f, describes ext s f -> forall c vd, category s = CStr (names c) -> dive s c f vd ->
  forall t figs sh w d ps, vndiagram ext s t figs sh = Ok (w, Some d, ps) ->
  exists vb, rough_speed c f vb /\ (forall p, dget "B" ps = Some p -> fst p = Fin vb) /\
    Forall2 (fun r g => let '(u, v, b) := r in gl_from g = (#0, #1) /\ exists y, gl_to g = (Fin (5 * v), Fin y) /\
      forall x, 1 + (y - 1) * (x / (5 * v)) = gust_factor f b u x)
      (gust_rays (gusts_of c f vb (design_cruise c f) vd)) (dg_gustlines d) /\
    map gl_label (dg_gustlines d) = Some "Gust Lines"%string :: repeat None (List.length (dg_gustlines d) - 1).
Proof. exact gust_lines_drawn. Qed.
Print Assumptions C88_gust_lines.
(** one note for each gust, on its upward line, with the gust speed to two decimals *)
Theorem C88_notes : forall ext s f, describes ext s f -> forall c vd, category s = CStr (names c) -> dive s c f vd ->
  forall t figs sh w d ps, vndiagram ext s t figs sh = Ok (w, Some d, ps) ->
  exists vb, rough_speed c f vb /\ (forall p, dget "B" ps = Some p -> fst p = Fin vb) /\
    (without_notes sh -> dg_notes d = []) /\
    (~ without_notes sh ->
      Forall2 (fun uv n => gn_at n = (Fin (0.15 * snd uv), Fin (gust_factor f true (fst uv) (0.15 * snd uv))) /\
          exists u, gn_shown n = Fin u /\ rounds 2 (fst uv) u /\ fst (gn_offset n) = Fin (15.24 - u))
        (gusts_of c f vb (design_cruise c f) vd) (dg_notes d) /\
      map (fun n => snd (gn_offset n)) (dg_notes d) =
        map (fun k => Fin (Rpower (150 - 60 * INR k) 0.93)) (seq 0 (List.length (dg_notes d)))).
Proof. exact notes_drawn. Qed.
Print Assumptions C88_notes.
(** the two lines consist of the pieces in order; both are closed *)
Theorem C88_lines : forall ext s f, describes ext s f -> forall c vd, category s = CStr (names c) -> dive s c f vd ->
  forall t figs sh w d ps, vndiagram ext s t figs sh = Ok (w, Some d, ps) ->
  exists e os sc cd pe ef fs iso oa md me mf go vs,
    flightenvelope ext s = Ok e /\
    dget "OS" (outline e) = Some os /\ dget "SC" (outline e) = Some sc /\ dget "CD" (outline e) = Some cd /\
    dget "E" (outline e) = Some pe /\ dget "EF" (outline e) = Some ef /\ dget "FS" (outline e) = Some fs /\
    dget "iSO" (outline e) = Some iso /\
    dg_envelope d = (os ++ sc ++ cd ++ pe ++ ef ++ fs ++ iso)%list /\
    dget "OA" (manoeuvre_outline e) = Some oa /\ dget "D" (manoeuvre_outline e) = Some md /\
    dget "E" (manoeuvre_outline e) = Some me /\ dget "F" (manoeuvre_outline e) = Some mf /\
    dget "GO" (manoeuvre_outline e) = Some go /\
    dg_manoeuvre d = (oa ++ md ++ me ++ mf ++ go)%list /\
    vs_keas s (weightfraction s) = Ok (Fin vs) /\
    starts (dg_envelope d) (Fin vs, #0) /\ ends (dg_envelope d) (Fin vs, #0) /\
    starts (dg_manoeuvre d) (#0, #0) /\ ends (dg_manoeuvre d) (#0, #0).
Proof. exact lines_drawn. Qed.
Print Assumptions C88_lines.
(** one marker for each returned point, green above and red on or below the axis *)
Theorem C88_markers : forall ext s f, describes ext s f -> forall c vd, category s = CStr (names c) -> dive s c f vd ->
  forall t figs sh w d ps, vndiagram ext s t figs sh = Ok (w, Some d, ps) ->
  exists vb, rough_speed c f vb /\ (forall p, dget "B" ps = Some p -> fst p = Fin vb) /\
    Forall2 (fun kv m => mk_name m = fst kv /\ mk_at m = snd kv /\ exists v n v' n', snd kv = (Fin v, Fin n) /\
        mk_legend m = (Fin v', Fin n') /\ rounds 1 v v' /\ rounds 2 n n' /\
        mk_colour m = (if Rlt_dec 0 n then "green" else "red")%string /\
        forall T, t = Some (Fin T) \/ t = None /\ T = 10 -> mk_offset m =
          (if Rlt_dec (match c with
                       | Comm => if Rlt_dec (gust_factor f true (gust_b f) vb) (gust_factor f true (gust_c f) (design_cruise c f))
                                 then design_cruise c f else vb
                       | _ => vb end) v then Fin (T / 2) else Fin (- T),
           if Rlt_dec 0 n then Fin (T / 10) else Fin (- T)))
      ps (dg_markers d).
Proof. exact markers_drawn. Qed.
Print Assumptions C88_markers.
Theorem C88_presentation : forall ext s f, describes ext s f -> forall c vd, category s = CStr (names c) -> dive s c f vd ->
  forall t figs sh w d ps, vndiagram ext s t figs sh = Ok (w, Some d, ps) ->
  dg_figsize d = (match figs with Some [x; y] => [x; y] | _ => [#12; #7.5] end) /\
  dg_title d = ("EASA CS-23 Amendment 4 - Flight Envelope (" ++
    match c with Norm => "Normal" | Util => "Utility" | Comm => "Commuter" | Aero => "Aerobatic" end ++ " Category)")%string /\
  forall T, t = Some (Fin T) \/ t = None /\ T = 10 -> dg_fonts d = (Fin (1.2 * T), Fin (1.05 * T), Fin T, Fin (0.9 * T)).
Proof. exact presentation. Qed.
Print Assumptions C88_presentation.

(** all load factors drawn are within the limits of the vertical axis, for every aircraft;
    the airspeeds are within those of the horizontal axis if VS, inverted VS, VA and
    inverted VA are.  Missing: without that, see below. *)
Theorem C88_frame_partial : forall ext s f, describes ext s f -> forall c vd, category s = CStr (names c) -> dive s c f vd ->
  forall t figs sh w d ps, vndiagram ext s t figs sh = Ok (w, Some d, ps) ->
  exists x1 y0 y1, dg_xlim d = (#0, Fin x1) /\ x1 = 1.1 * vd /\ dg_ylim d = (Fin y0, Fin y1) /\ y0 < 0 < y1 /\
    (forall p, drawn d p -> exists v n, p = (Fin v, Fin n) /\ 0 <= v /\ y0 <= n <= y1) /\
    forall vs vis va na via ng, vs_keas s (weightfraction s) = Ok (Fin vs) -> vs_keas s (#(-1) * weightfraction s)%num = Ok (Fin vis) ->
      dget "A" ps = Some (Fin va, na) -> dget "G" ps = Some (Fin via, ng) ->
      vs <= x1 -> vis <= x1 -> va <= x1 -> via <= x1 ->
      forall p, drawn d p -> exists v n, p = (Fin v, Fin n) /\ 0 <= v <= x1.
Proof. exact frame. Qed.
Print Assumptions C88_frame_partial.
(** point A may be outside the diagram *)
Theorem C88_frame_refuted : exists s f vd w d ps m v n x1,
  describes example_ext s f /\ category s = CStr (names Aero) /\ dive s Aero f vd /\
  vndiagram example_ext s None None VnTrue = Ok (w, Some d, ps) /\
  In m (dg_markers d) /\ mk_name m = "A"%string /\ mk_at m = (Fin v, Fin n) /\ dg_xlim d = (#0, Fin x1) /\ x1 < v.
Proof. exact frame_witness. Qed.
Print Assumptions C88_frame_refuted.

(** the warnings *)
Theorem C88_warnings : forall ext s f, describes ext s f -> forall c vd, category s = CStr (names c) -> dive s c f vd ->
  forall t figs sh w dg ps, vndiagram ext s t figs sh = Ok (w, dg, ps) ->
  (In WFigsize w <-> exists l, figs = Some l /\ List.length l <> 2%nat) /\
  (In WDive w <-> divespeed_keas s = None) /\
  (forall vh, maxlevelspeed_keas s = Some (Fin vh) -> (In WCruise w <-> 0.9 * vh < design_cruise c f)) /\
  (maxlevelspeed_keas s = None -> ~ In WCruise w) /\
  (forall va na, dget "A" ps = Some (Fin va, na) -> (In WManoeuvring w <-> design_cruise c f < va)) /\
  (In WInverted w <-> f_clmax f < - f_clmin f).
Proof. exact warnings_given. Qed.
Print Assumptions C88_warnings.

Example C88_nonvacuous : forall k, exists s f vd w d ps, describes example_ext s f /\ category s = CStr (names k) /\ dive s k f vd /\
  vndiagram example_ext s None None VnTrue = Ok (w, Some d, ps) /\ (4 <= List.length (dg_gustlines d))%nat /\ dg_notes d <> [] /\
  (200 <= List.length (dg_envelope d))%nat /\ (6 <= List.length (dg_markers d))%nat.
Proof. exact envelope_plot_example. Qed.
