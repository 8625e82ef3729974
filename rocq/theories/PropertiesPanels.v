(** The properties of the multi-panel diagrams (C83, C84). *)
From Verif Require Import Base ConceptModel ConceptSpec PanelModel PanelSpec PanelProofs.
Open Scope R_scope.
Open Scope string_scope.

(** C83: the data returned by [fdrplot] are all the columns, each restricted to exactly the
    rows whose time is in the closed interval *)
Theorem C83_rows : forall ylim raw n tcol tlabel a b panels markers figpars ps f, rectangular raw n ->
  fdrplot ylim raw (tcol, tlabel, Fin a, Fin b) panels markers figpars = Ok (ps, f) ->
  exists times ks, binds raw tcol times /\ rows_between a b times ks /\
  Forall2 (fun kc kc' => fst kc' = fst kc /\ restricted ks (snd kc) (snd kc')) raw f.
Proof. exact rows_kept. Qed.
Print Assumptions C83_rows.
Example C83_rows_nonvacuous : rectangular example_frame 4 /\ exists ps f,
  fdrplot example_ylim example_frame ("Time", "Time (s)", Fin 1, Fin 2.5) example_panels ([Fin 1.5; Fin 2], ["grey"; "red"]) ([Fin 6; Fin 10; Fin 300], [Fin 8; Fin 8; Fin 8]) = Ok (ps, f).
Proof. exact fdr_case. Qed.

(** one panel for each list of names: the first is the label of the axis; each of the others
    names a curve, which is that channel of the restricted data against the time; every
    panel is marked at all the markers, over its whole height and in the marker's colour;
    only the lowest panel carries the label of the time axis *)
Theorem C83_panels : forall ylim raw tcol tlabel ti tf panels markers figpars ps f,
  fdrplot ylim raw (tcol, tlabel, ti, tf) panels markers figpars = Ok (ps, f) ->
  Forall2 (fun names p => exists title channels curves lines, names = title :: channels /\
    p_ylabel p = Some (LText title) /\ p_legend p = true /\ p_curves p = (curves ++ lines)%list /\
    Forall2 (fun ch c => c_label c = Some ch /\ binds f tcol (c_x c) /\ binds f ch (c_y c)) channels curves /\
    marks (fun m => segment m (fst (ylim curves)) m (snd (ylim curves))) (fst markers) (snd markers) lines) panels ps /\
  forall i p, nth_error ps i = Some p -> p_xlabel p = if Nat.eqb (i + 1) (List.length ps) then Some tlabel else None.
Proof. exact fdr_panels. Qed.
Print Assumptions C83_panels.
Example C83_panels_nonvacuous : exists ps f,
  fdrplot example_ylim example_frame ("Time", "Time (s)", Fin 1, Fin 2.5) example_panels ([Fin 1.5; Fin 2], ["grey"; "red"]) ([Fin 6; Fin 10; Fin 300], [Fin 8; Fin 8; Fin 8]) = Ok (ps, f).
Proof. exact (proj2 fdr_case). Qed.

(** exactly these inputs are plotted: the time column and every channel are columns, at
    least two panels, none without a label, a colour for every marker, three figure
    parameters and three font sizes *)
Theorem C83_accepted : forall ylim raw n tcol tlabel ti tf panels markers figpars, rectangular raw n ->
  (exists ps f, fdrplot ylim raw (tcol, tlabel, ti, tf) panels markers figpars = Ok (ps, f)) <->
  In tcol (map fst raw) /\ (2 <= List.length panels)%nat /\
  (forall names, In names panels -> names <> [] /\ forall ch, In ch (tl names) -> In ch (map fst raw)) /\
  (List.length (fst markers) <= List.length (snd markers))%nat /\
  (3 <= List.length (fst figpars))%nat /\ (3 <= List.length (snd figpars))%nat.
Proof. exact fdr_accepted. Qed.
Print Assumptions C83_accepted.
Example C83_accepted_nonvacuous : rectangular example_frame 4.
Proof. exact example_rectangular. Qed.

(** C84: panels with a shared vertical axis: panel i shows the i-th data against the shared
    ones, between the i-th limits and under the i-th label, and the horizontal lines run
    from limit to limit; only the first panel carries the shared label *)
Theorem C84_shared_y : forall vaxis haxes hlimits vlabel hlabels hlines cols figpar ps,
  panelplot_with_shared_y vaxis haxes hlimits vlabel hlabels hlines cols figpar = Ok ps ->
  List.length ps = List.length haxes /\
  forall i hax, nth_error haxes i = Some hax -> exists p lo hi lab lines, nth_error ps i = Some p /\
    nth_error hlimits i = Some [lo; hi] /\ nth_error hlabels i = Some lab /\
    p_curves p = {| c_x := hax; c_y := vaxis; c_label := None; c_colour := None |} :: lines /\
    p_xlim p = Some [lo; hi] /\ p_xlabel p = Some lab /\
    p_ylabel p = (if Nat.eqb i 0 then Some (LText vlabel) else None) /\
    marks (fun h => segment lo h hi h) hlines cols lines.
Proof. exact shared_y_contents. Qed.
Print Assumptions C84_shared_y.
Example C84_shared_y_nonvacuous : exists ps, panelplot_with_shared_y [Fin 0; Fin 1000; Fin 2000] [[Fin 15; Fin 8; Fin 2]; [Fin 1013; Fin 900; Fin 800]] [[Fin (-10); Fin 30]; [Fin 700; Fin 1100]]
  "Altitude (m)" ["T (C)"; "p (hPa)"] [Fin 500] ["blue"] [Fin 10; Fin 6; Fin 100] = Ok ps.
Proof. exact shared_y_case. Qed.

Theorem C84_shared_y_accepted : forall vaxis haxes hlimits vlabel hlabels hlines cols figpar,
  (exists ps, panelplot_with_shared_y vaxis haxes hlimits vlabel hlabels hlines cols figpar = Ok ps) <->
  (2 <= List.length haxes)%nat /\ (3 <= List.length figpar)%nat /\ (List.length hlines <= List.length cols)%nat /\
  (List.length haxes <= List.length hlabels)%nat /\
  forall i hax, nth_error haxes i = Some hax -> List.length hax = List.length vaxis /\ exists lo hi, nth_error hlimits i = Some [lo; hi].
Proof. exact shared_y_accepted. Qed.
Print Assumptions C84_shared_y_accepted.

(** panels with a shared horizontal axis: a list of series under a list of labels *)
Theorem C84_several_series : forall ylim haxis vaxes hlabel vlabels vlines cols figpar fonts ps i l names,
  panelplot_with_shared_x ylim haxis vaxes hlabel vlabels vlines cols figpar fonts = Ok ps ->
  nth_error vaxes i = Some (SList l) -> nth_error vlabels i = Some (LList names) ->
  exists p title rest curves lines, nth_error ps i = Some p /\ names = title :: rest /\ p_ylabel p = Some (LText title) /\ p_legend p = true /\
  p_xlabel p = (if Nat.eqb (i + 1) (List.length vaxes) then Some hlabel else None) /\
  p_curves p = (curves ++ lines)%list /\ List.length curves = List.length l /\
  (forall j v, nth_error l j = Some v -> exists name, nth_error rest j = Some name /\
     nth_error curves j = Some {| c_x := haxis; c_y := v; c_label := Some name; c_colour := None |}) /\
  marks (fun m => segment m (fst (ylim curves)) m (snd (ylim curves))) vlines cols lines.
Proof. exact several_series. Qed.
Print Assumptions C84_several_series.
Example C84_several_series_nonvacuous : exists ps, panelplot_with_shared_x example_ylim [Fin 0; Fin 1; Fin 2] [SList [[Fin 1; Fin 2; Fin 3]; [Fin 4; Fin 5; Fin 6]]; SOne [Fin 7; Fin 8; Fin 9]]
  "t" [LList ["y"; "one"; "two"]; LText "z"] [Fin 1] ["grey"] [Fin 6; Fin 10; Fin 100] [Fin 8; Fin 8; Fin 8] = Ok ps.
Proof. exact shared_x_case. Qed.

(** … and a single series (an array) under its label *)
Theorem C84_one_series : forall ylim haxis vaxes hlabel vlabels vlines cols figpar fonts ps i v,
  panelplot_with_shared_x ylim haxis vaxes hlabel vlabels vlines cols figpar fonts = Ok ps ->
  nth_error vaxes i = Some (SOne v) ->
  exists p lab lines, nth_error ps i = Some p /\ nth_error vlabels i = Some lab /\ p_ylabel p = Some lab /\ p_legend p = false /\
  p_xlabel p = (if Nat.eqb (i + 1) (List.length vaxes) then Some hlabel else None) /\
  p_curves p = {| c_x := haxis; c_y := v; c_label := None; c_colour := None |} :: lines /\
  let own := [{| c_x := haxis; c_y := v; c_label := None; c_colour := None |}] in
  marks (fun m => segment m (fst (ylim own)) m (snd (ylim own))) vlines cols lines.
Proof. exact one_series. Qed.
Print Assumptions C84_one_series.
Example C84_one_series_nonvacuous : exists ps, panelplot_with_shared_x example_ylim [Fin 0; Fin 1; Fin 2] [SList [[Fin 1; Fin 2; Fin 3]; [Fin 4; Fin 5; Fin 6]]; SOne [Fin 7; Fin 8; Fin 9]]
  "t" [LList ["y"; "one"; "two"]; LText "z"] [Fin 1] ["grey"] [Fin 6; Fin 10; Fin 100] [Fin 8; Fin 8; Fin 8] = Ok ps.
Proof. exact shared_x_case. Qed.

(** exactly these inputs are plotted, when lists of series have lists of labels *)
Theorem C84_shared_x_accepted : forall ylim haxis vaxes hlabel vlabels vlines cols figpar fonts,
  (forall i l s, nth_error vaxes i = Some (SList l) -> nth_error vlabels i <> Some (LText s)) ->
  (exists ps, panelplot_with_shared_x ylim haxis vaxes hlabel vlabels vlines cols figpar fonts = Ok ps) <->
  (2 <= List.length vaxes)%nat /\ (List.length vlines <= List.length cols)%nat /\
  (3 <= List.length figpar)%nat /\ (3 <= List.length fonts)%nat /\
  forall i vax, nth_error vaxes i = Some vax -> exists lab, nth_error vlabels i = Some lab /\
     match vax, lab with
     | SOne v, _ => List.length v = List.length haxis
     | SList l, LList names => (List.length l < List.length names)%nat /\ forall v, In v l -> List.length v = List.length haxis
     | SList _, LText _ => False
     end.
Proof. exact shared_x_accepted. Qed.
Print Assumptions C84_shared_x_accepted.
Example C84_shared_x_accepted_nonvacuous : forall i l s,
  nth_error [SList [[Fin 1; Fin 2; Fin 3]; [Fin 4; Fin 5; Fin 6]]; SOne [Fin 7; Fin 8; Fin 9]] i = Some (SList l) ->
  nth_error [LList ["y"; "one"; "two"]; LText "z"] i <> Some (LText s).
Proof. exact lists_labelled_case. Qed.

(** "a series may be given as a plain list of numbers" is false: its numbers are taken for
    series of their own, so that nothing is plotted *)
Theorem C84_plain_list_refuted : forall ylim haxis vaxes hlabel vlabels vlines cols figpar fonts ps i ys,
  nth_error vaxes i = Some (SList (map (fun y => [y]) ys)) -> ys <> [] -> List.length haxis <> 1%nat ->
  panelplot_with_shared_x ylim haxis vaxes hlabel vlabels vlines cols figpar fonts <> Ok ps.
Proof. exact plain_list. Qed.
Print Assumptions C84_plain_list_refuted.
Example C84_plain_list_nonvacuous : nth_error [SOne [Fin 7; Fin 8; Fin 9]; SList (map (fun y => [y]) [Fin 1; Fin 2; Fin 3])] 1 = Some (SList (map (fun y => [y]) [Fin 1; Fin 2; Fin 3])).
Proof. reflexivity. Qed.

(** "the label of a panel is displayed" is false for text over a list of series: only the
    first letter is *)
Theorem C84_text_label_refuted : forall ylim haxis vaxes hlabel vlabels vlines cols figpar fonts ps i l s,
  panelplot_with_shared_x ylim haxis vaxes hlabel vlabels vlines cols figpar fonts = Ok ps ->
  nth_error vaxes i = Some (SList l) -> nth_error vlabels i = Some (LText s) ->
  exists p c rest, nth_error ps i = Some p /\ s = String c rest /\ p_ylabel p = Some (LText (String c "")).
Proof. exact text_label. Qed.
Print Assumptions C84_text_label_refuted.
Example C84_text_label_nonvacuous : exists ps, panelplot_with_shared_x example_ylim [Fin 0; Fin 1; Fin 2] [SList [[Fin 1; Fin 2; Fin 3]]; SOne [Fin 7; Fin 8; Fin 9]]
  "t" [LText "speed"; LText "z"] [] [] [Fin 6; Fin 10; Fin 100] [Fin 8; Fin 8; Fin 8] = Ok ps.
Proof. exact text_label_case. Qed.
