(** ADRpy/mtools4acdc.py: the multi-panel diagrams.  What is handed to matplotlib is
    recorded; matplotlib itself, fonts, grids, sizes and the colours of the axes are not
    modelled. *)
From Verif Require Import Base ConceptModel.
Open Scope string_scope.

(** a line of a panel *)
Record curve := { c_x : list num; c_y : list num; c_label : option string; c_colour : option string }.
(** the argument of set_ylabel: text, or by mistake a list *)
Inductive label := LText (s : string) | LList (l : list string).
(** a panel: its curves in the order of plotting, its limits (if set) and labels *)
Record panel := {
  p_curves : list curve; p_xlim : option (list num); p_xlabel : option string; p_ylabel : option label; p_legend : bool }.

(** l[i] *)
Definition index {A} (l : list A) (i : nat) : res A :=
  match nth_error l i with Some x => Ok x | None => Err IndexError end.
(** ax.plot(x, y): the lengths must agree *)
Definition plot (x y : list num) (label colour : option string) : res curve :=
  if Nat.eqb (List.length x) (List.length y)
  then Ok {| c_x := x; c_y := y; c_label := label; c_colour := colour |} else Err ValueError.
(** plt.subplots with n panels, then axes[i]: no panel at all is a ValueError; a single one
    is not in an array, so that indexing it is a TypeError *)
Definition subplots (n : nat) : res unit := match n with O => Err ValueError | _ => Ok tt end.
Definition subscriptable (n : nat) : res unit := match n with 1%nat => Err TypeError | _ => Ok tt end.
(** for i, x in enumerate(l): the results in order, the first exception stops *)
Fixpoint enumerateM {A B} (f : nat -> A -> res B) (i : nat) (l : list A) : res (list B) :=
  match l with
  | [] => Ok []
  | x :: r => do y <- f i x; do ys <- enumerateM f (S i) r; Ok (y :: ys)
  end.
(** set_figwidth(figpar[0]), set_figheight(figpar[1]), dpi = figpar[2] *)
Definition figsize (figpar : list num) : res unit :=
  do _ <- index figpar 0; do _ <- index figpar 1; do _ <- index figpar 2; Ok tt.

(* mtools4acdc.py:28-57 *)
Definition panelplot_with_shared_y (vaxis : list num) (haxes hlimits : list (list num)) (vlabel : string)
    (hlabels : list string) (hlines : list num) (hlinecols : list string) (figpar : list num) : res (list panel) :=
  let npanels := List.length haxes in
  do _ <- subplots npanels;
  do _ <- subscriptable npanels;
  do ps <- enumerateM (fun i hax =>
       do c <- plot hax vaxis None None;
       do lim <- index hlimits i;
       do _ <- (if Nat.eqb (List.length lim) 2 then Ok tt else Err ValueError);   (* set_xlim *)
       do lab <- index hlabels i;
       do ls <- enumerateM (fun j hli => do col <- index hlinecols j; plot lim [hli; hli] None (Some col)) 0 hlines;
       Ok {| p_curves := c :: ls; p_xlim := Some lim; p_xlabel := Some lab;
             p_ylabel := match i with O => Some (LText vlabel) | _ => None end; p_legend := false |}) 0 haxes;
  do _ <- figsize figpar;
  Ok ps.

(** the data of a panel with a shared x: a list of series, or one series (an array) *)
Inductive series := SList (l : list (list num)) | SOne (l : list num).
(** vlabels[i][j], of a list or of text *)
Definition sublabel (l : label) (j : nat) : res string :=
  match l with
  | LList ss => index ss j
  | LText s => match String.get j s with Some c => Ok (String c EmptyString) | None => Err IndexError end
  end.

(* mtools4acdc.py:89-134.  [ylim] is matplotlib's choice of the vertical limits for the
   curves plotted so far. *)
Definition panelplot_with_shared_x (ylim : list curve -> num * num) (haxis : list num) (vaxes : list series)
    (hlabel : string) (vlabels : list label) (vlines : list num) (vlinecols : list string)
    (figpar fontsizes : list num) : res (list panel) :=
  let npanels := List.length vaxes in
  do _ <- subplots npanels;
  do _ <- index fontsizes 0; do _ <- index fontsizes 1; do _ <- index fontsizes 2;
  do _ <- subscriptable npanels;
  do ps <- enumerateM (fun i vax =>
       do a <- match vax with
               | SList l =>
                   do cs <- enumerateM (fun j vdata =>
                        do lab <- index vlabels i; do lab <- sublabel lab (j + 1);
                        plot haxis vdata (Some lab) None) 0 l;
                   do lab <- index vlabels i; do lab <- sublabel lab 0;
                   Ok (cs, LText lab, true)
               | SOne vdata =>
                   do lab <- index vlabels i;
                   do c <- plot haxis vdata None None;
                   Ok ([c], lab, false)
               end;
       let '(cs, lab, leg) := a in
       let '(lo, hi) := ylim cs in
       do ls <- enumerateM (fun j vli => do col <- index vlinecols j; plot [vli; vli] [lo; hi] None (Some col)) 0 vlines;
       Ok {| p_curves := (cs ++ ls)%list; p_xlim := None;
             p_xlabel := if Nat.eqb i (npanels - 1) then Some hlabel else None; p_ylabel := Some lab; p_legend := leg |}) 0 vaxes;
  do _ <- figsize figpar;
  Ok ps.

(** a pandas data frame: the columns under their headings *)
Definition frame := dict (list num).
(** frame[mask] *)
Definition masked (f : frame) (mask : list bool) : frame :=
  map (fun kc => (fst kc, map snd (filter fst (combine mask (snd kc))))) f.

(* mtools4acdc.py:137-263.  The data frame is what pandas makes of the file; timeline,
   markers and figpars are given with the entries they are documented to have. *)
Definition fdrplot (ylim : list curve -> num * num) (rawflightdata : frame)
    (timeline : string * string * num * num) (panels : list (list string))
    (markers : list num * list string) (figpars : list num * list num) : res (list panel * frame) :=
  let '(tcol, tlabel, ti, tf) := timeline in
  do tm <- dindex rawflightdata tcol;
  let flightdata_tf := masked rawflightdata (map (fun t => (ti <=? t) && (t <=? tf))%num tm) in
  do timeaxis <- dindex flightdata_tf tcol;
  do data <- mapM (fun p =>
       do _ <- index p 0;
       do dataline <- mapM (dindex flightdata_tf) (tl p);
       Ok (SList dataline)) panels;
  do ps <- panelplot_with_shared_x ylim timeaxis data tlabel (map LList panels) (fst markers) (snd markers)
             (fst figpars) (snd figpars);
  Ok (ps, flightdata_tf).
