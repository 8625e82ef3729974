(** Model of the diagram CertificationSpecifications.flightenvelope draws
    (ADRpy/airworthiness.py:503-890).  What is handed to matplotlib is a record; colours of
    lines, line widths, grid and window are not modelled.  Texts made of numbers are given
    as the rounded numbers. *)
From Verif Require Import Base UnitsModel AtmosModel ConceptModel MethodsModel PropulsionModel AirworthinessModel.
Open Scope num_scope.

(** round(x, dp): nearest multiple of 10^-dp, ties to even *)
Definition roundto (dp : nat) (x : num) : num :=
  match x with Fin r => Fin (IZR (nearest (r * 10 ^ dp)) / 10 ^ dp)%R | NonFin => NonFin end.

(** the argument show: True, False or a list of strings.  Other values are not modelled. *)
Inductive vnshow := VnTrue | VnFalse | VnList (l : list string).

(** the warnings of flightenvelope *)
Inductive vnwarning := WFigsize | WDive | WCruise | WManoeuvring | WInverted.

(** the local variables of flightenvelope the drawing uses *)
Record vnlocals := {
  loc_vs : num; loc_vis : num; loc_va : num; loc_vb : num; loc_vc : num; loc_vd : num; loc_vcmax : param;
  loc_cgust : num;
  (** gustloads[category].items() with the speed and the gust of each: Ub (commuter
      category only), Uc, Ud, for each of them npos before nneg *)
  loc_gusts : list (num * num * num) }.

(** one gust: airspeed, gust speed, load factor *)
Definition gust_items (speed : num) (gust : option num) (l : option (num * num)) : list (num * num * num) :=
  match gust, l with
  | Some u, Some (p, n) => [(speed, u, p); (speed, u, n)]
  | _, _ => []
  end.

(* airworthiness.py:586-665: the same statements as in flightenvelope *)
Definition vn_locals (ext : externals) (s : cert) : res vnlocals :=
  do c <- check_category (category s);
  do vc <- required (cruisespeed_keas s);
  do p335 <- paragraph335 ext s;
  let lim := p335 c in
  do p333 <- paragraph333 s;
  let wfract := weightfraction s in
  let vc := pymax vc (vcmin_keas lim) in
  let vd := match divespeed_keas s with
            | None => vdmin_keas lim
            | Some v => pymax v (vdmin_keas lim) end in
  let vb := vbmin1_keas lim in
  do vs <- vs_keas s (#1 * wfract);
  do vis <- vs_keas s (#(-1) * wfract);
  do p341 <- paragraph341 ext s {| at_Ub := Some vb; at_Uc := Some vc; at_Ud := Some vd |};
  let '(loads, _, _) := p341 in
  let g := snd p333 c in
  do gc <- entry (l_Uc (loads c));                                  (* 698 *)
  Ok {| loc_vs := vs; loc_vis := vis; loc_va := vamin_keas lim; loc_vb := vb; loc_vc := vc; loc_vd := vd;
        loc_vcmax := vcsoftmax_keas lim; loc_cgust := fst gc;
        loc_gusts := (gust_items vb (Ub_mps g) (l_Ub (loads c))
                  ++ gust_items vc (Some (Uc_mps g)) (l_Uc (loads c))
                  ++ gust_items vd (Some (Ud_mps g)) (l_Ud (loads c)))%list |}.

(** a gust line: label, first point, second point *)
Record gustline := { gl_label : option string; gl_from : point; gl_to : point }.
(** the note at a gust line: gust speed shown, the point it points to, offset of the text *)
Record gustnote := { gn_shown : num; gn_at : point; gn_offset : point }.
(** a point of interest: letter, colour, position, numbers in the legend, offset of the letter *)
Record marker := { mk_name : string; mk_colour : string; mk_at : point; mk_legend : point; mk_offset : point }.
Record diagram := {
  dg_figsize : list num; dg_title : string;
  dg_fonts : num * num * num * num;
  dg_notes : list gustnote; dg_gustlines : list gustline;
  dg_envelope : list point; dg_manoeuvre : list point;
  dg_markers : list marker;
  dg_xlim : num * num; dg_ylim : num * num }.

(* airworthiness.py:571 *)
Definition catg_name (c : cat) : string :=
  match c with Norm => "Normal" | Util => "Utility" | Comm => "Commuter" | Aero => "Aerobatic" end.

(* airworthiness.py:573-584 (a list; anything else is handed on to matplotlib and not modelled) *)
Definition figsize_used (figsize_in : option (list num)) : list num * list vnwarning :=
  match figsize_in with
  | None => ([#12; #7.5], [])
  | Some l => if Nat.eqb (List.length l) 2 then (l, []) else ([#12; #7.5], [WFigsize])
  end.

(* airworthiness.py:592-596, 625-628, 641-643, 655-658 *)
Definition vn_warnings (s : cert) (l : vnlocals) : list vnwarning :=
  ((match divespeed_keas s with None => [WDive] | Some _ => [] end) ++
  (match loc_vcmax l with None => [] | Some m => if m <? loc_vc l then [WCruise] else [] end) ++
  (if loc_vc l <? loc_va l then [WManoeuvring] else []) ++
  (if loc_vis l <? loc_vs l then [WInverted] else []))%list.

(* airworthiness.py:778-803: the notes *)
Definition gust_note (reduced : bool) (i : nat) (g : num * num * num) : list gustnote :=
  let '(speed, gust, load) := g in
  let shown := roundto 2 gust in
  if #1 <=? load then
    if reduced then []
    else [ {| gn_shown := shown;
              gn_at := (#0.15 * speed, #0.15 * (load - #1) + #1);
              gn_offset := ((#4 * (#15.24 - shown)) / #4,
                            Fin (IZR ((4 - Z.of_nat i + 1) * 3 * (if load <? #0 then 12 else 10))) ** #0.93) |} ]
  else [].
Fixpoint gust_notes (reduced : bool) (i : nat) (l : list (num * num * num)) : list gustnote :=
  match l with [] => [] | g :: r => (gust_note reduced i g ++ gust_notes reduced (S i) r)%list end.

(* airworthiness.py:804-819: the lines *)
Definition gust_line (i : nat) (g : num * num * num) : gustline :=
  let '(speed, _, load) := g in
  {| gl_label := match i with O => Some "Gust Lines"%string | _ => None end;
     gl_from := (#0, #1);
     gl_to := (speed * #5, (load - #1) * #5 + #1) |}.
Fixpoint gust_lines (i : nat) (l : list (num * num * num)) : list gustline :=
  match l with [] => [] | g :: r => gust_line i g :: gust_lines (S i) r end.

(* airworthiness.py:821-835 and 866-879 *)
Definition polyline (pieces : dict (list point)) : list point := flat_map snd pieces.

(* airworthiness.py:853-870 *)
Definition poi_marker (textsize offs_spd : num) (kv : string * point) : marker :=
  let '(k, v) := kv in
  {| mk_name := k;
     mk_colour := if existsb (String.eqb k) ["A"; "B"; "C"; "D"]%string then "green"%string else "red"%string;
     mk_at := v;
     mk_legend := (roundto 1 (fst v), roundto 2 (snd v));
     mk_offset := (if offs_spd <? fst v then textsize / #2 else #0 - textsize,
                   if #0 <? snd v then textsize / #10 else #0 - textsize) |}.

(* airworthiness.py:503-890: the warnings, what is drawn (None: nothing), what is returned.
   Simplification: the text size is a number. *)
Definition vndiagram (ext : externals) (s : cert) (textsize : option num) (figsize_in : option (list num)) (show : vnshow)
    : res (list vnwarning * option diagram * dict point) :=
  do c <- check_category (category s);
  let textsize := match textsize with None => #10 | Some t => t end in
  let (figsize, w) := figsize_used figsize_in in
  do e <- flightenvelope ext s;
  do l <- vn_locals ext s;
  let warned := (w ++ vn_warnings s l)%list in
  (* 696 *)
  do max_ygust <- match loc_gusts l with (_, _, n) :: _ => Ok n | [] => Err IndexError end;
  let c_ygust := loc_cgust l in
  (* 755-756 *)
  do pc <- entry (dget "C" (poi e)); do pd <- entry (dget "D" (poi e));
  do pe <- entry (dget "E" (poi e)); do pf <- entry (dget "F" (poi e)); do pg <- entry (dget "G" (poi e));
  let yposlim := pymax (pymax max_ygust (snd pc)) (snd pd) in
  let yneglim := pymin (pymin (snd pe) (snd pf)) (snd pg) in
  let draw (options : list string) :=
    let reduced := existsb (String.eqb "reducedannotations") options in
    let offs_spd := if max_ygust <? c_ygust then loc_vc l else loc_vb l in
    {| dg_figsize := figsize;
       dg_title := ("EASA CS-23 Amendment 4 - Flight Envelope (" ++ catg_name c ++ " Category)")%string;
       dg_fonts := (#1.2 * textsize, #1.05 * textsize, #1 * textsize, #0.9 * textsize);
       dg_notes := gust_notes reduced 0 (loc_gusts l);
       dg_gustlines := gust_lines 0 (loc_gusts l);
       dg_envelope := polyline (outline e);
       dg_manoeuvre := polyline (manoeuvre_outline e);
       dg_markers := map (poi_marker textsize offs_spd) (poi e);
       dg_xlim := (#0, #1.1 * loc_vd l);
       dg_ylim := (#1.3 * yneglim, #1.3 * yposlim) |} in
  let drawn := match show with
               | VnFalse => None
               | VnTrue => Some (draw [])
               | VnList [] => None
               | VnList options => Some (draw options)
               end in
  Ok (warned, drawn, poi e).
