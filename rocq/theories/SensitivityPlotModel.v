(** ADRpy/constraintanalysis.py, propulsionsensitivity_monothetic (lines 1949-2301): the
    diagrams drawn from the analysis in SensitivityModel.  Not modelled: colours, fonts,
    figure size, legends' placement, and matplotlib itself; the options and
    their warnings are in WarningsModel. *)
From Verif Require Import Base UnitsModel AtmosModel ConceptModel MethodsModel SensitivityModel.
Open Scope string_scope.

(** the x_var argument; anything else counts as 'ws_pa' (1963-1967) *)
Inductive xvar := Xws | Xarea.
(** the show argument: True, a string, or anything false *)
Inductive showarg := ShowAll | ShowOne (s : string) | ShowNone.

(* constraintanalysis.py:2031-2036 x_function: self.weight_n / wingloading_pa, element by
   element *)
Definition x_function (self : concept) (ws : list num) (x : xvar) : list num :=
  match x with
  | Xarea => map (fun w => pval (weight_n self) / w)%num ws
  | Xws => ws
  end.

(** truth of an attribute, False when the brief does not contain it *)
Definition attr_true (o : option num) : bool := match o with Some x => truthy x | None => false end.
(* constraintanalysis.py:2052-2057 wherecleanstall, 2101-2104 *)
Definition xcrit_stall (self : concept) (mass_kg : num) (x : xvar) : res (option num) :=
  if attr_true (vstallclean_kcas self) && attr_true (clmaxclean self)
  then rmap Some (match x with
                  | Xarea => smincleanstall_m2 self mass_kg
                  | Xws => wsmaxcleanstall_pa self
                  end)
  else Ok None.

(** Python's max(v): TypeError for a number *)
Definition pymaxv (v : val) : res num :=
  match v with VNum _ => Err TypeError | VList l | VArr l => pymaxn l end.
(* constraintanalysis.py:2107-2113.  A y_lim that is no int or float was replaced by None,
   with a warning (1955-1961). *)
Definition ylim_hi (med : requirement) (y_lim : option num) : res num :=
  match y_lim with
  | Some y => Ok y
  | None =>
      do tops <- mapM (fun cn => pymaxv (snd cn med)) sensitivityplots_list;
      do m <- pymaxn tops;
      Ok (m * #1.05)%num
  end.

(** np.where(mask)[0] *)
Definition where_true (mask : list bool) : list nat :=
  map fst (filter snd (combine (seq 0 (List.length mask)) mask)).
Definition isfinite (x : num) : bool := match x with Fin _ => true | NonFin => false end.
(** l[i] for an index of np.where: in range unless l is shorter than the mask *)
Definition nth_num (l : list num) (i : nat) : res num :=
  match nth_error l i with Some x => Ok x | None => Err IndexError end.

(** what line 2121 leaves to be drawn *)
Record figure_data := {
  fg_sens : sens; fg_med : requirement; fg_x : list num; fg_stall : option num; fg_top : num;
  fg_feas : list nat; fg_infeas : list num; fg_x1 : num; fg_x2 : num }.

(* constraintanalysis.py:2094-2121.  np.where of the combined requirement of a single wing
   loading, a number, raises (or warns, in old versions of numpy).  The difference of the
   sets is taken as a list in the order of the axis: of two equal wing loadings both are
   kept or none, and for finite numbers max and min do not depend on the order. *)
Definition figure (ext : externals) (self : constructed) (wingloading_pa : val) (y : yvar) (x : xvar)
    (y_lim : option num) : res figure_data :=
  do a <- sensitivity ext self wingloading_pa y;
  let '(s, med) := a in
  let mass_kg := (pval (weight_n (obj self)) / sc_g)%num in
  let x_axis := x_function (obj self) (recastasnpfloatarray wingloading_pa) x in
  do stall <- xcrit_stall (obj self) mass_kg x;
  do top <- ylim_hi med y_lim;
  match rq_combined med with
  | VArr comb =>
      let propfeasindex := where_true (map isfinite comb) in
      do feas_x <- mapM (nth_num x_axis) (removelast propfeasindex);
      let infeas_x_axis := filter (fun v => negb (existsb (neqb v) feas_x)) x_axis in
      do x2 <- pymaxn infeas_x_axis;
      do x1 <- pyminn infeas_x_axis;
      Ok {| fg_sens := s; fg_med := med; fg_x := x_axis; fg_stall := stall; fg_top := top;
            fg_feas := propfeasindex; fg_infeas := infeas_x_axis; fg_x1 := x1; fg_x2 := x2 |}
  | _ => Err TypeError
  end.

(* constraintanalysis.py:2187-2190: np.split(maskindex, np.where(np.diff(maskindex) != 1)[0] + 1).
   Splitting an empty array gives one empty part. *)
Fixpoint consecutive (l : list nat) : list (list nat) :=
  match l with
  | [] => [[]]
  | [i] => [[i]]
  | i :: (j :: _) as r =>
      if Nat.eqb j (S i)
      then match consecutive r with g :: gs => (i :: g) :: gs | [] => [[i]] end
      else [i] :: consecutive r
  end.
(** Python's max and min of an array of indices *)
Definition pymaxi (l : list nat) : res nat :=
  match l with [] => Err ValueError | i :: r => Ok (fold_left Nat.max r i) end.
Definition pymini (l : list nat) : res nat :=
  match l with [] => Err ValueError | i :: r => Ok (fold_left Nat.min r i) end.

(** np.nan_to_num: nan becomes zero.  Infinities, which would become very large numbers,
    are not told apart from nan. *)
Definition nan_to_num (x : num) : num := match x with Fin r => Fin r | NonFin => #0 end.
(* constraintanalysis.py:2192-2198, one region: the two ends of the mask *)
Definition maskregion (fg : figure_data) (g : list nat) : res (num * num) :=
  do hi <- pymaxi g;
  do x2_clmask <- nth_num (fg_x fg) hi;
  do lo <- pymini g;
  do x1_clmask <- nth_num (fg_x fg) lo;
  do f <- pymaxi (fg_feas fg);
  do xf <- nth_num (fg_x fg) f;
  Ok (x1_clmask, if neqb x2_clmask xf then last (fg_x fg) NonFin else x2_clmask).
(* constraintanalysis.py:2184-2201.  Whether the element is less than the combined one is
   kept as a one or a zero, so that the broadcasting of Base applies. *)
Definition focusmasks (fg : figure_data) (constraint : val) : res (list (num * num)) :=
  do below <- broadcast (fun c f => if c <? nan_to_num f then #1 else #0)%num
                (recastasnpfloatarray constraint) (recastasnpfloatarray (rq_combined (fg_med fg)));
  let maskindex := where_true (map truthy below) in
  mapM (maskregion fg) (consecutive maskindex).

(** a diagram: the relative sensitivities of a constraint with the masked regions, or the
    combined diagram *)
Record combined_diagram := {
  cd_curves : list (string * val);   (** the combined front, then the constraints *)
  cd_stall : option num;             (** position of the line "Clean stall, 1g" *)
  cd_turn : option num;              (** position of the line "Turn stall limit" *)
  cd_xlim : num * num; cd_top : num;
  cd_shade : num * num;              (** ends of the region of infeasible lift coefficients *)
  cd_front : list (num * num) }.     (** xfeas, yfeas *)
Inductive diagram :=
| DSensitivity (constraint : string) (xlim : num * num) (parts : dict (list num)) (masks : list (num * num))
| DCombined (d : combined_diagram).

(** customlabels, {} if not given (1969-1971) *)
Definition labelled (customlabels : dict string) (k : string) : string :=
  match dget k customlabels with Some s => s | None => k end.
(* constraintanalysis.py:2134-2203 sensitivityplots.  The legend lists the parameters in
   the order opposite to that of the parts (2177-2180). *)
Definition sensitivityplot (fg : figure_data) (customlabels : dict string) (maskbool : bool)
    (cn : string * (requirement -> val)) : res diagram :=
  do prime <- dindex (primes (fg_sens fg)) (fst cn);
  do parts <- shares (List.length (fg_x fg)) prime;
  do lo <- pyminn (fg_x fg);
  do hi <- pymaxn (fg_x fg);
  do masks <- (if maskbool then focusmasks fg (snd cn (fg_med fg)) else Ok []);
  Ok (DSensitivity (fst cn) (lo, hi)
        (match prime with [] => parts | _ => map (fun kq => (labelled customlabels (fst kq), snd kq)) parts end) masks).

(** a < x < b *)
Definition inside (a x b : num) : bool := ((a <? x) && (x <? b))%num.
(* constraintanalysis.py:2205-2258 combinedplot *)
Definition combinedplot (fg : figure_data) : res combined_diagram :=
  do lo <- pyminn (fg_x fg);
  do hi <- pymaxn (fg_x fg);
  let stall_line := match fg_stall fg with
                    | Some x => if truthy x && inside lo x hi then Some x else None
                    | None => None
                    end in
  do turn_line <- match fg_feas fg with
                  | [] => Ok None
                  | f => do x <- nth_num (fg_x fg) (last f O);
                         Ok (if inside lo x hi then Some x else None)
                  end;
  let '(x1_clmask, x2_clmask) :=
    match fg_stall fg with
    | Some x => if truthy x
                then ((if fg_x1 fg <? x then fg_x1 fg else x)%num, (if x <? fg_x2 fg then fg_x2 fg else x)%num)
                else (fg_x1 fg, fg_x2 fg)
    | None => (fg_x1 fg, fg_x2 fg)
    end in
  let solnfeasindex := (where_true (map (fun x => x2_clmask <? x)%num (fg_x fg)) ++
                        where_true (map (fun x => x <? x1_clmask)%num (fg_x fg)))%list in
  let solnfeasindex := match solnfeasindex with [] => [O] | l => l end in
  do xfeas <- mapM (nth_num (fg_x fg)) solnfeasindex;
  do yfeas <- mapM (nth_num (recastasnpfloatarray (rq_combined (fg_med fg)))) solnfeasindex;
  Ok {| cd_curves := ("combined", rq_combined (fg_med fg)) ::
                       map (fun cn => (fst cn, snd cn (fg_med fg))) sensitivityplots_list;
        cd_stall := stall_line; cd_turn := turn_line; cd_xlim := (lo, hi); cd_top := fg_top fg;
        cd_shade := (x1_clmask, x2_clmask); cd_front := combine xfeas yfeas |}.

(* constraintanalysis.py:2260-2301: the diagrams shown, after checking the weight
   (1990-1992, in [sensitivity]).  plots_list is sensitivityplots_list and 'combined'. *)
Definition propulsionsensitivity_monothetic (ext : externals) (self : constructed) (wingloading_pa : val)
    (y : yvar) (y_lim : option num) (x : xvar) (customlabels : dict string) (show : showarg)
    (maskbool : bool) : res (list diagram) :=
  do fg <- figure ext self wingloading_pa y x y_lim;
  match show with
  | ShowAll =>
      do ds <- mapM (sensitivityplot fg customlabels maskbool) sensitivityplots_list;
      do d <- combinedplot fg;
      Ok (ds ++ [DCombined d])%list
  | ShowOne s =>
      match find (fun cn => String.eqb s (fst cn)) sensitivityplots_list with
      | Some cn => rmap (fun d => [d]) (sensitivityplot fg customlabels maskbool cn)
      | None => if String.eqb s "combined" then rmap (fun d => [DCombined d]) (combinedplot fg) else Ok []
      end
  | ShowNone => Ok []
  end.
