(** ADRpy/propulsion.py: the demonstration plots of the engine decks.  A plot is what is
    handed to matplotlib, which is not modelled; a warning and no plot is None.
    The grids are computed in exact arithmetic: rounding may add a 1002nd line to them. *)
From Verif Require Import Base AtmosModel ConceptModel PropulsionModel.
Open Scope string_scope.

(** pcolormesh and contour: the coordinates of the lines of the grid, the values on it
    row by row, the labels of the axes and of the colour bar and the title *)
Record mesh := { m_x : list num; m_y : list num; m_z : list num; m_xlabel : string; m_ylabel : string; m_zlabel : string; m_title : string }.

(** Python's min over the elements of an array *)
Definition pyminn (l : list num) : res num :=
  match l with
  | [] => Err ValueError
  | x :: r => Ok (fold_left (fun m y => if (y <? m)%num then y else m) r x)
  end.
(** math.ceil *)
Definition ceil (x : R) : Z := (1 - up (- x))%Z.
(** np.mgrid[start:stop:step], one axis.  Simplification: an infinite number of points is
    an OverflowError in Python. *)
Definition mgrid_axis (start stop step : num) : res (list num) :=
  match ((stop - start) / step)%num with
  | Fin q => Ok (map (fun k => (start + Fin (INR k) * step)%num) (seq 0 (Z.to_nat (ceil q))))
  | NonFin => Err ValueError
  end.

(* propulsion.py:1905-1959 _demo_plot; the values of the function on the grid are computed
   by one call, an array without values cannot be drawn *)
Definition demo_plot (lim : num * num * num * num) (func : val -> val -> res (option val))
    (x_label y_label z_label plt_title : string) : res mesh :=
  let '(min_x, max_x, min_y, max_y) := lim in
  let x_inc := ((max_x - min_x) / #1000)%num in
  let y_inc := ((max_y - min_y) / #1000)%num in
  do x <- mgrid_axis min_x (max_x + x_inc)%num x_inc;
  do y <- mgrid_axis min_y (max_y + y_inc)%num y_inc;
  let xy := list_prod x y in
  do z <- func (VArr (map fst xy)) (VArr (map snd xy));
  match z with
  | Some (VArr z) => Ok {| m_x := x; m_y := y; m_z := z; m_xlabel := x_label; m_ylabel := y_label; m_zlabel := z_label; m_title := plt_title |}
  | _ => Err TypeError
  end.
(** the smallest and largest values of the first two rows of a table attribute, which may
    be missing *)
Definition limits (t : option table) : res (num * num * num * num) :=
  match t with
  | None => Err AttributeError
  | Some t => do a <- pyminn (tx t); do b <- pymaxn (tx t); do c <- pyminn (ty t); do d <- pymaxn (ty t); Ok (a, b, c, d)
  end.

Section Demo.
Variable grid : list num -> list num -> list num -> num -> num -> num.
Variable engine : string.

(* propulsion.py:458-485, 487-514, 516-543.  The flag that is tested is a list, never
   False. *)
Definition tp_demoplot_thrust (d : turboprop) : res (option mesh) :=
  do lim <- limits (tp_thr d);
  rmap Some (demo_plot lim (tp_hotthrust grid d) "Mach Number" "Altitude (m)" "Core/hot Thrust (N)"
    (engine ++ " core/hot thrust (N) for Mach number and altitude (m)")).
Definition tp_demoplot_shaftpower (d : turboprop) : res (option mesh) :=
  do lim <- limits (tp_pwr d);
  rmap Some (demo_plot lim (tp_shaftpower grid d) "Mach Number" "Altitude (m)" "Power (W)"
    (engine ++ " shaft power (W) for Mach Number and altitude (m)")).
Definition tp_demoplot_bsfc (d : turboprop) : res (option mesh) :=
  do lim <- limits (tp_bsfc d);
  rmap Some (demo_plot lim (tp_bsfc_at grid d) "Mach Number" "Altitude (m)" "BSFC (g/(kWh))"
    (engine ++ " BSFC (g/(kWh)) for Mach Number and altitude (m)")).

(* propulsion.py:859-887: again the flag is a list *)
Definition pi_demoplot_shaftpower (d : piston) : res (option mesh) :=
  do lim <- limits (pi_pwr d);
  rmap Some (demo_plot lim (pi_shaftpower grid d) "Engine Speed (RPM)" "Altitude (m)" "Shaft power (W)"
    (engine ++ " shaft power (W) for Engine speed (RPM) and altitude (m)")).
(* propulsion.py:889-948 *)
Definition pi_demoplot_bsfc (d : piston) (best : string) : res (option mesh) :=
  let plot t :=
    match t with
    | None => Ok None
    | Some _ =>
        do lim <- limits t;
        rmap Some (demo_plot lim (fun x y => pi_bsfc_at grid d x y best) "Engine Speed (RPM)" "Shaft power (W)" "BSFC (g/(kWh))"
          (engine ++ " BSFC (g/(kWh)) at best " ++ best ++ " for Engine speed (RPM) and shaft power (W)"))
    end in
  if String.eqb best "economy" then plot (pi_bsfc d)
  else if String.eqb best "power" then plot (pi_bsfc_pwr d)
  else Ok None.

(* propulsion.py:1137-1164 *)
Definition el_demoplot_efficiency (d : option electric_data) : res (option mesh) :=
  match d with
  | None => Ok None
  | Some _ =>
      do lim <- limits (option_map el_tab d);
      rmap Some (demo_plot lim (el_efficiency grid d) "Motor Speed (RPM)" "Torque (Nm)" "Efficiency"
        (engine ++ " efficiency for Motor speed (RPM) and torque (Nm)"))
  end.

(* propulsion.py:1417-1444 *)
Definition jt_demoplot_thrust (d : jet) : res (option mesh) :=
  match jt_thr d with
  | None => Ok None
  | Some _ =>
      do lim <- limits (jt_thr d);
      rmap Some (demo_plot lim (jt_thrust grid d) "Mach Number" "Altitude (m)" "Thrust (N)"
        (engine ++ " thrust (N) for Mach number and altitude (m)"))
  end.
(* propulsion.py:1446-1521 *)
Definition jt_demoplot_tsfc (d : jet) (y_var : string) : res (option mesh) :=
  match jt_tsfc d with
  | None => Ok None
  | Some _ =>
      if String.eqb y_var "t_n" then
        match jt_thr d with
        | None => Ok None
        | Some _ =>
            do lim <- limits (jt_tsfc d);
            rmap Some (demo_plot lim (jt_tsfc_at grid d) "Mach Number" "Thrust (N)" "TSFC (g/(kNs))"
              (engine ++ " TSFC (g/(kNs)) for Mach number and Thrust (N)"))
        end
      else if String.eqb y_var "alt_m" then
        do lim <- limits (jt_thr d);
        rmap Some (demo_plot lim (fun mach altitude =>
            do t <- jt_thrust grid d mach altitude; do t <- some_val t; jt_tsfc_at grid d mach t)
          "Mach Number" "Altitude (m)" "TSFC (g/(kNs))" (engine ++ " TSFC (g/(kNs)) for Mach number and altitude (m)"))
      else Ok None
  end.
End Demo.
