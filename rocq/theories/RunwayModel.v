(** atmospheres.Runway, atmospheres.mil_hdbk_310 and ADRpy/weathertools.py.
    Definitions only. *)
From Coq Require Import Ascii.
From Verif Require Import Base UnitsModel AtmosModel.
Open Scope Z_scope.

(* ------------------------------------------------------------------------ *)
(** * Python indexing *)

(** l[i] for a Python integer i: negative indices count from the end *)
Definition pyindex {A} (l : list A) (i : Z) : res A :=
  let n := Z.of_nat (List.length l) in
  let j := if i <? 0 then i + n else i in
  if (j <? 0) || (n <=? j) then Err IndexError
  else match nth_error l (Z.to_nat j) with Some x => Ok x | None => Err IndexError end.

(* ------------------------------------------------------------------------ *)
(** * Runway *)

(** One line of data/runways.csv as csv.reader yields it *)
Definition csvrow := list string.

Section Lookup.
(** Python's float(str): [None] stands for ValueError *)
Variable pfloat : string -> option num.

(** an attribute that is text in the database and a number for a custom runway *)
Inductive attr : Type := AText (s : string) | ANum (x : num) | AInt (z : Z).

Record runway := {
  ident : attr; airport_ref : attr; airport_ident : string;
  length_ft : num; width_ft : num; surface : string;
  lighted : attr; closed : attr;
  le_ident : attr; le_latitude_deg : attr; le_longitude_deg : attr;
  le_elevation_ft : num; le_heading_degt : num; le_displaced_threshold_ft : num;
  he_ident : attr; he_latitude_deg : attr; he_longitude_deg : attr;
  he_elevation_ft : num; he_heading_degt : num; he_displaced_threshold_ft : num }.

Definition tofloat (s : string) : res num :=
  match pfloat s with Some x => Ok x | None => Err ValueError end.
(** try: float(s) except ValueError: float('nan') *)
Definition tofloat_nan (s : string) : num :=
  match pfloat s with Some x => x | None => NonFin end.

(* atmospheres.py:142: the indices of the rows whose third field is the code
   (IndexError for a row with fewer than three fields) *)
Fixpoint rindlst (i : nat) (rows : list csvrow) (code : string) : res (list nat) :=
  match rows with
  | [] => Ok []
  | r :: rs =>
      do f <- pyindex r 2;
      do t <- rindlst (S i) rs code;
      Ok (if String.eqb f code then i :: t else t)
  end.

(* atmospheres.py:149-172: the attributes of one database row *)
Definition runway_of_row (r : csvrow) : res runway :=
  do f0 <- pyindex r 0; do f1 <- pyindex r 1; do f2 <- pyindex r 2;
  do f3 <- pyindex r 3; do l <- tofloat f3;
  do f4 <- pyindex r 4; do w <- tofloat f4;
  do f5 <- pyindex r 5; do f6 <- pyindex r 6; do f7 <- pyindex r 7;
  do f8 <- pyindex r 8; do f9 <- pyindex r 9; do f10 <- pyindex r 10;
  do f11 <- pyindex r 11; do lel <- tofloat f11;
  do f12 <- pyindex r 12; do leh <- tofloat f12;
  do f13 <- pyindex r 13;
  do f14 <- pyindex r 14; do f15 <- pyindex r 15; do f16 <- pyindex r 16;
  do f17 <- pyindex r 17; do hel <- tofloat f17;
  do f18 <- pyindex r 18; do heh <- tofloat f18;
  do f19 <- pyindex r 19;
  Ok {| ident := AText f0; airport_ref := AText f1; airport_ident := f2;
        length_ft := l; width_ft := w; surface := f5;
        lighted := AText f6; closed := AText f7;
        le_ident := AText f8; le_latitude_deg := AText f9; le_longitude_deg := AText f10;
        le_elevation_ft := lel; le_heading_degt := leh;
        le_displaced_threshold_ft := tofloat_nan f13;
        he_ident := AText f14; he_latitude_deg := AText f15; he_longitude_deg := AText f16;
        he_elevation_ft := hel; he_heading_degt := heh;
        he_displaced_threshold_ft := tofloat_nan f19 |}.

(* atmospheres.py:133-172 Runway.__init__ with a (non-empty) ICAO code; [rows] is
   the content of data/runways.csv.  The result is the nrways attribute together
   with all the others. *)
Definition runway_lookup (rows : list csvrow) (icao_code : string) (rwyno : Z) : res (Z * runway) :=
  do inds <- rindlst 0 rows icao_code;
  let nrways := Z.of_nat (List.length inds) in
  if rwyno >? nrways - 1 then Err ValueError
  else
    do rind <- pyindex inds 0;
    do row <- pyindex rows (Z.of_nat rind + rwyno);
    do rw <- runway_of_row row;
    Ok (nrways, rw).
End Lookup.

(** Python's int(): truncation towards zero.  int(nan) raises ValueError. *)
Definition rtrunc (x : R) : Z :=
  if Rlt_dec x 0 then - Int_part (- x) else Int_part x.
Definition pyint (x : num) : res Z :=
  match x with Fin r => Ok (rtrunc r) | NonFin => Err ValueError end.

(* atmospheres.py:173-194 Runway.__init__ without an ICAO code.  The identifiers
   str(int(heading/10)) are kept as integers. *)
Definition runway_custom (elevation_ft heading : num) (surf : string)
    (length_ft width_ft : num) : res runway :=
  do le <- pyint (heading / #10)%num;
  do he <- pyint (reciprocalhdg heading / #10)%num;
  Ok {| ident := AText "0000000"; airport_ref := AText "0000"; airport_ident := "CUST";
        length_ft := length_ft; width_ft := width_ft; surface := surf;
        lighted := AInt 1; closed := AInt 0;
        le_ident := AInt le; le_latitude_deg := AInt 0; le_longitude_deg := AInt 0;
        le_elevation_ft := elevation_ft; le_heading_degt := heading;
        le_displaced_threshold_ft := #0;
        he_ident := AInt he; he_latitude_deg := AInt 0; he_longitude_deg := AInt 0;
        he_elevation_ft := elevation_ft; he_heading_degt := reciprocalhdg heading;
        he_displaced_threshold_ft := #0 |}.

(* atmospheres.py:197-202: metric attributes *)
Definition length_m (r : runway) : num := feet2m (length_ft r).
Definition width_m (r : runway) : num := feet2m (width_ft r).
Definition le_elevation_m (r : runway) : num := feet2m (le_elevation_ft r).
Definition le_displaced_threshold_m (r : runway) : num := feet2m (le_displaced_threshold_ft r).
Definition he_elevation_m (r : runway) : num := feet2m (he_elevation_ft r).
Definition he_displaced_threshold_m (r : runway) : num := feet2m (he_displaced_threshold_ft r).

(* atmospheres.py:205-272 windcomponents.  A scalar direction gives the first
   entry of each component (IndexError if there is none). *)
Definition windcomponents (rw : runway) (wind_dirs_deg wind_speeds : val) : res (val * val) :=
  let speeds := map nabs (recastasnpfloatarray wind_speeds) in
  let directions_deg := recastasnpfloatarray wind_dirs_deg in
  let rel := map (fun d => ndeg2rad (d - le_heading_degt rw)%num) directions_deg in
  do runway_component <- broadcast nmul speeds (map ncos rel);
  do crosswind_component <- broadcast nmul speeds (map nsin rel);
  match wind_dirs_deg with
  | VNum _ =>
      do a <- pyindex runway_component 0;
      do b <- pyindex crosswind_component 0;
      Ok (VNum a, VNum b)
  | _ => Ok (VArr runway_component, VArr crosswind_component)
  end.

(* ------------------------------------------------------------------------ *)
(** * MIL-HDBK-310 *)

(** A numeric text file as np.loadtxt(unpack=True) returns it: its columns. *)
Definition columns := list (list R).

(* atmospheres.py:844-845: the file name; [alt] is str(alt_km) *)
Definition m310name (high_or_low temp_or_dens alt : string) : string :=
  (high_or_low ++ "_" ++ temp_or_dens ++ "_at_" ++ alt ++ "km.m310")%string.

(* atmospheres.py:841-872.  [datadir] and [cwd] are the readable files of the two
   directories searched; ValueError when the table does not have five columns.
   The result [None] is the pair (None, None) with the printed message.
   (A one-line file, for which np.loadtxt would return numbers instead of
   columns, is not distinguished.) *)
Definition mil_hdbk_310 (datadir cwd : string -> option columns)
    (high_or_low temp_or_dens alt : string) : res (option (profile * profile)) :=
  let name := m310name high_or_low temp_or_dens alt in
  let file := match datadir name with Some c => Some c | None => cwd name end in
  match file with
  | None => Ok None
  | Some cols =>
      match cols with
      | [c0; c1; c2; c3; c4] =>
          let alt_m := map (fun k => (k * 1000)%R) c0 in
          let '(t1, r1, t10, r10) :=
            if String.eqb temp_or_dens "temp" then (c1, c2, c3, c4)
            else (c2, c1, c4, c3) in
          do a1 <- obsprofile (Some alt_m) (Some t1) (Some r1) None;
          do a10 <- obsprofile (Some alt_m) (Some t10) (Some r10) None;
          Ok (Some (a1, a10))
      | _ => Err ValueError
      end
  end.

(* ------------------------------------------------------------------------ *)
(** * weathertools *)

Definition newline : ascii := "010"%char.

(** file.readlines(): lines with their newline; the last one may lack it *)
Fixpoint readlines (s : list ascii) (cur : list ascii) : list (list ascii) :=
  match s with
  | [] => match cur with [] => [] | _ => [rev cur] end
  | c :: r => if Ascii.eqb c newline then rev (c :: cur) :: readlines r []
              else readlines r (c :: cur)
  end.

(** s[:-k] *)
Definition dropend {A} (k : nat) (l : list A) : list A :=
  firstn (List.length l - k) l.

(* weathertools.py:18-35 readmethistfile; [content] is None when the file does
   not exist, otherwise its characters (universal newlines already applied). *)
Definition readmethistfile (content : option (list ascii)) : res (option (list (list ascii))) :=
  match content with
  | None => Ok None
  | Some s =>
      let metarlist := readlines s [] in
      do first <- pyindex metarlist 0;
      do c <- pyindex first (-2);
      Ok (Some (if Ascii.eqb c "="%char then map (dropend 2) metarlist
                else map (dropend 1) metarlist))
  end.

(** s[a:b] for 0 <= a, b *)
Definition pyslice {A} (a b : nat) (l : list A) : list A := skipn a (firstn b l).

(* weathertools.py:38-53 decodemetar; [parse] is the external Metar.Metar
   constructor, None when it raises. *)
Definition decodemetar {M} (parse : list ascii -> option M) (metar_str : list ascii) : option M :=
  match parse metar_str with
  | Some m => Some m
  | None =>
      parse (pyslice 0 4 metar_str ++ list_ascii_of_string " 28" ++ skipn 7 metar_str)
  end.
