(** Specifications for the runway, handbook profile and METAR properties. *)
From Coq Require Import Ascii.
From Verif Require Import Base RunwayModel.
Open Scope R_scope.

(** ** Wind *)
(** a wind of strength [w >= 0] blowing from [d] degrees, seen from a runway with
    true heading [h]: [head] along the runway (headwind positive), [cross] from the
    right *)
Definition wind_resolved (h d w head cross : R) : Prop :=
  head ^ 2 + cross ^ 2 = w ^ 2 /\
  head = w * cos ((d - h) / 180 * PI) /\ cross = w * sin ((d - h) / 180 * PI).

(** ** The runway database *)
(** the columns of data/runways.csv, as named in its first line *)
Definition header : list string :=
  [ "id"; "airport_ref"; "airport_ident"; "length_ft"; "width_ft"; "surface"; "lighted";
    "closed"; "le_ident"; "le_latitude_deg"; "le_longitude_deg"; "le_elevation_ft";
    "le_heading_degT"; "le_displaced_threshold_ft"; "he_ident"; "he_latitude_deg";
    "he_longitude_deg"; "he_elevation_ft"; "he_heading_degT";
    "he_displaced_threshold_ft" ]%string.

(** the entry of a row in the column with a given name *)
Fixpoint column (names : list string) (row : list string) (name : string) : option string :=
  match names, row with
  | n :: ns, f :: fs => if String.eqb n name then Some f else column ns fs name
  | _, _ => None
  end.

(** which attribute holds which column: texts, required numbers, and the
    displaced thresholds, which may be blank *)
Definition text_attrs : list (string * (runway -> attr)) :=
  [ ("id", ident); ("airport_ref", airport_ref); ("lighted", lighted); ("closed", closed);
    ("le_ident", le_ident); ("le_latitude_deg", le_latitude_deg); ("le_longitude_deg", le_longitude_deg);
    ("he_ident", he_ident); ("he_latitude_deg", he_latitude_deg); ("he_longitude_deg", he_longitude_deg) ]%string.
Definition number_attrs : list (string * (runway -> num)) :=
  [ ("length_ft", length_ft); ("width_ft", width_ft); ("le_elevation_ft", le_elevation_ft);
    ("le_heading_degT", le_heading_degt); ("he_elevation_ft", he_elevation_ft);
    ("he_heading_degT", he_heading_degt) ]%string.
Definition threshold_attrs : list (string * (runway -> num)) :=
  [ ("le_displaced_threshold_ft", le_displaced_threshold_ft);
    ("he_displaced_threshold_ft", he_displaced_threshold_ft) ]%string.

(** the row belongs to the airport *)
Definition of_airport (code : string) (row : list string) : Prop :=
  nth_error row 2 = Some code.

(** the airport's rows, in order *)
Fixpoint rows_of (db : list (list string)) (code : string) : list (list string) :=
  match db with
  | [] => []
  | r :: t => match nth_error r 2 with
              | Some f => if String.eqb f code then r :: rows_of t code else rows_of t code
              | None => rows_of t code
              end
  end.

(** the rows of the airport are consecutive: [mid] *)
Definition consecutive (db : list (list string)) (code : string)
    (pre mid post : list (list string)) : Prop :=
  db = pre ++ mid ++ post /\ Forall (of_airport code) mid /\
  Forall (fun r => (3 <= List.length r)%nat /\ ~ of_airport code r) (pre ++ post).

(** ** Text files *)
Definition report := list ascii.
Definition plain (r : report) : Prop := ~ In newline r.
(** a file with one report per line, each ended by [tail] *)
Definition file_of (tail : list ascii) (rs : list report) : list ascii :=
  List.concat (map (fun r => r ++ tail ++ [newline]) rs).

(** ** Handbook tables *)
(** a table of MIL-HDBK-310 lists the extreme quantity before the associated one,
    for the 1 % and for the 10 % frequency of occurrence *)
Record table := { km : list R; extreme1 : list R; associated1 : list R;
                  extreme10 : list R; associated10 : list R }.
Definition columns_of (t : table) : list (list R) :=
  [km t; extreme1 t; associated1 t; extreme10 t; associated10 t].
Definition rectangular (t : table) : Prop :=
  km t <> [] /\ List.length (extreme1 t) = List.length (km t) /\
  List.length (associated1 t) = List.length (km t) /\
  List.length (extreme10 t) = List.length (km t) /\
  List.length (associated10 t) = List.length (km t).
Definition text (s : string) : list ascii := list_ascii_of_string s.

(** ** The handbook's files *)
Definition m310file (high_or_low temp_or_dens km : string) : string :=
  String.concat "" [high_or_low; "_"; temp_or_dens; "_at_"; km; "km.m310"]%string.
