(** What the printed catalogue of engines and the constructor of a propeller are meant to do. *)
From Coq Require Import Ascii.
From Verif Require Import Base AtmosModel ConceptModel ConceptSpec PropulsionModel PropulsionSpec.

(** ** Pages *)
(** the kinds of data file with their descriptions, in the order of printing *)
Inductive described : string -> list (string * string) -> Prop :=
| described_turboprop : described "turboprop" [
    ("Thrust_data", "Core/hot thrust (N) versus Mach Number and altitude (m)");
    ("Power_data", "Shaft power (W) versus Mach Number and altitude (m)");
    ("BSFC_data", "BSFC (g/(kWh)) versus Mach Number and altitude (m)")]%string
| described_jet : described "jet" [
    ("Thrust_SL_TO_data", "Take-off thrust (N) versus Mach number at SL");
    ("Thrust_data", "Thrust (N) versus Mach number and altitude (m)");
    ("TSFC_data", "TSFC (g/(kNs)) versus Mach number and engine thrust (N)")]%string
| described_electric : described "electric" [
    ("Efficiency_data", "Efficiency versus Engine speed (RPM) and torque (Nm)")]%string
| described_piston : described "piston" [
    ("Power_data", "Shaft power (W) versus Engine Speed (RPM) and altitude (m)");
    ("BSFC_data", "BSFC (g/(kWh)) Engine Speed (RPM) and shaft power (W)")]%string.
(** the name of a category on a page *)
Inductive titled : string -> string -> Prop :=
| titled_turboprop : titled "turboprop" "Turboprop"
| titled_jet : titled "jet" "Jet"
| titled_electric : titled "electric" "Electric"
| titled_piston : titled "piston" "Piston".

(** [n] of the files of the directory have both the engine and the kind in their names *)
Definition this_many (engine kind : string) (listing : list string) (n : nat) : Prop :=
  exists keep, (forall f, keep f = true <-> occurs engine f /\ occurs kind f) /\ n = List.length (filter keep listing).
(** the lines of a page: every description as often as there are files of its kind *)
Inductive listed (engine : string) (listing : list string) : list (string * string) -> list string -> Prop :=
| listed_end : listed engine listing [] []
| listed_kind kind text n kinds lines : this_many engine kind listing n -> listed engine listing kinds lines ->
    listed engine listing ((kind, text) :: kinds) (repeat text n ++ lines).
(** a dash stands for an empty field *)
Definition or_dash (s shown : string) : Prop := (s = ""%string /\ shown = "-"%string) \/ (s <> ""%string /\ shown = s).

(** lines of text, each with its line feed *)
Fixpoint text_of (lines : list string) : string :=
  match lines with [] => EmptyString | x :: r => (x ++ String "010"%char (text_of r))%string end.
(** the page of an engine: title, available data (one empty item when there are none), notes,
    reference with a space behind it, and two empty lines *)
Inductive page (category : string) (listing : list string) : list string -> string -> Prop :=
| page_of engine notes reference kinds title items lines notes' reference' :
    titled category title -> described category kinds -> listed engine listing kinds items ->
    or_dash notes notes' -> or_dash reference reference' ->
    lines = match items with [] => [""%string] | _ => items end ->
    page category listing [engine; notes; reference]
      (text_of ([engine ++ " (" ++ title ++ " Deck)"; "Ground-Truth Data Available:"]%string ++
                map (fun i => " > " ++ i)%string lines ++
                ["Engine Notes:"; " " ++ notes'; "Reference:"; " " ++ reference' ++ " "; ""; ""]%string)%list).
(** one page after the other *)
Inductive pages (category : string) (listing : list string) : list (list string) -> string -> Prop :=
| pages_end : pages category listing [] ""%string
| pages_next row t rows ts : page category listing row t -> pages category listing rows ts ->
    pages category listing (row :: rows) (t ++ ts)%string.

(** a file whose name has the engine and the kind in it, and ".csv" right behind the kind *)
Definition named (e kind : string) (listing : list string) : Prop :=
  exists f, In f listing /\ occurs e f /\ occurs (kind ++ ".csv") f.

(** ** Propellers *)
(** the entry of a dictionary, if there is one *)
Definition entry {V} (d : dict V) (k : string) (v : option V) : Prop :=
  match v with Some x => binds d k x | None => forall x, ~ binds d k x end.
