(** The runway database shipped with the code (ADRpy/data/runways.csv): what is known of its
    rows, independently of atmospheres.py. *)
From Coq Require Import Ascii QArith.
From Verif Require Import Base AtmosModel PropulsionModel RunwayModel RunwaySpec ShippedModel RunwayText.

(** the airport of each row after the header, with the text of its numbers *)
Definition row_texts : list (string * string) := flat_map (fun a => map (pair (fst a)) (snd a)) shipped_airports.
(** the columns that hold the numbers *)
Definition number_columns : list (nat * nat) := [(0, 3); (1, 4); (2, 11); (3, 12); (4, 17); (5, 18)]%nat.
Definition row_of_text (r : csvrow) (d : string * string) : Prop :=
  List.length r = 20%nat /\ of_airport (fst d) r /\
  forall i k, In (i, k) number_columns -> nth_error r k = Some (nth i (split_on ","%char (snd d)) ""%string).
(** the contents of runways.csv: a header and these rows; nothing is said about the other columns *)
Definition shipped_database (db : list csvrow) : Prop :=
  exists rows, db = (header ++ [""%string])%list :: rows /\ Forall2 row_of_text rows row_texts.

(** Runway(code, n) gives the runway [rw] *)
Definition gives (db : list csvrow) (code : string) (n : Z) (rw : runway) : Prop :=
  exists k, runway_lookup parse_float db code n = Ok (k, rw).
(** an airport of the database *)
Definition airport (db : list csvrow) (code : string) : Prop := exists r, In r (tl db) /\ of_airport code r.
Definition can_be_read (r : csvrow) : bool := match runway_of_row parse_float r with Ok _ => true | Err _ => false end.

(** airports one of whose runways has ends that are not opposite to 10 degrees *)
Definition crooked : list string :=
  ["22XS"; "29AZ"; "31VA"; "34AZ"; "38C"; "4AZ7"; "4D8"; "82IS"; "89D"; "89TS"; "8CA8"; "8K5";
   "99CL"; "9NC0"; "9TX5"; "AZ77"; "CA73"; "CO80"; "EGCJ"; "EGSX"; "HI01"; "K02C"; "K06C"; "K06M";
   "K07A"; "K08C"; "K08K"; "K0A2"; "K0A9"; "K0B1"; "K0G3"; "K0R6"; "K0V6"; "K12D"; "K12Y"; "K14F";
   "K14J"; "K15M"; "K16J"; "K18A"; "K19S"; "K1A3"; "K1D3"; "K1D7"; "K1D8"; "K1G4"; "K1H5"; "K1I7";
   "K1L1"; "K1M9"; "K1O5"; "K1Q4"; "K1U2"; "K1U7"; "K1V6"; "K22F"; "K22I"; "K22M"; "K24A"; "K24F";
   "K25D"; "K25J"; "K2A6"; "K2CB"; "K2E7"; "K2F1"; "K2H0"; "K2H9"; "K2IS"; "K2K3"; "K2K4"; "K2K7";
   "K2O3"; "K2O6"; "K2R2"; "K33M"; "K33R"; "K33U"; "KLWT"; "KNEN"; "LIDG"; "RJTT"; "RU-0218";
   "YSCA"]%string.
