(** Property C101: the runway database shipped with the code (ADRpy/data/runways.csv), as looked
    up by atmospheres.Runway. *)
From Verif Require Import Base RunwayModel RunwaySpec ShippedModel RunwayDbSpec RunwayDbProofs RunwayDbProofs2 RunwayDbProofs3.
Open Scope R_scope.

(** the rows of every airport are consecutive, so that Runway(code, n) is its n-th runway *)
Theorem C101_nth_runway : forall db code n row, shipped_database db -> airport db code -> nth_error (rows_of db code) n = Some row ->
  runway_lookup parse_float db code (Z.of_nat n) = rmap (fun rw => (Z.of_nat (List.length (rows_of db code)), rw)) (runway_of_row parse_float row).
Proof. exact db_lookup. Qed.
Print Assumptions C101_nth_runway.
Theorem C101_own_runway : forall db code n rw, shipped_database db -> (0 <= n)%Z -> gives db code n rw -> airport_ident rw = code.
Proof. exact db_ident. Qed.
Print Assumptions C101_own_runway.
(** but the number -1 gives a runway of the airport listed before *)
Theorem C101_negative_refuted : forall db, shipped_database db -> exists rw, gives db "2K1" (-1) rw /\ airport_ident rw = "2K0"%string.
Proof. exact db_negative. Qed.
Print Assumptions C101_negative_refuted.

(** every runway that is found has plausible numbers; its width is smaller than its length, its
    headings are at most 360 degrees and opposite to each other within 10 degrees, but for the
    airports named *)
Theorem C101_numbers : forall db code n rw, shipped_database db -> (0 <= n)%Z -> gives db code n rw ->
  exists l w e1 h1 e2 h2, length_ft rw = Fin l /\ width_ft rw = Fin w /\ le_elevation_ft rw = Fin e1 /\ le_heading_degt rw = Fin h1 /\
    he_elevation_ft rw = Fin e2 /\ he_heading_degt rw = Fin h2 /\
    23 <= l <= 16404 /\ 20 <= w <= 5000 /\ -1246 <= e1 <= 13202 /\ -1266 <= e2 <= 13314 /\ 0 <= h1 <= 360 /\ 0 <= h2 <= 363 /\
    (~ In code ["EGCL"; "EGED"]%string -> h2 <= 360) /\ (~ In code ["CPC7"; "EINN"]%string -> w < l) /\
    (~ In code crooked -> Rabs (Rabs (h1 - h2) - 180) <= 10).
Proof. exact db_numbers. Qed.
Print Assumptions C101_numbers.
Theorem C101_opposite_refuted : forall db c, shipped_database db -> In c crooked ->
  exists n rw h1 h2, (0 <= n)%Z /\ gives db c n rw /\ le_heading_degt rw = Fin h1 /\ he_heading_degt rw = Fin h2 /\ 10 < Rabs (Rabs (h1 - h2) - 180).
Proof. exact db_crooked. Qed.
Print Assumptions C101_opposite_refuted.
Theorem C101_heading_refuted : forall db c, shipped_database db -> In c ["EGCL"; "EGED"]%string ->
  exists n rw h2, (0 <= n)%Z /\ gives db c n rw /\ he_heading_degt rw = Fin h2 /\ 360 < h2.
Proof. exact db_beyond. Qed.
Print Assumptions C101_heading_refuted.
Theorem C101_width_refuted : forall db c, shipped_database db -> In c ["CPC7"; "EINN"]%string ->
  exists n rw l w, (0 <= n)%Z /\ gives db c n rw /\ length_ft rw = Fin l /\ width_ft rw = Fin w /\ l < w.
Proof. exact db_wide. Qed.
Print Assumptions C101_width_refuted.

(** a quarter of the rows can be used *)
Theorem C101_rows : forall db, shipped_database db -> Z.of_nat (List.length (tl db)) = 40489%Z /\ Z.of_nat (List.length (filter can_be_read (tl db))) = 10425%Z.
Proof. exact db_rows. Qed.
Print Assumptions C101_rows.
Theorem C101_airports : forall db, shipped_database db -> exists codes, NoDup codes /\ Z.of_nat (List.length codes) = 34113%Z /\ forall c, airport db c <-> In c codes.
Proof. exact db_airports. Qed.
Print Assumptions C101_airports.
(** the constructor raises for every runway of 26685 of the 34113 airports *)
Theorem C101_usable_refuted : forall db, shipped_database db -> exists codes, NoDup codes /\ Z.of_nat (List.length codes) = 26685%Z /\
  forall c, In c codes -> airport db c /\ forall n rw, (0 <= n)%Z -> ~ gives db c n rw.
Proof. exact db_unusable. Qed.
Print Assumptions C101_usable_refuted.

(** the examples of the documentation *)
Theorem C101_heathrow : forall db, shipped_database db -> exists rw, runway_lookup parse_float db "EGLL" 0 = Ok (2%Z, rw) /\
  le_heading_degt rw = Fin 89.6 /\ he_heading_degt rw = Fin 269.6 /\ le_elevation_ft rw = Fin 79 /\ length_ft rw = Fin 12799.
Proof. exact db_heathrow. Qed.
Print Assumptions C101_heathrow.
Theorem C101_denver : forall db, shipped_database db -> exists rw, runway_lookup parse_float db "KDEN" 0 = Ok (6%Z, rw) /\ le_heading_degt rw = Fin 90.5.
Proof. exact db_denver. Qed.
Print Assumptions C101_denver.
Example C101_nonvacuous : exists db, shipped_database db.
Proof. exact db_exists. Qed.
