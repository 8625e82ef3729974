(** Specifications: numbers with an exponent, the atmospheres of the handbook files. *)
From Coq Require Import QArith Ascii.
From Verif Require Import Base AtmosModel RunwayModel RunwaySpec ShippedModel ShippedSpec HandbookModel.
Open Scope R_scope.

(** ** Numbers with or without an exponent *)
(** an integer with or without a sign *)
Definition integer (s : string) (z : Z) : Prop :=
  (exists n, digits s (S n) (IZR z)) \/
  exists t n, s = ("+" ++ t)%string /\ digits t (S n) (IZR z) \/ s = ("-" ++ t)%string /\ digits t (S n) (IZR (- z)).
Definition scientific (s : string) (r : R) : Prop :=
  number s r \/ exists m x a z, s = (m ++ "e" ++ x)%string /\ number m a /\ integer x z /\ r = a * powerRZ 10 z.

(** ** The atmospheres of the handbook *)
Definition highs_lows : list string := ["high"; "low"]%string.
Definition quantities : list string := ["temp"; "dens"]%string.
Definition altitudes : list string := ["5"; "10"; "20"]%string.
(** the profile of one and of ten per cent frequency of occurrence *)
Inductive frequency := one | ten.
Definition of_frequency (f : frequency) (p : profile * profile) : profile := match f with one => fst p | ten => snd p end.
(** [a] is an atmosphere with a handbook profile, whatever files the current directory has *)
Definition handbook (hl td alt : string) (f : frequency) (a : atmosphere) : Prop :=
  In hl highs_lows /\ In td quantities /\ In alt altitudes /\
  exists cwd p, mil_hdbk_310 handbook_dir cwd hl td alt = Ok (Some p) /\ prof a = Some (of_frequency f p).
(** [x] is the answer for the altitude [h] in m *)
Definition density (a : atmosphere) (h x : R) : Prop := airdens_kgpm3 a (VNum (Fin h)) = Ok (VNum (Fin x)).
Definition temperature (a : atmosphere) (h x : R) : Prop := airtemp_k a (VNum (Fin h)) = Ok (VNum (Fin x)).
Definition pressure (a : atmosphere) (h x : R) : Prop := airpress_pa a (VNum (Fin h)) = Ok (VNum (Fin x)).
(** the quantity in the name of a file *)
Definition quantity (td : string) (a : atmosphere) (h x : R) : Prop := if String.eqb td "temp" then temperature a h x else density a h x.

(** profiles with a density that rises somewhere, and the two altitudes between which it does *)
Definition inversions : list (string * string * string * frequency * (R * R)) := [
  ("high", "dens", "5", one, (38000, 40000)); ("high", "dens", "5", one, (56000, 58000)); ("high", "dens", "5", one, (76000, 78000));
  ("high", "temp", "20", ten, (20000, 22000)); ("low", "dens", "5", one, (30000, 32000))]%string.
Definition inverted (hl td alt : string) (f : frequency) : Prop := exists r, In (hl, td, alt, f, r) inversions.
(** the profile with a temperature of nearly zero: one field of its file is 263e-650 *)
Definition frozen (hl td alt : string) (f : frequency) : Prop := hl = "high"%string /\ td = "dens"%string /\ alt = "10"%string /\ f = ten.
(** the altitude in the name of a file, in m *)
Definition named_altitude (alt : string) (h : R) : Prop := exists r, number alt r /\ h = 1000 * r.
