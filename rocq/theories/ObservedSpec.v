(** Specifications: atmospheres made from the readings of an ascent. *)
From Verif Require Import Base AtmosModel AtmosSpec.
Open Scope R_scope.

(** a reading: altitude in m, temperature in K, density in kg/m3 *)
Record reading := { rd_h : R; rd_temp : R; rd_rho : R }.
(** pressure by the gas law, and speed of sound, at a reading *)
Definition rd_press (l : reading) : R := 287.05287 * rd_rho l * rd_temp l.
Definition rd_sound (l : reading) : R := sqrt (1.4 * 287.05287 * rd_temp l).
(** physical readings, each at its own altitude, in any order *)
Definition ascent (obs : list reading) : Prop :=
  obs <> [] /\ NoDup (map rd_h obs) /\ Forall (fun l => 0 < rd_temp l /\ 0 < rd_rho l) obs.
(** [a] is the atmosphere of these readings, [p] its profile *)
Definition observed (a : atmosphere) (p : profile) (obs : list reading) : Prop :=
  obsprofile (Some (map rd_h obs)) (Some (map rd_temp obs)) (Some (map rd_rho obs)) None = Ok p /\ prof a = Some p.
(** [x] is neither below all readings nor above all *)
Definition covered (obs : list reading) (x : R) : Prop := exists l h, In l obs /\ In h obs /\ rd_h l <= x <= rd_h h.
(** [x] lies between the neighbouring readings [lo] and [hi], at the fraction [s] of the way up *)
Definition layer (obs : list reading) (x : R) (lo hi : reading) (s : R) : Prop :=
  In lo obs /\ In hi obs /\ rd_h lo <= rd_h hi /\ (forall r, In r obs -> rd_h r <= rd_h lo \/ rd_h hi <= rd_h r) /\
  0 <= s <= 1 /\ x = rd_h lo + s * (rd_h hi - rd_h lo).
(** the value at the fraction [s] of the way from [u] to [v] *)
Definition part_way (s u v : R) : R := u + s * (v - u).
(** the answers for one altitude *)
Definition answers (a : atmosphere) (x T rho p c : R) : Prop :=
  airtemp_k a (VNum (Fin x)) = Ok (VNum (Fin T)) /\ airdens_kgpm3 a (VNum (Fin x)) = Ok (VNum (Fin rho)) /\
  airpress_pa a (VNum (Fin x)) = Ok (VNum (Fin p)) /\ vsound_mps a (VNum (Fin x)) = Ok (VNum (Fin c)).
Definition refuses (a : atmosphere) (x : R) : Prop :=
  airtemp_k a (VNum (Fin x)) = Err TypeError /\ airdens_kgpm3 a (VNum (Fin x)) = Err TypeError /\
  airpress_pa a (VNum (Fin x)) = Err TypeError /\ vsound_mps a (VNum (Fin x)) = Err TypeError.
