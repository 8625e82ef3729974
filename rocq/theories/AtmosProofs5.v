(** Queries derived from temperature, pressure, density and speed of sound. *)
From Verif Require Import Base BaseFacts UnitsModel AtmosModel AtmosSpec AtmosProofs AtmosProofs2 AtmosProofs4.
Open Scope R_scope.

Lemma vlit_elements f (g : R -> R) v r : (forall x, f (Fin x) = Fin (g x)) -> f NonFin = NonFin ->
  vlit f v = Ok r -> Forall2 (converted g) (elements v) (elements r).
Proof.
  intros F N H. assert (L : forall l, Forall2 (converted g) l (map f l)).
  { induction l as [|a l IH]; constructor; [|exact IH]. split; intros; subst; auto. }
  destruct v as [x|l|l]; [|discriminate|].
  - assert (r = VNum (f x)) as -> by (cbn [vlit] in H; congruence). exact (L [x]).
  - assert (r = VArr (map f l)) as -> by (cbn [vlit] in H; congruence). exact (L l).
Qed.

Lemma derived_queries atm alts :
  (forall tk tc, airtemp_k atm alts = Ok tk -> airtemp_c atm alts = Ok tc ->
     Forall2 (converted (fun k => k - 273.15)) (elements tk) (elements tc)) /\
  (forall p pm, airpress_pa atm alts = Ok p -> airpress_mbar atm alts = Ok pm ->
     Forall2 (converted (fun x => x / 100)) (elements p) (elements pm)) /\
  (forall a ak, vsound_mps atm alts = Ok a -> vsound_kts atm alts = Ok ak ->
     Forall2 (converted (fun x => x * 1.9438445)) (elements a) (elements ak)) /\
  (forall V d q, airdens_kgpm3 atm alts = Ok d -> dynamicpressure_pa atm (Fin V) alts = Ok q ->
     Forall2 (converted (fun rho => 1 / 2 * rho * V ^ 2)) (elements d) (elements q)).
Proof.
  repeat split.
  - intros tk tc E. unfold airtemp_c. rewrite E. cbn [rbind]. apply vlit_elements; [|reflexivity].
    intros x. unfold k2c. nfin. reflexivity.
  - intros tk tc E. unfold airpress_mbar. rewrite E. cbn [rbind]. apply vlit_elements; [|reflexivity].
    intros x. unfold pa2mbar. nfin. apply Fin_eq. lra.
  - intros tk tc E. unfold vsound_kts. rewrite E. cbn [rbind]. apply vlit_elements; [|reflexivity].
    intros x. unfold mps2kts. nfin. reflexivity.
  - intros V d q E. unfold dynamicpressure_pa. rewrite E. cbn [rbind]. apply vlit_elements; [|reflexivity].
    intros x. rewrite npown_fin, !nmul_fin. apply Fin_eq. lra.
Qed.

Lemma derived_isa o h V : h <= 50000 -> 0 < std_temp h + o ->
  exists p d a, airpress_pa (isa o) (VNum (Fin h)) = Ok (VNum (Fin p)) /\
    airdens_kgpm3 (isa o) (VNum (Fin h)) = Ok (VNum (Fin d)) /\
    vsound_mps (isa o) (VNum (Fin h)) = Ok (VNum (Fin a)) /\
    airtemp_c (isa o) (VNum (Fin h)) = Ok (VNum (Fin (std_temp h + o - 273.15))) /\
    airpress_mbar (isa o) (VNum (Fin h)) = Ok (VNum (Fin (p / 100))) /\
    vsound_kts (isa o) (VNum (Fin h)) = Ok (VNum (Fin (a * 1.9438445))) /\
    dynamicpressure_pa (isa o) (Fin V) (VNum (Fin h)) = Ok (VNum (Fin (1 / 2 * d * V ^ 2))).
Proof.
  intros H T. do 3 eexists. split; [apply airpress_isa; lra|]. split; [apply airdens_isa; lra|].
  split; [apply vsound_isa; lra|]. unfold airtemp_c, airpress_mbar, vsound_kts, dynamicpressure_pa.
  rewrite airtemp_isa, airpress_isa, airdens_isa, vsound_isa by lra. cbn [rbind vlit].
  unfold k2c, pa2mbar, mps2kts. nfin.
  repeat split; apply (f_equal (fun x => Ok (VNum (Fin x)))); try reflexivity; lra.
Qed.
Lemma derived_example : 11000 <= 50000 /\ 0 < std_temp 11000 + 15.
Proof.
  split; [lra|]. unfold std_temp, climb. rewrite !Rmin_left by lra. rewrite !Rmax_left by lra. lra.
Qed.
