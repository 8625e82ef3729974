From Verif Require Import Base BaseFacts UnitsModel UnitsSpec.
Open Scope R_scope.

Ltac inv_tac := intros x; split; eexists; (split; [ unfold sc_g; nfin; reflexivity
   | unfold sc_g; nfin; apply Fin_eq; dfield ]).

Lemma inv_feet_m : mutually_inverse feet2m m2feet.
Proof. unfold feet2m, m2feet; inv_tac. Qed.
Lemma inv_feet2_m2 : mutually_inverse feet22m2 m22feet2.
Proof. unfold feet22m2, m22feet2; inv_tac. Qed.
Lemma inv_m_km : mutually_inverse m2km km2m.
Proof. unfold m2km, km2m; inv_tac. Qed.
Lemma inv_c_k : mutually_inverse c2k k2c.
Proof. unfold c2k, k2c; inv_tac. Qed.
Lemma inv_c_r : mutually_inverse c2r r2c.
Proof. unfold c2r, r2c; inv_tac. Qed.
Lemma inv_k_r : mutually_inverse k2r r2k.
Proof. unfold k2r, r2k; inv_tac. Qed.
Lemma inv_pa_mbar : mutually_inverse pa2mbar mbar2pa.
Proof. unfold pa2mbar, mbar2pa; inv_tac. Qed.
Lemma inv_inhg_mbar : mutually_inverse inhg2mbar mbar2inhg.
Proof. unfold inhg2mbar, mbar2inhg; inv_tac. Qed.
Lemma inv_mbar_lbfft2 : mutually_inverse mbar2lbfft2 lbfft22mbar.
Proof. unfold mbar2lbfft2, lbfft22mbar; inv_tac. Qed.
Lemma inv_pa_lbfft2 : mutually_inverse pa2lbfft2 lbfft22pa.
Proof. unfold pa2lbfft2, lbfft22pa; inv_tac. Qed.
Lemma inv_kg_n : mutually_inverse kg2n n2kg.
Proof. unfold kg2n, n2kg; inv_tac. Qed.
Lemma inv_lbs_kg : mutually_inverse lbs2kg kg2lbs.
Proof. unfold lbs2kg, kg2lbs; inv_tac. Qed.
Lemma inv_lbf_n : mutually_inverse lbf2n n2lbf.
Proof. unfold lbf2n, n2lbf; inv_tac. Qed.
Lemma inv_kw_hp : mutually_inverse kw2hp hp2kw.
Proof. unfold kw2hp, hp2kw; inv_tac. Qed.
Lemma inv_kgm3_sft3 : mutually_inverse kgm32sft3 sft32kgm3.
Proof. unfold kgm32sft3, sft32kgm3; inv_tac. Qed.

Lemma inverse_pairs : forall f g, In (f, g)
   [ (feet2m, m2feet); (feet22m2, m22feet2); (m2km, km2m); (c2k, k2c);
     (c2r, r2c); (k2r, r2k); (pa2mbar, mbar2pa); (inhg2mbar, mbar2inhg);
     (mbar2lbfft2, lbfft22mbar); (pa2lbfft2, lbfft22pa); (kg2n, n2kg);
     (lbs2kg, kg2lbs); (lbf2n, n2lbf); (kw2hp, hp2kw); (kgm32sft3, sft32kgm3) ] ->
   mutually_inverse f g.
Proof.
  intros f g H; cbn [In] in H.
  repeat match type of H with
  | _ \/ _ => destruct H as [H|H]
  | False => destruct H
  end; injection H as <- <-.
  - exact inv_feet_m. - exact inv_feet2_m2. - exact inv_m_km. - exact inv_c_k.
  - exact inv_c_r. - exact inv_k_r. - exact inv_pa_mbar. - exact inv_inhg_mbar.
  - exact inv_mbar_lbfft2. - exact inv_pa_lbfft2. - exact inv_kg_n. - exact inv_lbs_kg.
  - exact inv_lbf_n. - exact inv_kw_hp. - exact inv_kgm3_sft3.
Qed.

Lemma scales_by_lin f c k tol :
  (forall x, f (Fin x) = Fin (c * x)) -> Rabs (c - k) <= tol * Rabs k ->
  scales_by f k tol.
Proof.
  intros Hf Hc x. exists (c * x). split; [apply Hf|].
  replace (c * x - k * x) with ((c - k) * x) by ring.
  rewrite !Rabs_mult. rewrite <- Rmult_assoc.
  apply Rmult_le_compat_r; [apply Rabs_pos|exact Hc].
Qed.

Ltac unitdefs := unfold lbfft2_Pa, slugft3_kgm3, slug_kg, hp_W, inHg_Pa, mbar_Pa, knot_mps,
   lbf_N, gravity, pound_kg, inch_m, foot_m.
Lemma close_pos c k tol : 0 < k -> - tol * k <= c - k <= tol * k ->
  Rabs (c - k) <= tol * Rabs k.
Proof. intros Hk H; rewrite (Rabs_pos_eq k) by lra; apply Rabs_le; lra. Qed.
Ltac constle := apply Rminus_le; rdec; field_simplify; try lra.
Ltac posabs := apply close_pos; [ apply Rminus_lt; rdec; field_simplify; lra | split; constle ].
Ltac scale_tac c :=
  apply (scales_by_lin _ c);
  [ intros x; unfold sc_g; nfin; apply Fin_eq; dfield
  | unitdefs; posabs ].

Lemma sc_feet2m : scales_by feet2m (foot_m / 1) 0.
Proof. unfold feet2m; scale_tac 0.3048. Qed.
Lemma sc_m2feet : scales_by m2feet (1 / foot_m) 0.
Proof. unfold m2feet; scale_tac (1/0.3048). Qed.
Lemma sc_feet22m2 : scales_by feet22m2 (foot_m * foot_m) 1e-6.
Proof. unfold feet22m2; scale_tac (1/10.7639). Qed.
Lemma sc_m2km : scales_by m2km (1 / 1000) 0.
Proof. unfold m2km; scale_tac (1/1000). Qed.
Lemma sc_pa2mbar : scales_by pa2mbar (1 / mbar_Pa) 0.
Proof. unfold pa2mbar; scale_tac 0.01. Qed.
Lemma sc_inhg2mbar : scales_by inhg2mbar (inHg_Pa / mbar_Pa) 1e-6.
Proof. unfold inhg2mbar; scale_tac 33.8639. Qed.
Lemma sc_mbar2lbfft2 : scales_by mbar2lbfft2 (mbar_Pa / lbfft2_Pa) 2e-6.
Proof. unfold mbar2lbfft2; scale_tac 2.08854. Qed.
Lemma sc_pa2lbfft2 : scales_by pa2lbfft2 (1 / lbfft2_Pa) 1e-8.
Proof. unfold pa2lbfft2; scale_tac 0.020885434273039. Qed.
Lemma sc_mps2kts : scales_by mps2kts (1 / knot_mps) 1e-8.
Proof. unfold mps2kts; scale_tac 1.9438445. Qed.
Lemma sc_kts2mps : scales_by kts2mps knot_mps 1e-7.
Proof. unfold kts2mps; scale_tac 0.5144444. Qed.
Lemma sc_pa2kgm2 : scales_by pa2kgm2 (1 / gravity) 1e-12.
Proof. unfold pa2kgm2; scale_tac 0.1019716212978. Qed.
Lemma sc_kgm22pa : scales_by kgm22pa gravity 0.
Proof. unfold kgm22pa; scale_tac 9.80665. Qed.
Lemma sc_kg2n : scales_by kg2n gravity 0.
Proof. unfold kg2n; scale_tac 9.80665. Qed.
Lemma sc_fpm2mps : scales_by fpm2mps (foot_m / 60) 0.
Proof. unfold fpm2mps, feet2m; scale_tac (0.3048/60). Qed.
Lemma sc_lbs2kg : scales_by lbs2kg pound_kg 1e-6.
Proof. unfold lbs2kg; scale_tac 0.453592. Qed.
Lemma sc_lbf2n : scales_by lbf2n lbf_N 1e-6.
Proof. unfold lbf2n; scale_tac (1/0.224809). Qed.
Lemma sc_wn2wkg : scales_by wn2wkg gravity 0.
Proof. unfold wn2wkg; scale_tac 9.80665. Qed.
Lemma sc_wn2kwkg : scales_by wn2kwkg (gravity / 1000) 0.
Proof. unfold wn2kwkg, wn2wkg; scale_tac (9.80665/1000). Qed.
Lemma sc_wn2hpkg : scales_by wn2hpkg (gravity / hp_W) 2e-6.
Proof. unfold wn2hpkg, wn2kwkg, wn2wkg; scale_tac (9.80665/1000*1.34102). Qed.
Lemma sc_kw2hp : scales_by kw2hp (1000 / hp_W) 2e-6.
Proof. unfold kw2hp; scale_tac 1.34102. Qed.
Lemma sc_kgm32sft3 : scales_by kgm32sft3 (1 / slugft3_kgm3) 1e-6.
Proof. unfold kgm32sft3; scale_tac 0.00194032. Qed.

Lemma scale_table : forall f k, In (f, k)
   [ (feet2m, foot_m / 1); (m2feet, 1 / foot_m); (feet22m2, foot_m * foot_m);
     (m2km, 1 / 1000); (pa2mbar, 1 / mbar_Pa); (inhg2mbar, inHg_Pa / mbar_Pa);
     (mbar2lbfft2, mbar_Pa / lbfft2_Pa); (pa2lbfft2, 1 / lbfft2_Pa);
     (mps2kts, 1 / knot_mps); (kts2mps, knot_mps); (pa2kgm2, 1 / gravity);
     (kgm22pa, gravity); (kg2n, gravity); (fpm2mps, foot_m / 60);
     (lbs2kg, pound_kg); (lbf2n, lbf_N); (wn2wkg, gravity); (wn2kwkg, gravity / 1000);
     (wn2hpkg, gravity / hp_W); (kw2hp, 1000 / hp_W); (kgm32sft3, 1 / slugft3_kgm3) ] ->
   scales_by f k 2e-6.
Proof.
  assert (W : forall f k t, t <= 2e-6 -> scales_by f k t -> scales_by f k 2e-6).
  { intros f k t Ht H x; destruct (H x) as [y [E B]]; exists y; split; [exact E|].
    eapply Rle_trans; [exact B|]. apply Rmult_le_compat_r; [apply Rabs_pos|exact Ht]. }
  intros f k H; cbn [In] in H.
  repeat match type of H with
  | _ \/ _ => destruct H as [H|H]
  | False => destruct H
  end; injection H as <- <-; (eapply W; [|
     first [ exact sc_feet2m | exact sc_m2feet | exact sc_feet22m2 | exact sc_m2km
     | exact sc_pa2mbar | exact sc_inhg2mbar | exact sc_mbar2lbfft2 | exact sc_pa2lbfft2
     | exact sc_mps2kts | exact sc_kts2mps | exact sc_pa2kgm2 | exact sc_kgm22pa
     | exact sc_kg2n | exact sc_fpm2mps | exact sc_lbs2kg | exact sc_lbf2n
     | exact sc_wn2wkg | exact sc_wn2kwkg | exact sc_wn2hpkg | exact sc_kw2hp
     | exact sc_kgm32sft3 ]]; lra).
Qed.

(** C02 *)
Lemma kts_round_trip : scales_by (fun x => kts2mps (mps2kts x)) 1 1e-7 /\
                       scales_by (fun x => mps2kts (kts2mps x)) 1 1e-7.
Proof. split; unfold kts2mps, mps2kts; scale_tac (1.9438445*0.5144444). Qed.
Lemma kgm2_round_trip : scales_by (fun x => kgm22pa (pa2kgm2 x)) 1 1e-13 /\
                        scales_by (fun x => pa2kgm2 (kgm22pa x)) 1 1e-13.
Proof. split; unfold kgm22pa, pa2kgm2; scale_tac (0.1019716212978*9.80665). Qed.
Lemma kts_not_inverse : forall x : R, x <> 0 -> kts2mps (mps2kts (Fin x)) <> Fin x.
Proof.
  intros x Hx; unfold kts2mps, mps2kts; nfin; intros H; apply Fin_inj in H.
  apply Hx. rdec. lra.
Qed.

(** C03 *)
Lemma temp_affine : affine c2f (9/5) 32 /\ affine c2k 1 273.15 /\ affine k2c 1 (-273.15) /\
  affine c2r (9/5) 491.67 /\ affine r2c (5/9) (-273.15) /\ affine k2r (9/5) 0 /\ affine r2k (5/9) 0.
Proof.
  repeat split; intros x; unfold c2f, c2k, k2c, c2r, r2c, k2r, r2k; nfin;
  apply Fin_eq; rdec; lra.
Qed.
Lemma temp_paths : forall x : R,
  k2r (c2k (Fin x)) = c2r (Fin x) /\ k2c (r2k (Fin x)) = r2c (Fin x).
Proof.
  intros x; split; unfold c2k, k2c, c2r, r2c, k2r, r2k; nfin; apply Fin_eq; rdec; lra.
Qed.

(** speeds *)
Lemma eas_tas_units (v rho : R) : 0 < rho ->
  exists t, eas2tas (Fin v) (Fin rho) = Fin t /\ tas2eas (Fin t) (Fin rho) = Fin v /\
            t * sqrt (rho / 1.225) = v.
Proof.
  intros Hr. unfold eas2tas, tas2eas.
  assert (Hq : 0 < rho / 1.225) by (apply Rdiv_lt_0_compat; [exact Hr|lra]).
  assert (Hp : 0 < Rpower (rho / 1.225) 0.5) by (unfold Rpower; apply exp_pos).
  rewrite ndiv_fin by (rdec; lra). rewrite npow_fin by exact Hq.
  rewrite (ndiv_fin v) by lra.
  exists (v / Rpower (rho / 1.225) 0.5). rewrite nmul_fin.
  replace 0.5 with (/2) by (rdec; lra). replace 0.5 with (/2) in Hp by (rdec; lra).
  rewrite Rpower_sqrt by exact Hq. rewrite Rpower_sqrt in Hp by exact Hq.
  repeat split; [apply Fin_eq|]; field; lra.
Qed.
