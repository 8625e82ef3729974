(** The numbers: both grids satisfy the conditions, and the coefficients of the spline
    to seven decimals. *)
From Coq Require Import Sorted.
From Verif Require Import Base BaseFacts TurbopropModel TurbopropSpec TurbopropProofs TurbopropProofs2 TurbopropProofs3.

Lemma div_bounds lo hi u v : 0 < v -> lo * v <= u <= hi * v -> lo <= u / v <= hi.
Proof.
  intros P H. split; apply (Rmult_le_reg_r v); auto; unfold Rdiv; rewrite Rmult_assoc, Rinv_l; lra.
Qed.

Lemma bspl_num tm t0 t1 tp x alo ahi clo chi :
  tm <= t0 -> t0 < t1 -> t1 <= tp ->
  alo * ((t1 - t0) * (t1 - tm)) <= (t1 - x) * (t1 - x) <= ahi * ((t1 - t0) * (t1 - tm)) ->
  clo * ((t1 - t0) * (tp - t0)) <= (x - t0) * (x - t0) <= chi * ((t1 - t0) * (tp - t0)) ->
  exists a c, bspl tm t0 t1 tp x = (a, 1 - a - c, c) /\ alo <= a <= ahi /\ clo <= c <= chi.
Proof.
  intros H1 H2 H3 A C. destruct (bspl tm t0 t1 tp x) as [[a b] c] eqn:E.
  exists a, c. pose proof (bspl_sum _ _ _ _ _ _ _ _ E H1 H2 H3).
  split; [replace b with (1 - a - c) by lra; reflexivity|].
  unfold bspl in E. injection E as <- _ <-.
  assert (P0 : 0 < (t1 - t0) * (t1 - tm)) by (apply Rmult_lt_0_compat; lra).
  assert (P1 : 0 < (t1 - t0) * (tp - t0)) by (apply Rmult_lt_0_compat; lra).
  replace (1 / (t1 - t0) * (t1 - x) / (t1 - tm) * (t1 - x))
    with ((t1 - x) * (t1 - x) / ((t1 - t0) * (t1 - tm))) by (field; lra).
  replace (1 / (t1 - t0) * (x - t0) / (tp - t0) * (x - t0))
    with ((x - t0) * (x - t0) / ((t1 - t0) * (tp - t0))) by (field; lra).
  split; apply div_bounds; assumption.
Qed.

Lemma X_rows : exists a1 c1 a2 c2 a3 c3 a4 c4 a5 c5 a6 c6 a7 c7,
  (forall z0 z1 z2 z3 z4 z5 z6 z7 z8, fit_rows X_dens_ratio [z0; z1; z2; z3; z4; z5; z6; z7; z8] =
   [(0, 1, 0, z0); (a1, 1 - a1 - c1, c1, z1); (a2, 1 - a2 - c2, c2, z2); (a3, 1 - a3 - c3, c3, z3); (a4, 1 - a4 - c4, c4, z4); (a5, 1 - a5 - c5, c5, z5); (a6, 1 - a6 - c6, c6, z6); (a7, 1 - a7 - c7, c7, z7); (0, 1, 0, z8)])
  /\ 0.112394451092 <= a1 <= 0.112394451094 /\ 0.256722941450 <= c1 <= 0.256722941452
  /\ 0.120022511792 <= a2 <= 0.120022511794 /\ 0.100589992466 <= c2 <= 0.100589992468
  /\ 0.152238507080 <= a3 <= 0.152238507082 /\ 0.101523733015 <= c3 <= 0.101523733017
  /\ 0.151080275444 <= a4 <= 0.151080275446 /\ 0.102389025039 <= c4 <= 0.102389025041
  /\ 0.150016164649 <= a5 <= 0.150016164651 /\ 0.103193090528 <= c5 <= 0.103193090530
  /\ 0.149035186581 <= a6 <= 0.149035186583 /\ 0.081201937928 <= c6 <= 0.081201937930
  /\ 0.302747486941 <= a7 <= 0.302747486943 /\ 0.094921656402 <= c7 <= 0.094921656404.
Proof.
  destruct (bspl_num 0.24616951531253428 0.24616951531253428 ((0.3741322424507335 + 0.3098749509963361) * (1 / 2)) ((0.44811893933199765 + 0.3741322424507335) * (1 / 2)) 0.3098749509963361 0.112394451092 0.112394451094 0.256722941450 0.256722941452) as (a1 & c1 & E1 & A1 & C1); try lra.
  destruct (bspl_num 0.24616951531253428 ((0.3741322424507335 + 0.3098749509963361) * (1 / 2)) ((0.44811893933199765 + 0.3741322424507335) * (1 / 2)) ((0.5328112272029571 + 0.44811893933199765) * (1 / 2)) 0.3741322424507335 0.120022511792 0.120022511794 0.100589992466 0.100589992468) as (a2 & c2 & E2 & A2 & C2); try lra.
  destruct (bspl_num ((0.3741322424507335 + 0.3098749509963361) * (1 / 2)) ((0.44811893933199765 + 0.3741322424507335) * (1 / 2)) ((0.5328112272029571 + 0.44811893933199765) * (1 / 2)) ((0.6292375381232487 + 0.5328112272029571) * (1 / 2)) 0.44811893933199765 0.152238507080 0.152238507082 0.101523733015 0.101523733017) as (a3 & c3 & E3 & A3 & C3); try lra.
  destruct (bspl_num ((0.44811893933199765 + 0.3741322424507335) * (1 / 2)) ((0.5328112272029571 + 0.44811893933199765) * (1 / 2)) ((0.6292375381232487 + 0.5328112272029571) * (1 / 2)) ((0.7384790974933775 + 0.6292375381232487) * (1 / 2)) 0.5328112272029571 0.151080275444 0.151080275446 0.102389025039 0.102389025041) as (a4 & c4 & E4 & A4 & C4); try lra.
  destruct (bspl_num ((0.5328112272029571 + 0.44811893933199765) * (1 / 2)) ((0.6292375381232487 + 0.5328112272029571) * (1 / 2)) ((0.7384790974933775 + 0.6292375381232487) * (1 / 2)) ((0.8616704548972803 + 0.7384790974933775) * (1 / 2)) 0.6292375381232487 0.150016164649 0.150016164651 0.103193090528 0.103193090530) as (a5 & c5 & E5 & A5 & C5); try lra.
  destruct (bspl_num ((0.6292375381232487 + 0.5328112272029571) * (1 / 2)) ((0.7384790974933775 + 0.6292375381232487) * (1 / 2)) ((0.8616704548972803 + 0.7384790974933775) * (1 / 2)) 1.0 0.7384790974933775 0.149035186581 0.149035186583 0.081201937928 0.081201937930) as (a6 & c6 & E6 & A6 & C6); try lra.
  destruct (bspl_num ((0.7384790974933775 + 0.6292375381232487) * (1 / 2)) ((0.8616704548972803 + 0.7384790974933775) * (1 / 2)) 1.0 1.0 0.8616704548972803 0.302747486941 0.302747486943 0.094921656402 0.094921656404) as (a7 & c7 & E7 & A7 & C7); try lra.
  exists a1, c1, a2, c2, a3, c3, a4, c4, a5, c5, a6, c6, a7, c7.
  split; [|repeat split; lra].
  intros. unfold fit_rows, fit_knots, X_dens_ratio. cbn [midpoints removelast tl last hd app site_rows].
  rewrite E1, E2, E3, E4, E5, E6, E7. reflexivity.
Qed.

Lemma Y_rows : exists a1 c1 a2 c2 a3 c3 a4 c4 a5 c5,
  (forall z0 z1 z2 z3 z4 z5 z6, fit_rows Y_Mach [z0; z1; z2; z3; z4; z5; z6] =
   [(0, 1, 0, z0); (a1, 1 - a1 - c1, c1, z1); (a2, 1 - a2 - c2, c2, z2); (a3, 1 - a3 - c3, c3, z3); (a4, 1 - a4 - c4, c4, z4); (a5, 1 - a5 - c5, c5, z5); (0, 1, 0, z6)])
  /\ 0.111111111110 <= a1 <= 0.111111111112 /\ 0.266666666666 <= c1 <= 0.266666666668
  /\ 0.099999999999 <= a2 <= 0.100000000001 /\ 0.124999999999 <= c2 <= 0.125000000001
  /\ 0.124999999999 <= a3 <= 0.125000000001 /\ 0.124999999999 <= c3 <= 0.125000000001
  /\ 0.124999999999 <= a4 <= 0.125000000001 /\ 0.099999999999 <= c4 <= 0.100000000001
  /\ 0.266666666666 <= a5 <= 0.266666666668 /\ 0.111111111110 <= c5 <= 0.111111111112.
Proof.
  destruct (bspl_num 0 0 ((0.2 + 0.1) * (1 / 2)) ((0.3 + 0.2) * (1 / 2)) 0.1 0.111111111110 0.111111111112 0.266666666666 0.266666666668) as (a1 & c1 & E1 & A1 & C1); try lra.
  destruct (bspl_num 0 ((0.2 + 0.1) * (1 / 2)) ((0.3 + 0.2) * (1 / 2)) ((0.4 + 0.3) * (1 / 2)) 0.2 0.099999999999 0.100000000001 0.124999999999 0.125000000001) as (a2 & c2 & E2 & A2 & C2); try lra.
  destruct (bspl_num ((0.2 + 0.1) * (1 / 2)) ((0.3 + 0.2) * (1 / 2)) ((0.4 + 0.3) * (1 / 2)) ((0.5 + 0.4) * (1 / 2)) 0.3 0.124999999999 0.125000000001 0.124999999999 0.125000000001) as (a3 & c3 & E3 & A3 & C3); try lra.
  destruct (bspl_num ((0.3 + 0.2) * (1 / 2)) ((0.4 + 0.3) * (1 / 2)) ((0.5 + 0.4) * (1 / 2)) 0.6 0.4 0.124999999999 0.125000000001 0.099999999999 0.100000000001) as (a4 & c4 & E4 & A4 & C4); try lra.
  destruct (bspl_num ((0.4 + 0.3) * (1 / 2)) ((0.5 + 0.4) * (1 / 2)) 0.6 0.6 0.5 0.266666666666 0.266666666668 0.111111111110 0.111111111112) as (a5 & c5 & E5 & A5 & C5); try lra.
  exists a1, c1, a2, c2, a3, c3, a4, c4, a5, c5.
  split; [|repeat split; lra].
  intros. unfold fit_rows, fit_knots, Y_Mach. cbn [midpoints removelast tl last hd app site_rows].
  rewrite E1, E2, E3, E4, E5. reflexivity.
Qed.

Lemma X_grid : grid_ok X_dens_ratio dens_breaks 0.2.
Proof.
  constructor.
  - reflexivity.
  - simpl; lia.
  - unfold fit_knots, X_dens_ratio, dens_breaks. cbn [midpoints removelast tl last hd app]. eexists.
    cbn [app]. repeat (f_equal; try lra).
  - unfold X_dens_ratio, dens_breaks; cbn [hd]; lra.
  - unfold X_dens_ratio, dens_breaks; cbn [last]; lra.
  - unfold dens_breaks. repeat (apply SSorted_cons; [|repeat (apply Forall_cons; [lra|]); apply Forall_nil]). apply SSorted_nil.
  - unfold fit_knots, X_dens_ratio, dens_breaks. cbn [midpoints removelast tl last hd app List.length Nat.sub knots_ok]. repeat split; lra.
  - unfold fit_knots, X_dens_ratio. cbn [midpoints removelast tl last hd app aligned].
    repeat split; try lra; repeat (apply Forall_cons; [lra|]); apply Forall_nil.
  - lra.
  - destruct X_rows as (a1 & c1 & a2 & c2 & a3 & c3 & a4 & c4 & a5 & c5 & a6 & c6 & a7 & c7 & ER & A1 & C1 & A2 & C2 & A3 & C3 & A4 & C4 & A5 & C5 & A6 & C6 & A7 & C7).
    intros z L. destruct z as [|z0 z]; [discriminate|]. destruct z as [|z1 z]; [discriminate|]. destruct z as [|z2 z]; [discriminate|]. destruct z as [|z3 z]; [discriminate|]. destruct z as [|z4 z]; [discriminate|]. destruct z as [|z5 z]; [discriminate|]. destruct z as [|z6 z]; [discriminate|]. destruct z as [|z7 z]; [discriminate|]. destruct z as [|z8 z]; [discriminate|]. destruct z; [|discriminate].
    rewrite ER. repeat (apply Forall_cons; [unfold dominant; repeat split; lra|]). apply Forall_nil.
  - unfold X_dens_ratio. cbn [hd last]. repeat (apply Forall_cons; [lra|]). apply Forall_nil.
Qed.

Lemma Y_grid : grid_ok Y_Mach mach_breaks 0.24.
Proof.
  constructor.
  - reflexivity.
  - simpl; lia.
  - unfold fit_knots, Y_Mach, mach_breaks. cbn [midpoints removelast tl last hd app]. eexists.
    cbn [app]. repeat (f_equal; try lra).
  - unfold Y_Mach, mach_breaks; cbn [hd]; lra.
  - unfold Y_Mach, mach_breaks; cbn [last]; lra.
  - unfold mach_breaks. repeat (apply SSorted_cons; [|repeat (apply Forall_cons; [lra|]); apply Forall_nil]). apply SSorted_nil.
  - unfold fit_knots, Y_Mach, mach_breaks. cbn [midpoints removelast tl last hd app List.length Nat.sub knots_ok]. repeat split; lra.
  - unfold fit_knots, Y_Mach. cbn [midpoints removelast tl last hd app aligned].
    repeat split; try lra; repeat (apply Forall_cons; [lra|]); apply Forall_nil.
  - lra.
  - destruct Y_rows as (a1 & c1 & a2 & c2 & a3 & c3 & a4 & c4 & a5 & c5 & ER & A1 & C1 & A2 & C2 & A3 & C3 & A4 & C4 & A5 & C5).
    intros z L. destruct z as [|z0 z]; [discriminate|]. destruct z as [|z1 z]; [discriminate|]. destruct z as [|z2 z]; [discriminate|]. destruct z as [|z3 z]; [discriminate|]. destruct z as [|z4 z]; [discriminate|]. destruct z as [|z5 z]; [discriminate|]. destruct z as [|z6 z]; [discriminate|]. destruct z; [|discriminate].
    rewrite ER. repeat (apply Forall_cons; [unfold dominant; repeat split; lra|]). apply Forall_nil.
  - unfold Y_Mach. cbn [hd last]. repeat (apply Forall_cons; [lra|]). apply Forall_nil.
Qed.

Ltac near1 := apply abs_le_split; lra.

Lemma X_fit_0 : close 0.00000001 (fit X_dens_ratio
    [0.24301874; 0.3128897; 0.38302311; 0.45869702; 0.54553835; 0.6440402; 0.75391673; 0.87466664; 1.0])
    [0.2430187400; 0.2954145466; 0.3864237536; 0.4612076347; 0.5486194292; 0.6475081412; 0.7576605169; 0.9137256710; 1.0000000000].
Proof.
  destruct X_rows as (a1 & c1 & a2 & c2 & a3 & c3 & a4 & c4 & a5 & c5 & a6 & c6 & a7 & c7 & ER & A1 & C1 & A2 & C2 & A3 & C3 & A4 & C4 & A5 & C5 & A6 & C6 & A7 & C7).
  unfold fit. rewrite ER. apply (eliminate_close 0.2 0.00000001) with (prev := 0); try lra.
  - repeat (apply Forall_cons; [unfold dominant; repeat split; lra|]). apply Forall_nil.
  - cbn [near_sat hd]. repeat split; near1.
  - intros _. cbn [hd]. near1.
Qed.

Lemma X_fit_1 : close 0.00000001 (fit X_dens_ratio
    [0.22386998; 0.30047179; 0.3725948; 0.44896454; 0.53270352; 0.62518827; 0.72629241; 0.83573268; 0.92961537])
    [0.2238699800; 0.2833480637; 0.3760890269; 0.4520088701; 0.5358670307; 0.6287070918; 0.7295732259; 0.8742962157; 0.9296153700].
Proof.
  destruct X_rows as (a1 & c1 & a2 & c2 & a3 & c3 & a4 & c4 & a5 & c5 & a6 & c6 & a7 & c7 & ER & A1 & C1 & A2 & C2 & A3 & C3 & A4 & C4 & A5 & C5 & A6 & C6 & A7 & C7).
  unfold fit. rewrite ER. apply (eliminate_close 0.2 0.00000001) with (prev := 0); try lra.
  - repeat (apply Forall_cons; [unfold dominant; repeat split; lra|]). apply Forall_nil.
  - cbn [near_sat hd]. repeat split; near1.
  - intros _. cbn [hd]. near1.
Qed.

Lemma X_fit_2 : close 0.00000001 (fit X_dens_ratio
    [0.17652686; 0.26491134; 0.33679446; 0.40851692; 0.47928574; 0.55076698; 0.62626668; 0.70577692; 0.7332334])
    [0.1765268600; 0.2499297567; 0.3404228831; 0.4123265490; 0.4826241780; 0.5537465188; 0.6282666433; 0.7404087618; 0.7332334000].
Proof.
  destruct X_rows as (a1 & c1 & a2 & c2 & a3 & c3 & a4 & c4 & a5 & c5 & a6 & c6 & a7 & c7 & ER & A1 & C1 & A2 & C2 & A3 & C3 & A4 & C4 & A5 & C5 & A6 & C6 & A7 & C7).
  unfold fit. rewrite ER. apply (eliminate_close 0.2 0.00000001) with (prev := 0); try lra.
  - repeat (apply Forall_cons; [unfold dominant; repeat split; lra|]). apply Forall_nil.
  - cbn [near_sat hd]. repeat split; near1.
  - intros _. cbn [hd]. near1.
Qed.

Lemma X_fit_3 : close 0.00000001 (fit X_dens_ratio
    [0.14221442; 0.21632642; 0.27993518; 0.33699743; 0.39099644; 0.44448741; 0.49791383; 0.53837968; 0.53288748])
    [0.1422144200; 0.2019144073; 0.2841897189; 0.3400635737; 0.3936471876; 0.4468235855; 0.5014894915; 0.5577871874; 0.5328874800].
Proof.
  destruct X_rows as (a1 & c1 & a2 & c2 & a3 & c3 & a4 & c4 & a5 & c5 & a6 & c6 & a7 & c7 & ER & A1 & C1 & A2 & C2 & A3 & C3 & A4 & C4 & A5 & C5 & A6 & C6 & A7 & C7).
  unfold fit. rewrite ER. apply (eliminate_close 0.2 0.00000001) with (prev := 0); try lra.
  - repeat (apply Forall_cons; [unfold dominant; repeat split; lra|]). apply Forall_nil.
  - cbn [near_sat hd]. repeat split; near1.
  - intros _. cbn [hd]. near1.
Qed.

Lemma X_fit_4 : close 0.00000001 (fit X_dens_ratio
    [0.11592392; 0.17804871; 0.23118738; 0.27831082; 0.32349623; 0.36925856; 0.41741569; 0.44090342; 0.42905484])
    [0.1159239200; 0.1660109178; 0.2348294376; 0.2807357338; 0.3256886929; 0.3706060316; 0.4228464988; 0.4518465325; 0.4290548400].
Proof.
  destruct X_rows as (a1 & c1 & a2 & c2 & a3 & c3 & a4 & c4 & a5 & c5 & a6 & c6 & a7 & c7 & ER & A1 & C1 & A2 & C2 & A3 & C3 & A4 & C4 & A5 & C5 & A6 & C6 & A7 & C7).
  unfold fit. rewrite ER. apply (eliminate_close 0.2 0.00000001) with (prev := 0); try lra.
  - repeat (apply Forall_cons; [unfold dominant; repeat split; lra|]). apply Forall_nil.
  - cbn [near_sat hd]. repeat split; near1.
  - intros _. cbn [hd]. near1.
Qed.

Lemma X_fit_5 : close 0.00000001 (fit X_dens_ratio
    [0.09937799; 0.1498797; 0.20371041; 0.24504059; 0.27757851; 0.30213092; 0.3135676; 0.25876522; 0.2518872])
    [0.0993779900; 0.1349748688; 0.2086173829; 0.2477046370; 0.2800767543; 0.3034439472; 0.3246898411; 0.2267136654; 0.2518872000].
Proof.
  destruct X_rows as (a1 & c1 & a2 & c2 & a3 & c3 & a4 & c4 & a5 & c5 & a6 & c6 & a7 & c7 & ER & A1 & C1 & A2 & C2 & A3 & C3 & A4 & C4 & A5 & C5 & A6 & C6 & A7 & C7).
  unfold fit. rewrite ER. apply (eliminate_close 0.2 0.00000001) with (prev := 0); try lra.
  - repeat (apply Forall_cons; [unfold dominant; repeat split; lra|]). apply Forall_nil.
  - cbn [near_sat hd]. repeat split; near1.
  - intros _. cbn [hd]. near1.
Qed.

Lemma X_fit_6 : close 0.00000001 (fit X_dens_ratio
    [0.06240678; 0.12426883; 0.17623344; 0.21177037; 0.23166079; 0.23500329; 0.20971952; 0.07662703; 0.07471956])
    [0.0624067800; 0.1121622027; 0.1811036873; 0.2149468435; 0.2344078899; 0.2362936427; 0.2265307868; 0.0015820195; 0.0747195600].
Proof.
  destruct X_rows as (a1 & c1 & a2 & c2 & a3 & c3 & a4 & c4 & a5 & c5 & a6 & c6 & a7 & c7 & ER & A1 & C1 & A2 & C2 & A3 & C3 & A4 & C4 & A5 & C5 & A6 & C6 & A7 & C7).
  unfold fit. rewrite ER. apply (eliminate_close 0.2 0.00000001) with (prev := 0); try lra.
  - repeat (apply Forall_cons; [unfold dominant; repeat split; lra|]). apply Forall_nil.
  - cbn [near_sat hd]. repeat split; near1.
  - intros _. cbn [hd]. near1.
Qed.

Lemma Y_fit_0 d0 d1 d2 d3 d4 d5 d6 :
  Rabs (d0 - 0.2430187400) <= 0.00000001 ->
  Rabs (d1 - 0.2238699800) <= 0.00000001 ->
  Rabs (d2 - 0.1765268600) <= 0.00000001 ->
  Rabs (d3 - 0.1422144200) <= 0.00000001 ->
  Rabs (d4 - 0.1159239200) <= 0.00000001 ->
  Rabs (d5 - 0.0993779900) <= 0.00000001 ->
  Rabs (d6 - 0.0624067800) <= 0.00000001 ->
  close 0.0000001 (fit Y_Mach [d0; d1; d2; d3; d4; d5; d6])
    [0.2430187400; 0.2419505301; 0.1737033798; 0.1416935012; 0.1138509727; 0.0997772849; 0.0624067800].
Proof.
  intros H0 H1 H2 H3 H4 H5 H6.
  apply abs_split in H0. apply abs_split in H1. apply abs_split in H2. apply abs_split in H3. apply abs_split in H4. apply abs_split in H5. apply abs_split in H6.
  destruct Y_rows as (a1 & c1 & a2 & c2 & a3 & c3 & a4 & c4 & a5 & c5 & ER & A1 & C1 & A2 & C2 & A3 & C3 & A4 & C4 & A5 & C5).
  unfold fit. rewrite ER. apply (eliminate_close 0.24 0.0000001) with (prev := 0); try lra.
  - repeat (apply Forall_cons; [unfold dominant; repeat split; lra|]). apply Forall_nil.
  - cbn [near_sat hd]. repeat split; near1.
  - intros _. cbn [hd]. near1.
Qed.

Lemma Y_fit_1 d0 d1 d2 d3 d4 d5 d6 :
  Rabs (d0 - 0.2954145466) <= 0.00000001 ->
  Rabs (d1 - 0.2833480637) <= 0.00000001 ->
  Rabs (d2 - 0.2499297567) <= 0.00000001 ->
  Rabs (d3 - 0.2019144073) <= 0.00000001 ->
  Rabs (d4 - 0.1660109178) <= 0.00000001 ->
  Rabs (d5 - 0.1349748688) <= 0.00000001 ->
  Rabs (d6 - 0.1121622027) <= 0.00000001 ->
  close 0.0000001 (fit Y_Mach [d0; d1; d2; d3; d4; d5; d6])
    [0.2954145466; 0.2944966210; 0.2523070621; 0.1995369718; 0.1657863653; 0.1258436321; 0.1121622027].
Proof.
  intros H0 H1 H2 H3 H4 H5 H6.
  apply abs_split in H0. apply abs_split in H1. apply abs_split in H2. apply abs_split in H3. apply abs_split in H4. apply abs_split in H5. apply abs_split in H6.
  destruct Y_rows as (a1 & c1 & a2 & c2 & a3 & c3 & a4 & c4 & a5 & c5 & ER & A1 & C1 & A2 & C2 & A3 & C3 & A4 & C4 & A5 & C5).
  unfold fit. rewrite ER. apply (eliminate_close 0.24 0.0000001) with (prev := 0); try lra.
  - repeat (apply Forall_cons; [unfold dominant; repeat split; lra|]). apply Forall_nil.
  - cbn [near_sat hd]. repeat split; near1.
  - intros _. cbn [hd]. near1.
Qed.

Lemma Y_fit_2 d0 d1 d2 d3 d4 d5 d6 :
  Rabs (d0 - 0.3864237536) <= 0.00000001 ->
  Rabs (d1 - 0.3760890269) <= 0.00000001 ->
  Rabs (d2 - 0.3404228831) <= 0.00000001 ->
  Rabs (d3 - 0.2841897189) <= 0.00000001 ->
  Rabs (d4 - 0.2348294376) <= 0.00000001 ->
  Rabs (d5 - 0.2086173829) <= 0.00000001 ->
  Rabs (d6 - 0.1811036873) <= 0.00000001 ->
  close 0.0000001 (fit Y_Mach [d0; d1; d2; d3; d4; d5; d6])
    [0.3864237536; 0.3882141395; 0.3434909613; 0.2831677935; 0.2310200291; 0.2039294088; 0.1811036873].
Proof.
  intros H0 H1 H2 H3 H4 H5 H6.
  apply abs_split in H0. apply abs_split in H1. apply abs_split in H2. apply abs_split in H3. apply abs_split in H4. apply abs_split in H5. apply abs_split in H6.
  destruct Y_rows as (a1 & c1 & a2 & c2 & a3 & c3 & a4 & c4 & a5 & c5 & ER & A1 & C1 & A2 & C2 & A3 & C3 & A4 & C4 & A5 & C5).
  unfold fit. rewrite ER. apply (eliminate_close 0.24 0.0000001) with (prev := 0); try lra.
  - repeat (apply Forall_cons; [unfold dominant; repeat split; lra|]). apply Forall_nil.
  - cbn [near_sat hd]. repeat split; near1.
  - intros _. cbn [hd]. near1.
Qed.

Lemma Y_fit_3 d0 d1 d2 d3 d4 d5 d6 :
  Rabs (d0 - 0.4612076347) <= 0.00000001 ->
  Rabs (d1 - 0.4520088701) <= 0.00000001 ->
  Rabs (d2 - 0.4123265490) <= 0.00000001 ->
  Rabs (d3 - 0.3400635737) <= 0.00000001 ->
  Rabs (d4 - 0.2807357338) <= 0.00000001 ->
  Rabs (d5 - 0.2477046370) <= 0.00000001 ->
  Rabs (d6 - 0.2149468435) <= 0.00000001 ->
  close 0.0000001 (fit Y_Mach [d0; d1; d2; d3; d4; d5; d6])
    [0.4612076347; 0.4651360258; 0.4175460214; 0.3377182389; 0.2766531348; 0.2411477439; 0.2149468435].
Proof.
  intros H0 H1 H2 H3 H4 H5 H6.
  apply abs_split in H0. apply abs_split in H1. apply abs_split in H2. apply abs_split in H3. apply abs_split in H4. apply abs_split in H5. apply abs_split in H6.
  destruct Y_rows as (a1 & c1 & a2 & c2 & a3 & c3 & a4 & c4 & a5 & c5 & ER & A1 & C1 & A2 & C2 & A3 & C3 & A4 & C4 & A5 & C5).
  unfold fit. rewrite ER. apply (eliminate_close 0.24 0.0000001) with (prev := 0); try lra.
  - repeat (apply Forall_cons; [unfold dominant; repeat split; lra|]). apply Forall_nil.
  - cbn [near_sat hd]. repeat split; near1.
  - intros _. cbn [hd]. near1.
Qed.

Lemma Y_fit_4 d0 d1 d2 d3 d4 d5 d6 :
  Rabs (d0 - 0.5486194292) <= 0.00000001 ->
  Rabs (d1 - 0.5358670307) <= 0.00000001 ->
  Rabs (d2 - 0.4826241780) <= 0.00000001 ->
  Rabs (d3 - 0.3936471876) <= 0.00000001 ->
  Rabs (d4 - 0.3256886929) <= 0.00000001 ->
  Rabs (d5 - 0.2800767543) <= 0.00000001 ->
  Rabs (d6 - 0.2344078899) <= 0.00000001 ->
  close 0.0000001 (fit Y_Mach [d0; d1; d2; d3; d4; d5; d6])
    [0.5486194292; 0.5539281753; 0.4884108604; 0.3897035496; 0.3225453429; 0.2700310850; 0.2344078899].
Proof.
  intros H0 H1 H2 H3 H4 H5 H6.
  apply abs_split in H0. apply abs_split in H1. apply abs_split in H2. apply abs_split in H3. apply abs_split in H4. apply abs_split in H5. apply abs_split in H6.
  destruct Y_rows as (a1 & c1 & a2 & c2 & a3 & c3 & a4 & c4 & a5 & c5 & ER & A1 & C1 & A2 & C2 & A3 & C3 & A4 & C4 & A5 & C5).
  unfold fit. rewrite ER. apply (eliminate_close 0.24 0.0000001) with (prev := 0); try lra.
  - repeat (apply Forall_cons; [unfold dominant; repeat split; lra|]). apply Forall_nil.
  - cbn [near_sat hd]. repeat split; near1.
  - intros _. cbn [hd]. near1.
Qed.

Lemma Y_fit_5 d0 d1 d2 d3 d4 d5 d6 :
  Rabs (d0 - 0.6475081412) <= 0.00000001 ->
  Rabs (d1 - 0.6287070918) <= 0.00000001 ->
  Rabs (d2 - 0.5537465188) <= 0.00000001 ->
  Rabs (d3 - 0.4468235855) <= 0.00000001 ->
  Rabs (d4 - 0.3706060316) <= 0.00000001 ->
  Rabs (d5 - 0.3034439472) <= 0.00000001 ->
  Rabs (d6 - 0.2362936427) <= 0.00000001 ->
  close 0.0000001 (fit Y_Mach [d0; d1; d2; d3; d4; d5; d6])
    [0.6475081412; 0.6552941292; 0.5588369006; 0.4409480637; 0.3700634010; 0.2868838785; 0.2362936427].
Proof.
  intros H0 H1 H2 H3 H4 H5 H6.
  apply abs_split in H0. apply abs_split in H1. apply abs_split in H2. apply abs_split in H3. apply abs_split in H4. apply abs_split in H5. apply abs_split in H6.
  destruct Y_rows as (a1 & c1 & a2 & c2 & a3 & c3 & a4 & c4 & a5 & c5 & ER & A1 & C1 & A2 & C2 & A3 & C3 & A4 & C4 & A5 & C5).
  unfold fit. rewrite ER. apply (eliminate_close 0.24 0.0000001) with (prev := 0); try lra.
  - repeat (apply Forall_cons; [unfold dominant; repeat split; lra|]). apply Forall_nil.
  - cbn [near_sat hd]. repeat split; near1.
  - intros _. cbn [hd]. near1.
Qed.

Lemma Y_fit_6 d0 d1 d2 d3 d4 d5 d6 :
  Rabs (d0 - 0.7576605169) <= 0.00000001 ->
  Rabs (d1 - 0.7295732259) <= 0.00000001 ->
  Rabs (d2 - 0.6282666433) <= 0.00000001 ->
  Rabs (d3 - 0.5014894915) <= 0.00000001 ->
  Rabs (d4 - 0.4228464988) <= 0.00000001 ->
  Rabs (d5 - 0.3246898411) <= 0.00000001 ->
  Rabs (d6 - 0.2265307868) <= 0.00000001 ->
  close 0.0000001 (fit Y_Mach [d0; d1; d2; d3; d4; d5; d6])
    [0.7576605169; 0.7661777589; 0.6324596110; 0.4919413515; 0.4278082120; 0.2980246561; 0.2265307868].
Proof.
  intros H0 H1 H2 H3 H4 H5 H6.
  apply abs_split in H0. apply abs_split in H1. apply abs_split in H2. apply abs_split in H3. apply abs_split in H4. apply abs_split in H5. apply abs_split in H6.
  destruct Y_rows as (a1 & c1 & a2 & c2 & a3 & c3 & a4 & c4 & a5 & c5 & ER & A1 & C1 & A2 & C2 & A3 & C3 & A4 & C4 & A5 & C5).
  unfold fit. rewrite ER. apply (eliminate_close 0.24 0.0000001) with (prev := 0); try lra.
  - repeat (apply Forall_cons; [unfold dominant; repeat split; lra|]). apply Forall_nil.
  - cbn [near_sat hd]. repeat split; near1.
  - intros _. cbn [hd]. near1.
Qed.

Lemma Y_fit_7 d0 d1 d2 d3 d4 d5 d6 :
  Rabs (d0 - 0.9137256710) <= 0.00000001 ->
  Rabs (d1 - 0.8742962157) <= 0.00000001 ->
  Rabs (d2 - 0.7404087618) <= 0.00000001 ->
  Rabs (d3 - 0.5577871874) <= 0.00000001 ->
  Rabs (d4 - 0.4518465325) <= 0.00000001 ->
  Rabs (d5 - 0.2267136654) <= 0.00000001 ->
  Rabs (d6 - 0.0015820195) <= 0.00000001 ->
  close 0.0000001 (fit Y_Mach [d0; d1; d2; d3; d4; d5; d6])
    [0.9137256710; 0.9207245235; 0.7495345579; 0.5395762166; 0.4753056423; 0.1603763264; 0.0015820195].
Proof.
  intros H0 H1 H2 H3 H4 H5 H6.
  apply abs_split in H0. apply abs_split in H1. apply abs_split in H2. apply abs_split in H3. apply abs_split in H4. apply abs_split in H5. apply abs_split in H6.
  destruct Y_rows as (a1 & c1 & a2 & c2 & a3 & c3 & a4 & c4 & a5 & c5 & ER & A1 & C1 & A2 & C2 & A3 & C3 & A4 & C4 & A5 & C5).
  unfold fit. rewrite ER. apply (eliminate_close 0.24 0.0000001) with (prev := 0); try lra.
  - repeat (apply Forall_cons; [unfold dominant; repeat split; lra|]). apply Forall_nil.
  - cbn [near_sat hd]. repeat split; near1.
  - intros _. cbn [hd]. near1.
Qed.

Lemma Y_fit_8 d0 d1 d2 d3 d4 d5 d6 :
  Rabs (d0 - 1.0000000000) <= 0.00000001 ->
  Rabs (d1 - 0.9296153700) <= 0.00000001 ->
  Rabs (d2 - 0.7332334000) <= 0.00000001 ->
  Rabs (d3 - 0.5328874800) <= 0.00000001 ->
  Rabs (d4 - 0.4290548400) <= 0.00000001 ->
  Rabs (d5 - 0.2518872000) <= 0.00000001 ->
  Rabs (d6 - 0.0747195600) <= 0.00000001 ->
  close 0.0000001 (fit Y_Mach [d0; d1; d2; d3; d4; d5; d6])
    [1.0000000000; 1.0008584538; 0.7340545786; 0.5140420499; 0.4447929622; 0.2008503805; 0.0747195600].
Proof.
  intros H0 H1 H2 H3 H4 H5 H6.
  apply abs_split in H0. apply abs_split in H1. apply abs_split in H2. apply abs_split in H3. apply abs_split in H4. apply abs_split in H5. apply abs_split in H6.
  destruct Y_rows as (a1 & c1 & a2 & c2 & a3 & c3 & a4 & c4 & a5 & c5 & ER & A1 & C1 & A2 & C2 & A3 & C3 & A4 & C4 & A5 & C5).
  unfold fit. rewrite ER. apply (eliminate_close 0.24 0.0000001) with (prev := 0); try lra.
  - repeat (apply Forall_cons; [unfold dominant; repeat split; lra|]). apply Forall_nil.
  - cbn [near_sat hd]. repeat split; near1.
  - intros _. cbn [hd]. near1.
Qed.

(** the coefficients to ten decimals *)
Definition coefs_approx : list (list R) :=
  [[0.2430187400; 0.2419505301; 0.1737033798; 0.1416935012; 0.1138509727; 0.0997772849; 0.0624067800];
   [0.2954145466; 0.2944966210; 0.2523070621; 0.1995369718; 0.1657863653; 0.1258436321; 0.1121622027];
   [0.3864237536; 0.3882141395; 0.3434909613; 0.2831677935; 0.2310200291; 0.2039294088; 0.1811036873];
   [0.4612076347; 0.4651360258; 0.4175460214; 0.3377182389; 0.2766531348; 0.2411477439; 0.2149468435];
   [0.5486194292; 0.5539281753; 0.4884108604; 0.3897035496; 0.3225453429; 0.2700310850; 0.2344078899];
   [0.6475081412; 0.6552941292; 0.5588369006; 0.4409480637; 0.3700634010; 0.2868838785; 0.2362936427];
   [0.7576605169; 0.7661777589; 0.6324596110; 0.4919413515; 0.4278082120; 0.2980246561; 0.2265307868];
   [0.9137256710; 0.9207245235; 0.7495345579; 0.5395762166; 0.4753056423; 0.1603763264; 0.0015820195];
   [1.0000000000; 1.0008584538; 0.7340545786; 0.5140420499; 0.4447929622; 0.2008503805; 0.0747195600]].

Lemma close_9 M l b0 b1 b2 b3 b4 b5 b6 b7 b8 :
  close M l [b0; b1; b2; b3; b4; b5; b6; b7; b8] ->
  exists e0 e1 e2 e3 e4 e5 e6 e7 e8, l = [e0; e1; e2; e3; e4; e5; e6; e7; e8] /\
    Rabs (e0 - b0) <= M /\ Rabs (e1 - b1) <= M /\ Rabs (e2 - b2) <= M /\ Rabs (e3 - b3) <= M /\
    Rabs (e4 - b4) <= M /\ Rabs (e5 - b5) <= M /\ Rabs (e6 - b6) <= M /\ Rabs (e7 - b7) <= M /\
    Rabs (e8 - b8) <= M.
Proof.
  intros H. destruct l as [|e0 [|e1 [|e2 [|e3 [|e4 [|e5 [|e6 [|e7 [|e8 [|]]]]]]]]]]; simpl in H; try tauto.
  exists e0, e1, e2, e3, e4, e5, e6, e7, e8. tauto.
Qed.

Lemma coefs_close : Forall2 (close 0.0000001) thrust_ratio_spline coefs_approx.
Proof.
  unfold thrust_ratio_spline.
  change (List.length Y_Mach) with 7%nat. change (List.length X_dens_ratio) with 9%nat.
  replace (columns 7 Z_thr_ratio) with
    [[0.24301874; 0.3128897; 0.38302311; 0.45869702; 0.54553835; 0.6440402; 0.75391673; 0.87466664; 1.0];
     [0.22386998; 0.30047179; 0.3725948; 0.44896454; 0.53270352; 0.62518827; 0.72629241; 0.83573268; 0.92961537];
     [0.17652686; 0.26491134; 0.33679446; 0.40851692; 0.47928574; 0.55076698; 0.62626668; 0.70577692; 0.7332334];
     [0.14221442; 0.21632642; 0.27993518; 0.33699743; 0.39099644; 0.44448741; 0.49791383; 0.53837968; 0.53288748];
     [0.11592392; 0.17804871; 0.23118738; 0.27831082; 0.32349623; 0.36925856; 0.41741569; 0.44090342; 0.42905484];
     [0.09937799; 0.1498797; 0.20371041; 0.24504059; 0.27757851; 0.30213092; 0.3135676; 0.25876522; 0.2518872];
     [0.06240678; 0.12426883; 0.17623344; 0.21177037; 0.23166079; 0.23500329; 0.20971952; 0.07662703; 0.07471956]] by reflexivity.
  cbn [map].
  destruct (close_9 _ _ _ _ _ _ _ _ _ _ _ X_fit_0) as (e00 & e01 & e02 & e03 & e04 & e05 & e06 & e07 & e08 & F0 & B00 & B01 & B02 & B03 & B04 & B05 & B06 & B07 & B08).
  destruct (close_9 _ _ _ _ _ _ _ _ _ _ _ X_fit_1) as (e10 & e11 & e12 & e13 & e14 & e15 & e16 & e17 & e18 & F1 & B10 & B11 & B12 & B13 & B14 & B15 & B16 & B17 & B18).
  destruct (close_9 _ _ _ _ _ _ _ _ _ _ _ X_fit_2) as (e20 & e21 & e22 & e23 & e24 & e25 & e26 & e27 & e28 & F2 & B20 & B21 & B22 & B23 & B24 & B25 & B26 & B27 & B28).
  destruct (close_9 _ _ _ _ _ _ _ _ _ _ _ X_fit_3) as (e30 & e31 & e32 & e33 & e34 & e35 & e36 & e37 & e38 & F3 & B30 & B31 & B32 & B33 & B34 & B35 & B36 & B37 & B38).
  destruct (close_9 _ _ _ _ _ _ _ _ _ _ _ X_fit_4) as (e40 & e41 & e42 & e43 & e44 & e45 & e46 & e47 & e48 & F4 & B40 & B41 & B42 & B43 & B44 & B45 & B46 & B47 & B48).
  destruct (close_9 _ _ _ _ _ _ _ _ _ _ _ X_fit_5) as (e50 & e51 & e52 & e53 & e54 & e55 & e56 & e57 & e58 & F5 & B50 & B51 & B52 & B53 & B54 & B55 & B56 & B57 & B58).
  destruct (close_9 _ _ _ _ _ _ _ _ _ _ _ X_fit_6) as (e60 & e61 & e62 & e63 & e64 & e65 & e66 & e67 & e68 & F6 & B60 & B61 & B62 & B63 & B64 & B65 & B66 & B67 & B68).
  rewrite F0, F1, F2, F3, F4, F5, F6. clear F0 F1 F2 F3 F4 F5 F6.
  cbn [columns map hd tl]. unfold coefs_approx.
  apply Forall2_cons; [apply Y_fit_0; assumption|].
  apply Forall2_cons; [apply Y_fit_1; assumption|].
  apply Forall2_cons; [apply Y_fit_2; assumption|].
  apply Forall2_cons; [apply Y_fit_3; assumption|].
  apply Forall2_cons; [apply Y_fit_4; assumption|].
  apply Forall2_cons; [apply Y_fit_5; assumption|].
  apply Forall2_cons; [apply Y_fit_6; assumption|].
  apply Forall2_cons; [apply Y_fit_7; assumption|].
  apply Forall2_cons; [apply Y_fit_8; assumption|].
  apply Forall2_nil.
Qed.
