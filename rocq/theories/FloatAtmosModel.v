(** The arithmetic of ADRpy/atmospheres.py that uses only the four operations, comparisons
    and the square root, in double precision (Coq.Floats.SpecFloat). *)
From Coq Require Import ZArith.
From Coq.Floats Require Import SpecFloat.
From Verif Require Import FloatModel.
Open Scope Z_scope.

(* atmospheres.py:52 R_JPKGPK *)
Definition fl_R : spec_float := lit 28705287 5.
(* atmospheres.py:55 R_EARTH_M, an integer *)
Definition fl_earth : spec_float := of_int 6356766.

(* atmospheres.py:59-61 idealgasdens_kgm3 *)
Definition fl_idealgasdens (p_pa temp_k : spec_float) := fdiv (fdiv p_pa fl_R) temp_k.
(* atmospheres.py:63-65 idealgaspress_pa *)
Definition fl_idealgaspress (rho_kgpm3 temp_k : spec_float) := fmul (fmul fl_R rho_kgpm3) temp_k.
(* atmospheres.py:67-69 geom2geop45m *)
Definition fl_geom2geop (altitude_m : spec_float) := fdiv (fmul fl_earth altitude_m) (fadd fl_earth altitude_m).
(* atmospheres.py:71-73 geop2geom45m *)
Definition fl_geop2geom (altitude_m : spec_float) := fdiv (fmul fl_earth altitude_m) (fsub fl_earth altitude_m).

(* atmospheres.py:391-430, the constants A and B; B2 and B5 are the integer 0 *)
Definition layer1 (alt : spec_float) := fadd (lit 28815 2) (fmul (SFopp (lit 65 4)) alt).
Definition layer2 (alt : spec_float) := fadd (lit 21665 2) (fmul (of_int 0) alt).
Definition layer3 (alt : spec_float) := fadd (lit 19665 2) (fmul (lit 1 3) alt).
Definition layer4 (alt : spec_float) := fadd (lit 13905 2) (fmul (lit 28 4) alt).
Definition layer5 (alt : spec_float) := fadd (lit 27065 2) (fmul (of_int 0) alt).
(* atmospheres.py:478-495, the body of the loop of _isatemp_k *)
Definition fl_isatemp (offset_deg alt : spec_float) : spec_float :=
  let t_k :=
    if SFltb alt (of_int 11000) then layer1 alt
    else if SFltb alt (of_int 20000) then layer2 alt
    else if SFltb alt (of_int 32000) then layer3 alt
    else if SFltb alt (of_int 47000) then layer4 alt
    else layer5 alt in
  fadd t_k offset_deg.

(* atmospheres.py:882-884 _vsound_mps; math.sqrt is the square root of IEEE 754 *)
Definition fl_vsound (temp_k : spec_float) : spec_float := SFsqrt 53 1024 (fmul (fmul (lit 14 1) fl_R) temp_k).
