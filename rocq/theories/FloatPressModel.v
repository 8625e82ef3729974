(** The pressures and densities of the standard atmosphere of ADRpy/atmospheres.py in double
    precision (Coq.Floats.SpecFloat).  numpy's power and math.exp are arguments: IEEE 754
    does not fix their results. *)
From Coq Require Import ZArith.
From Coq.Floats Require Import SpecFloat.
From Verif Require Import FloatModel FloatAtmosModel.
Open Scope Z_scope.

Section Formulae.
  (** numpy.power and math.exp *)
  Variables (power : spec_float -> spec_float -> spec_float) (expo : spec_float -> spec_float).

  (* atmospheres.py:391-430, the constants C, D, E, F and G *)
  Definition press1 (alt : spec_float) := power (fadd (lit 89619638 7) (fmul (SFopp (lit 20216125 11)) alt)) (lit 52558797 7).
  Definition press2 (alt : spec_float) := fmul (lit 1282445 1) (expo (fmul (SFopp (lit 15768852 11)) alt)).
  Definition press3 (alt : spec_float) := power (fadd (lit 70551848 8) (fmul (lit 35876861 13) alt)) (SFopp (lit 34163218 6)).
  Definition press4 (alt : spec_float) := power (fadd (lit 34926867 8) (fmul (lit 7033098 12) alt)) (SFopp (lit 12201149 6)).
  Definition press5 (alt : spec_float) := fmul (lit 4182842 2) (expo (fmul (SFopp (lit 12622656 11)) alt)).
  (* atmospheres.py:497-517, the body of the loop of _isapress_pa *)
  Definition fl_isapress (alt : spec_float) : spec_float :=
    if SFltb alt (of_int 11000) then press1 alt
    else if SFltb alt (of_int 20000) then press2 alt
    else if SFltb alt (of_int 32000) then press3 alt
    else if SFltb alt (of_int 47000) then press4 alt
    else press5 alt.

  (* atmospheres.py:391-430, the constants I, J, L, M and N *)
  Definition dens1 (alt : spec_float) := power (fadd (lit 104884 5) (fmul (SFopp (lit 23659414 12)) alt)) (lit 42558797 7).
  Definition dens2 (alt : spec_float) := fmul (lit 206214 5) (expo (fmul (SFopp (lit 15768852 11)) alt)).
  Definition dens3 (alt : spec_float) := power (fadd (lit 9726309 7) (fmul (lit 4946 9) alt)) (SFopp (lit 35163218 6)).
  Definition dens4 (alt : spec_float) := power (fadd (lit 84392929 8) (fmul (lit 16993902 12) alt)) (SFopp (lit 13201149 6)).
  Definition dens5 (alt : spec_float) := fmul (lit 53839563 8) (expo (fmul (SFopp (lit 12622656 11)) alt)).
  (* atmospheres.py:541-564, the body of the loop of _isadens_kgpm3 *)
  Definition fl_isadens (offset_deg alt : spec_float) : spec_float :=
    let dens_kgpm3 :=
      if SFltb alt (of_int 11000) then dens1 alt
      else if SFltb alt (of_int 20000) then dens2 alt
      else if SFltb alt (of_int 32000) then dens3 alt
      else if SFltb alt (of_int 47000) then dens4 alt
      else dens5 alt in
    fdiv dens_kgpm3 (fadd (of_int 1) (fdiv offset_deg (fsub (fl_isatemp offset_deg alt) offset_deg))).
End Formulae.
