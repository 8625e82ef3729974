(** ADRpy/unitconversions.py, lines 19-182, function by function.
    Simplification: floats are [num] (see Base); the Python functions are
    applied elementwise by numpy to arrays, here they are given on one value. *)
From Verif Require Import Base.
Open Scope num_scope.

(** scipy.constants.g, used as [sc.g] *)
Definition sc_g : num := #9.80665.

(* unitconversions.py:19-21 *)
Definition c2f (temp_c : num) : num := temp_c * #9 / #5 + #32.
(* unitconversions.py:23-25 *)
Definition feet2m (x : num) : num := x * #0.3048.
(* unitconversions.py:27-29 *)
Definition feet22m2 (x : num) : num := x / #10.7639.
(* unitconversions.py:31-33 *)
Definition m22feet2 (x : num) : num := x * #10.7639.
(* unitconversions.py:35-37 *)
Definition m2km (x : num) : num := x / #1000.
(* unitconversions.py:39-41 *)
Definition km2m (x : num) : num := x * #1000.
(* unitconversions.py:43-45 *)
Definition c2k (x : num) : num := x + #273.15.
(* unitconversions.py:47-49 *)
Definition k2c (x : num) : num := x - #273.15.
(* unitconversions.py:51-53 *)
Definition c2r (x : num) : num := (x + #273.15) * #9 / #5.
(* unitconversions.py:55-57 *)
Definition r2c (x : num) : num := (x - #491.67) * #5 / #9.
(* unitconversions.py:59-61 *)
Definition k2r (x : num) : num := x * #9 / #5.
(* unitconversions.py:63-65 *)
Definition r2k (x : num) : num := x * #5 / #9.
(* unitconversions.py:67-69 *)
Definition pa2mbar (x : num) : num := x * #0.01.
(* unitconversions.py:71-73 *)
Definition mbar2pa (x : num) : num := x / #0.01.
(* unitconversions.py:75-77 *)
Definition inhg2mbar (x : num) : num := x * #33.8639.
(* unitconversions.py:79-81 *)
Definition mbar2inhg (x : num) : num := x / #33.8639.
(* unitconversions.py:83-85 *)
Definition mbar2lbfft2 (x : num) : num := x * #2.08854.
(* unitconversions.py:87-89 *)
Definition lbfft22mbar (x : num) : num := x / #2.08854.
(* unitconversions.py:91-93 *)
Definition mps2kts (x : num) : num := x * #1.9438445.
(* unitconversions.py:95-97 *)
Definition kts2mps (x : num) : num := x * #0.5144444.
(* unitconversions.py:99-101 *)
Definition m2feet (x : num) : num := x / #0.3048.
(* unitconversions.py:103-105 *)
Definition pa2kgm2 (x : num) : num := x * #0.1019716212978.
(* unitconversions.py:107-109 *)
Definition kg2n (x : num) : num := x * sc_g.
(* unitconversions.py:111-113 *)
Definition n2kg (x : num) : num := x / sc_g.
(* unitconversions.py:115-117 *)
Definition kgm22pa (x : num) : num := x * sc_g.
(* unitconversions.py:119-122 *)
Definition fpm2mps (x : num) : num := let mpm := feet2m x in mpm / #60.
(* unitconversions.py:124-126 *)
Definition lbs2kg (x : num) : num := x * #0.453592.
(* unitconversions.py:128-130 *)
Definition kg2lbs (x : num) : num := x / #0.453592.
(* unitconversions.py:132-134 *)
Definition lbf2n (x : num) : num := x / #0.224809.
(* unitconversions.py:136-138 *)
Definition n2lbf (x : num) : num := x * #0.224809.
(* unitconversions.py:140-142 *)
Definition wn2wkg (x : num) : num := x * sc_g.
(* unitconversions.py:144-146 *)
Definition wn2kwkg (x : num) : num := wn2wkg x / #1000.
(* unitconversions.py:148-150 *)
Definition wn2hpkg (x : num) : num := wn2kwkg x * #1.34102.
(* unitconversions.py:152-154 *)
Definition kw2hp (x : num) : num := x * #1.34102.
(* unitconversions.py:156-158 *)
Definition hp2kw (x : num) : num := x / #1.34102.
(* unitconversions.py:160-162 *)
Definition kgm32sft3 (x : num) : num := x * #0.00194032.
(* unitconversions.py:164-166 *)
Definition sft32kgm3 (x : num) : num := x / #0.00194032.
(* unitconversions.py:168-170 *)
Definition tas2eas (tas localairdensity_kgm3 : num) : num :=
  tas * ((localairdensity_kgm3 / #1.225) ** #0.5).
(* unitconversions.py:172-174 *)
Definition eas2tas (eas localairdensity_kgm3 : num) : num :=
  eas / ((localairdensity_kgm3 / #1.225) ** #0.5).
(* unitconversions.py:176-178 *)
Definition pa2lbfft2 (x : num) : num := x * #0.020885434273039.
(* unitconversions.py:180-182 *)
Definition lbfft22pa (x : num) : num := x / #0.020885434273039.
