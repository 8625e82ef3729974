(** ADRpy/unitconversions.py again, in the double-precision arithmetic in which Python
    evaluates it.  The operations are those of Coq.Floats.SpecFloat, the standard library's
    executable specification of IEEE 754, for 53 binary digits and exponents below 1024. *)
From Coq Require Import ZArith.
From Coq.Floats Require Import SpecFloat.
Open Scope Z_scope.

Definition fmul := SFmul 53 1024.
Definition fdiv := SFdiv 53 1024.
Definition fadd := SFadd 53 1024.
Definition fsub := SFsub 53 1024.
(** an integer literal, as it is converted when it meets a float *)
Definition of_int (z : Z) : spec_float := binary_normalize 53 1024 z 0 false.
(** the decimal literal p / 10^q.  Python rounds a literal to the nearest double; so does
    the division of p by 10^q, as long as both are doubles. *)
Definition lit (p : Z) (q : Z) : spec_float := fdiv (of_int p) (of_int (10 ^ q)).
(** scipy.constants.g *)
Definition fl_g : spec_float := lit 980665 5.

(* unitconversions.py:19-21 *)
Definition fl_c2f (x : spec_float) := fadd (fdiv (fmul x (of_int 9)) (of_int 5)) (of_int 32).
(* unitconversions.py:23-25 *)
Definition fl_feet2m (x : spec_float) := fmul x (lit 3048 4).
(* unitconversions.py:27-29 *)
Definition fl_feet22m2 (x : spec_float) := fdiv x (lit 107639 4).
(* unitconversions.py:31-33 *)
Definition fl_m22feet2 (x : spec_float) := fmul x (lit 107639 4).
(* unitconversions.py:35-37 *)
Definition fl_m2km (x : spec_float) := fdiv x (of_int 1000).
(* unitconversions.py:39-41 *)
Definition fl_km2m (x : spec_float) := fmul x (of_int 1000).
(* unitconversions.py:43-45 *)
Definition fl_c2k (x : spec_float) := fadd x (lit 27315 2).
(* unitconversions.py:47-49 *)
Definition fl_k2c (x : spec_float) := fsub x (lit 27315 2).
(* unitconversions.py:51-53 *)
Definition fl_c2r (x : spec_float) := fdiv (fmul (fadd x (lit 27315 2)) (of_int 9)) (of_int 5).
(* unitconversions.py:55-57 *)
Definition fl_r2c (x : spec_float) := fdiv (fmul (fsub x (lit 49167 2)) (of_int 5)) (of_int 9).
(* unitconversions.py:59-61 *)
Definition fl_k2r (x : spec_float) := fdiv (fmul x (of_int 9)) (of_int 5).
(* unitconversions.py:63-65 *)
Definition fl_r2k (x : spec_float) := fdiv (fmul x (of_int 5)) (of_int 9).
(* unitconversions.py:67-69 *)
Definition fl_pa2mbar (x : spec_float) := fmul x (lit 1 2).
(* unitconversions.py:71-73 *)
Definition fl_mbar2pa (x : spec_float) := fdiv x (lit 1 2).
(* unitconversions.py:75-77 *)
Definition fl_inhg2mbar (x : spec_float) := fmul x (lit 338639 4).
(* unitconversions.py:79-81 *)
Definition fl_mbar2inhg (x : spec_float) := fdiv x (lit 338639 4).
(* unitconversions.py:83-85 *)
Definition fl_mbar2lbfft2 (x : spec_float) := fmul x (lit 208854 5).
(* unitconversions.py:87-89 *)
Definition fl_lbfft22mbar (x : spec_float) := fdiv x (lit 208854 5).
(* unitconversions.py:91-93 *)
Definition fl_mps2kts (x : spec_float) := fmul x (lit 19438445 7).
(* unitconversions.py:95-97 *)
Definition fl_kts2mps (x : spec_float) := fmul x (lit 5144444 7).
(* unitconversions.py:99-101 *)
Definition fl_m2feet (x : spec_float) := fdiv x (lit 3048 4).
(* unitconversions.py:103-105 *)
Definition fl_pa2kgm2 (x : spec_float) := fmul x (lit 1019716212978 13).
(* unitconversions.py:107-109 *)
Definition fl_kg2n (x : spec_float) := fmul x fl_g.
(* unitconversions.py:111-113 *)
Definition fl_n2kg (x : spec_float) := fdiv x fl_g.
(* unitconversions.py:115-117 *)
Definition fl_kgm22pa (x : spec_float) := fmul x fl_g.
(* unitconversions.py:119-122 *)
Definition fl_fpm2mps (x : spec_float) := let mpm := fl_feet2m x in fdiv mpm (of_int 60).
(* unitconversions.py:124-126 *)
Definition fl_lbs2kg (x : spec_float) := fmul x (lit 453592 6).
(* unitconversions.py:128-130 *)
Definition fl_kg2lbs (x : spec_float) := fdiv x (lit 453592 6).
(* unitconversions.py:132-134 *)
Definition fl_lbf2n (x : spec_float) := fdiv x (lit 224809 6).
(* unitconversions.py:136-138 *)
Definition fl_n2lbf (x : spec_float) := fmul x (lit 224809 6).
(* unitconversions.py:140-142 *)
Definition fl_wn2wkg (x : spec_float) := fmul x fl_g.
(* unitconversions.py:144-146 *)
Definition fl_wn2kwkg (x : spec_float) := fdiv (fl_wn2wkg x) (of_int 1000).
(* unitconversions.py:148-150 *)
Definition fl_wn2hpkg (x : spec_float) := fmul (fl_wn2kwkg x) (lit 134102 5).
(* unitconversions.py:152-154 *)
Definition fl_kw2hp (x : spec_float) := fmul x (lit 134102 5).
(* unitconversions.py:156-158 *)
Definition fl_hp2kw (x : spec_float) := fdiv x (lit 134102 5).
(* unitconversions.py:160-162 *)
Definition fl_kgm32sft3 (x : spec_float) := fmul x (lit 194032 8).
(* unitconversions.py:164-166 *)
Definition fl_sft32kgm3 (x : spec_float) := fdiv x (lit 194032 8).
(* unitconversions.py:176-178 *)
Definition fl_pa2lbfft2 (x : spec_float) := fmul x (lit 20885434273039 15).
(* unitconversions.py:180-182 *)
Definition fl_lbfft22pa (x : spec_float) := fdiv x (lit 20885434273039 15).
(* unitconversions.py:168-170.  ** 0.5 is the function root: the C library's pow, or the
   square root where the argument is a numpy array *)
Definition fl_tas2eas (root : spec_float -> spec_float) (tas localairdensity_kgm3 : spec_float) :=
  fmul tas (root (fdiv localairdensity_kgm3 (lit 1225 3))).
(* unitconversions.py:172-174 *)
Definition fl_eas2tas (root : spec_float -> spec_float) (eas localairdensity_kgm3 : spec_float) :=
  fdiv eas (root (fdiv localairdensity_kgm3 (lit 1225 3))).
