(** msat/facts.cpp:38-184: pixel sizes, column factors and the apparent size of
    the earth in pixels.

    The apparent size uses double rounding with 53 bits and unbounded exponents;
    the pixel sizes use exact arithmetic over the real numbers, which bring the
    axioms of the standard library. The vertical functions are the same as the
    horizontal ones. *)
From Coq Require Import ZArith Reals.
From Flocq Require Import Core.
From Verif Require Import Base GeoFloat SunModel.
Open Scope R_scope.

(** round(3), and the conversion of its result to int. *)
Definition round_away (x : R) : Z := ZnearestA x.
Definition int_of (x : R) : outcome Z := let z := round_away x in if ((- 2 ^ 31 <=? z) && (z <? 2 ^ 31))%Z then Ok z else UB.

(** ** Apparent size of the earth *)
(** facts.cpp:128-137, [a] = asin(EARTH_RADIUS / ORBIT_RADIUS) and [p] = M_PI as
    computed by the machine. *)
Definition CFACFromSeviriDX (a p : R) (dx : Z) : R := rnd (rnd (IZR dx * p) / rnd (a * 360)).
(** facts.cpp:110-120, also 88-97. *)
Definition seviriDXFromCFAC (a p : R) (cfac : R) : outcome Z := int_of (rnd (rnd (rnd (a * cfac) * 360) / p)).

(** ** Pixel sizes *)
(** facts.h:33-36 *)
Definition PIXELSIZE : R := 300040307617188 / 100000000000.
Definition PIXELSIZE_HRV : R := 100013433837891 / 100000000000.
Definition height : R := (ORBIT_RADIUS - EARTH_RADIUS) * 1000.
(** facts.cpp:38-52 *)
Definition pixelHSizeFromCFAC (cfac : R) : outcome R :=
  let! t := int_of (cfac * 65536) in
  Ok (if (t =? 13642337)%Z then PIXELSIZE
      else if (t =? -13642337)%Z then - PIXELSIZE
      else if (t =? 40927000)%Z then PIXELSIZE_HRV
      else if (t =? -40927000)%Z then - PIXELSIZE_HRV
      else height * tan (PI / 180 / cfac)).
(** facts.cpp:68-77 *)
Definition within (a b : R) : bool := if Rlt_dec (Rabs (a - b)) (1 / 1000) then true else false.
Definition CFACFromPixelHSize (psx : R) : R :=
  if within psx PIXELSIZE then 13642337 / 65536
  else if within psx (- PIXELSIZE) then - 13642337 / 65536
  else if within psx PIXELSIZE_HRV then 40927000 / 65536
  else if within psx (- PIXELSIZE_HRV) then - 40927000 / 65536
  else PI / atan (psx / height) / 180.
(** facts.cpp:144-151 and 162-172, exact arithmetic. *)
Definition dx_exact (cfac : R) : outcome Z := int_of (asin rrh * cfac * 360 / PI).
Definition cfac_exact (dx : Z) : R := IZR dx * PI / (asin rrh * 360).
Definition seviriDXFromPixelHSize (psx : R) : outcome Z := if within psx PIXELSIZE then Ok 3622%Z else dx_exact (CFACFromPixelHSize psx).
Definition pixelHSizeFromSeviriDX (dx : Z) : outcome R :=
  if ((dx =? 3608) || (dx =? 3622))%Z then Ok PIXELSIZE else pixelHSizeFromCFAC (cfac_exact dx).
