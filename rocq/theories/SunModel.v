(** msat/facts.cpp 545-654 (satellite and solar zenith angles), the samples of
    gdal/reflectance/*.cpp, over the real numbers.

    Simplified: double arithmetic is exact; the only rounding kept is the
    conversion of a reflectance to float. Points of the image that have no
    position on earth, which the code handles through NaN, are None. Real numbers
    bring the axioms of the standard library. *)
From Verif Require Import Base StretchFloat.
From Coq Require Import Reals Lra.
Open Scope R_scope.

(** facts.h:11-16, in km. *)
Definition EARTH_RADIUS : R := 6378137 / 1000.
Definition ORBIT_RADIUS : R := 42164.
Definition rrh : R := EARTH_RADIUS / ORBIT_RADIUS.
Definition radians (x : R) : R := x * PI / 180.
(** facts.cpp:545-573, except under the satellite, where the code divides by zero
    and gets 0 through the infinities. *)
Definition sat_za (lat lon : R) : R :=
  let cosg := cos (radians lon) * cos (radians lat) in
  PI / 2 - atan ((cosg - rrh) / sqrt (1 - cosg * cosg)).

(** facts.cpp:621-654; [jd] as a real number. *)
Definition dang (jd : R) : R := 2 * PI * (jd - 1) / (365242 / 1000).
Definition homp (jd : R) : R :=
  let d := dang jd in 12 + 123570 / 1000000 * sin d - 4289 / 1000000 * cos d + 153809 / 1000000 * sin (2 * d) + 60783 / 1000000 * cos (2 * d).
Definition hang (jd hour lon : R) : R := 15 * (hour - homp jd) + lon.
Definition sigma (jd : R) : R :=
  let ang := radians (2799348 / 10000) + dang jd in
  radians (ang * (180 / PI) + 4087 / 10000 * sin ang + 18724 / 10000 * cos ang - 182 / 10000 * sin (2 * ang) + 83 / 10000 * cos (2 * ang)).
Definition sindlt (jd : R) : R := 3978 / 10000 * sin (sigma jd).
Definition cosdlt (jd : R) : R := sqrt (1 - sindlt jd * sindlt jd).
Definition cos_sol_za (jd hour lat lon : R) : R :=
  sindlt jd * sin (radians lat) + cosdlt jd * cos (radians lat) * cos (radians (hang jd hour lon)).

(** ** Samples *)
(** sat_za.cpp:52-64, cos_sol_za.cpp:66-79: not-a-number gives 0. *)
Definition clamp (lo hi x : R) : R := if Rlt_dec x lo then lo else if Rlt_dec hi x then hi else x.
Definition sat_za_sample (p : option (R * R)) : R := match p with None => 0 | Some (lat, lon) => clamp 0 1 (sat_za lat lon) end.
Definition cos_sol_za_sample (jd hour : R) (p : option (R * R)) : R := match p with None => 0 | Some (lat, lon) => clamp 0 1 (cos_sol_za jd hour lat lon) end.

(** reflectance.cpp:119-128 *)
Definition esd (jd : R) : R := 1 - 167 / 10000 * cos (2 * PI * (jd - 3) / 365).
(** The four channels with their solar constants. *)
Definition solar (ch : Z) : option R :=
  if (ch =? 1)%Z then Some (2076 / 100) else if (ch =? 2)%Z then Some (2324 / 100) else if (ch =? 3)%Z then Some (1985 / 100) else if (ch =? 12)%Z then Some (2511 / 100) else None.
Definition tr (c jd : R) : R := c / (esd jd * esd jd).
Definition cos80 : R := 173648178 / 1000000000.
Definition floored (c : R) : R := if Rlt_dec c cos80 then cos80 else c.
(** reflectance.cpp:144-166: the sample of count [raw]. Simplified: sub-normal
    results, which become 0, do not exist without a least exponent. *)
Definition reflectance_sample (c jd hour slope offset raw : R) (p : option (R * R)) : R :=
  match p with
  | None => 0
  | Some (lat, lon) => clamp 0 100 (rnd (100 * (raw * slope + offset) / tr c jd / floored (cos_sol_za jd hour lat lon)))
  end.

(** reflectance.cpp:246-323, for temperatures whose corrected fourth power is
    positive (otherwise pow gives not-a-number, or the exponential overflows). *)
Definition planck (t : R) : R :=
  119104 / 10000000000 * (2569094 / 1000 * (2569094 / 1000) * (2569094 / 1000)) / (exp (143877 / 100000 * (2569094 / 1000) / (9959 / 10000 * t + 3471 / 1000)) - 1).
Definition corrected4 (t039 t108 t134 : R) : R := t039 ^ 4 + t108 ^ 4 - (t108 - (t108 - t134) / 4) ^ 4.
Definition r_tot (t039 t108 t134 : R) : R := planck (Rpower (corrected4 t039 t108 t134) (/ 4)) + 15 / 1000.
Definition r39_corr (t108 t134 : R) : R := ((t108 - / 4 * (t108 - t134)) / t108) ^ 4.
Definition r_therm (t108 t134 : R) : R := planck t108 * r39_corr t108 t134.
Definition toarad (jd c sat t108 t134 : R) : R :=
  492 / 100 / (esd jd * esd jd) * Rpower c (3 / 4) * exp (- (1 - r39_corr t108 t134) * c) * exp (- (1 - r39_corr t108 t134) / cos sat).
Definition above (floor x : R) : R := if Rle_dec x floor then floor + / 10000000 else x.
Definition reflectance39_sample (jd hour t039 t108 t134 : R) (p : option (R * R)) : R :=
  match p with
  | None => 0
  | Some (lat, lon) =>
      let c := floored (cos_sol_za jd hour lat lon) in
      let therm := r_therm t108 t134 in
      clamp 0 100 (rnd (100 * (above therm (r_tot t039 t108 t134) - therm) / above therm (toarad jd c (sat_za lat lon) t108 t134)))
  end.
