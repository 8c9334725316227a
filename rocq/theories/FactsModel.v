(** msat/facts.cpp and the enumerations of msat/hrit/MSG_spacecraft.h:35-70 and
    MSG_channel.h:38-51: identifiers, names, wavelengths, day of year. *)
From Verif Require Import Base.
From Coq Require Import QArith SpecFloat.
Open Scope string_scope.
Open Scope Z_scope.

(** facts.cpp:186-224 *)
Definition spacecraftIDFromHRIT (id : Z) : Z :=
  if id =? 0 then 1023            (* MSG_NO_SPACECRAFT *)
  else if id =? 11 then 3 else if id =? 12 then 4 else if id =? 13 then 5       (* METOP *)
  else if id =? 16 then 50 else if id =? 19 then 51 else if id =? 20 then 52
  else if id =? 21 then 53                                                       (* METEOSAT 3..6 *)
  else if id =? 321 then 55 else if id =? 322 then 56 else if id =? 323 then 57
  else if id =? 324 then 70                                                      (* MSG 1..4 *)
  else if id =? 17012 then 204 else if id =? 17014 then 205 else if id =? 17015 then 206 (* NOAA *)
  else if id =? 18007 then 251 else if id =? 18008 then 252 else if id =? 18009 then 253
  else if id =? 18010 then 254 else if id =? 18011 then 255 else if id =? 18012 then 256 (* GOES *)
  else if id =? 19001 then 310 else if id =? 19002 then 311                      (* GOMS *)
  else if id =? 20004 then 151 else if id =? 20005 then 152                      (* GMS *)
  else if id =? 21001 then 58 else if id =? 21002 then 59                        (* MTSAT *)
  else 1023.

(** facts.cpp:226-261 *)
Definition spacecraftIDToHRIT (id : Z) : Z :=
  if id =? 1023 then 0
  else if id =? 3 then 11 else if id =? 4 then 12 else if id =? 5 then 13
  else if id =? 50 then 16 else if id =? 51 then 19 else if id =? 52 then 20
  else if id =? 53 then 21
  else if id =? 55 then 321 else if id =? 56 then 322 else if id =? 57 then 323
  else if id =? 70 then 324
  else if id =? 204 then 17012 else if id =? 205 then 17014 else if id =? 206 then 17015
  else if id =? 251 then 18007 else if id =? 252 then 18008 else if id =? 253 then 18009
  else if id =? 254 then 18010 else if id =? 255 then 18011 else if id =? 256 then 18012
  else if id =? 310 then 19001 else if id =? 311 then 19002
  else if id =? 151 then 20004 else if id =? 152 then 20005
  else if id =? 58 then 21001 else if id =? 59 then 21002
  else 0.

(** facts.cpp:264-300 *)
Definition spacecraftName (id : Z) : string :=
  (if id =? 3 then "METOP1" else if id =? 4 then "METOP2" else if id =? 5 then "METOP3"
  else if id =? 50 then "METEOSAT3" else if id =? 51 then "METEOSAT4" else if id =? 52 then "METEOSAT5"
  else if id =? 53 then "METEOSAT6" else if id =? 54 then "METEOSAT7"
  else if id =? 55 then "MSG1" else if id =? 56 then "MSG2" else if id =? 57 then "MSG3"
  else if id =? 58 then "MTSAT1" else if id =? 59 then "MTSAT2" else if id =? 70 then "MSG4"
  else if id =? 150 then "GMS3" else if id =? 151 then "GMS4" else if id =? 152 then "GMS5"
  else if id =? 204 then "NOAA12" else if id =? 205 then "NOAA14" else if id =? 206 then "NOAA15"
  else if id =? 251 then "GOES7" else if id =? 252 then "GOES8" else if id =? 253 then "GOES9"
  else if id =? 254 then "GOES10" else if id =? 255 then "GOES11" else if id =? 256 then "GOES12"
  else if id =? 310 then "GOMS1" else if id =? 311 then "GOMS2"
  else if id =? 999 then "Non Spacecraft" else if id =? 1023 then "Non Spacecraft"
  else "unknown").

(** facts.cpp:302-333 *)
Definition spacecraftID (name : string) : Z :=
  (if String.eqb name "METOP1" then 3 else if String.eqb name "METOP2" then 4 else if String.eqb name "METOP3" then 5
  else if String.eqb name "METEOSAT3" then 50 else if String.eqb name "METEOSAT4" then 51 else if String.eqb name "METEOSAT5" then 52
  else if String.eqb name "METEOSAT6" then 53 else if String.eqb name "METEOSAT7" then 54
  else if String.eqb name "MSG1" then 55 else if String.eqb name "MSG2" then 56 else if String.eqb name "MSG3" then 57
  else if String.eqb name "MTSAT1" then 58 else if String.eqb name "MTSAT2" then 59 else if String.eqb name "MSG4" then 70
  else if String.eqb name "GMS3" then 150 else if String.eqb name "GMS4" then 151 else if String.eqb name "GMS5" then 152
  else if String.eqb name "NOAA12" then 204 else if String.eqb name "NOAA14" then 205 else if String.eqb name "NOAA15" then 206
  else if String.eqb name "GOES7" then 251 else if String.eqb name "GOES8" then 252 else if String.eqb name "GOES9" then 253
  else if String.eqb name "GOES10" then 254 else if String.eqb name "GOES11" then 255 else if String.eqb name "GOES12" then 256
  else if String.eqb name "GOMS1" then 310 else if String.eqb name "GOMS2" then 311
  else -1).

(** The satellites with a channel table: cases 55, 56, 57, 70 of
    facts.cpp:336-509. *)
Definition seviri (id : Z) : bool := (id =? 55) || (id =? 56) || (id =? 57) || (id =? 70).

(** facts.cpp:336-346 *)
Definition sensorName (id : Z) : string := (if seviri id then "Seviri" else "unknown").

(** facts.cpp:349-378 *)
Definition channelName (id ch : Z) : string :=
  (if negb (seviri id) then "unknown"
  else if ch =? 0 then "no-channel" else if ch =? 1 then "VIS006" else if ch =? 2 then "VIS008"
  else if ch =? 3 then "IR_016" else if ch =? 4 then "IR_039" else if ch =? 5 then "WV_062"
  else if ch =? 6 then "WV_073" else if ch =? 7 then "IR_087" else if ch =? 8 then "IR_097"
  else if ch =? 9 then "IR_108" else if ch =? 10 then "IR_120" else if ch =? 11 then "IR_134"
  else if ch =? 12 then "HRV" else "unknown").

(** facts.cpp:380-409 *)
Definition radiance_unit : string := "mW m^-2 sr^-1 (cm^-1)^-1".
Definition channelUnit (id ch : Z) : string :=
  (if negb (seviri id) then "unknown"
  else if ch =? 0 then "unknown"
  else if (ch =? 1) || (ch =? 2) || (ch =? 3) then radiance_unit
  else if (4 <=? ch) && (ch <=? 11) then "K"     (* eight separate cases in the source *)
  else if ch =? 12 then radiance_unit
  else "unknown").

(** facts.cpp:411-441 *)
Definition channelLevel (id ch : Z) : string :=
  (if seviri id && (0 <=? ch) && (ch <=? 12) then "1.5" else "").

(** facts.cpp:443-469, the literals as tenths of a micrometre. *)
Definition wavelength_tenths (id ch : Z) : outcome Z :=
  if negb (seviri id) then Throw
  else if ch =? 1 then Ok 6 else if ch =? 2 then Ok 8 else if ch =? 3 then Ok 16
  else if ch =? 4 then Ok 39 else if ch =? 5 then Ok 62 else if ch =? 6 then Ok 73
  else if ch =? 7 then Ok 87 else if ch =? 8 then Ok 97 else if ch =? 9 then Ok 108
  else if ch =? 10 then Ok 120 else if ch =? 11 then Ok 134 else if ch =? 12 then Ok 7
  else Throw.

(** facts.cpp:492-508, the switch on the rounded value. *)
Definition channel_of_tenths (val : Z) : outcome Z :=
  if val =? 6 then Ok 1 else if val =? 8 then Ok 2 else if val =? 16 then Ok 3
  else if val =? 39 then Ok 4 else if val =? 62 then Ok 5 else if val =? 73 then Ok 6
  else if val =? 87 then Ok 7 else if val =? 97 then Ok 8 else if val =? 108 then Ok 9
  else if val =? 120 then Ok 10 else if val =? 134 then Ok 11 else if val =? 7 then Ok 12
  else Throw.

(** ** Exact arithmetic version (no rounding errors) *)
(** round(3): nearest integer, halves away from zero. *)
Definition Qround (q : Q) : Z :=
  if (Qnum q <? 0) then - ((2 * - Qnum q + Zpos (Qden q)) / (2 * Zpos (Qden q)))
  else (2 * Qnum q + Zpos (Qden q)) / (2 * Zpos (Qden q)).
(** facts.cpp:443-469 *)
Definition channel_central_wavelength (id ch : Z) : outcome Q :=
  let! t := wavelength_tenths id ch in Ok (t # 10)%Q.
(** facts.cpp:478-509. The conversion of round's result to int is UB outside the
    range of int. *)
Definition fits_int (z : Z) : bool := (- 2 ^ 31 <=? z) && (z <? 2 ^ 31).
Definition channel_from_central_wavelength (id : Z) (w : Q) : outcome Z :=
  if negb (seviri id) then Throw
  else let val := Qround (w * 10)%Q in
       if fits_int val then channel_of_tenths val else UB.
(** facts.cpp:471-476 and 511-515. Division by zero gives an infinity, whose
    conversion to int is UB. *)
Definition channel_central_wave_number (id ch : Z) : outcome Q :=
  let! w := channel_central_wavelength id ch in Ok (1 / (w * (1 # 1000000)))%Q.
Definition channel_from_central_wave_number (id : Z) (n : Q) : outcome Z :=
  if negb (seviri id) then Throw
  else if Qeq_bool n 0 then UB
  else channel_from_central_wavelength id ((1 / n) * 1000000)%Q.

(** ** IEEE double version, by the executable specification of binary64 in the
    standard library (SpecFloat, round to nearest even). *)
Definition f_prec : Z := 53.
Definition f_emax : Z := 1024.
Definition f_of_Z (z : Z) : spec_float := binary_normalize f_prec f_emax z 0 false.
Definition f_mul := SFmul f_prec f_emax.
Definition f_div := SFdiv f_prec f_emax.
(** A decimal literal t/10 or 1e-6 is the double nearest to it. *)
Definition f_lit (num den : Z) : spec_float := f_div (f_of_Z num) (f_of_Z den).
(** round(3) of a double, as an integer. None: infinity or NaN. *)
Definition f_round (x : spec_float) : option Z :=
  match x with
  | S754_zero _ => Some 0
  | S754_finite s m e =>
      let a := if 0 <=? e then Zpos m * 2 ^ e
               else (2 * Zpos m + 2 ^ (- e)) / (2 * 2 ^ (- e)) in
      Some (if s then - a else a)
  | _ => None
  end.
Definition f_central_wavelength (id ch : Z) : outcome spec_float :=
  let! t := wavelength_tenths id ch in Ok (f_lit t 10).
Definition f_channel_from_wavelength (id : Z) (w : spec_float) : outcome Z :=
  if negb (seviri id) then Throw
  else match f_round (f_mul w (f_of_Z 10)) with
       | Some val => if fits_int val then channel_of_tenths val else UB
       | None => UB
       end.
Definition f_central_wave_number (id ch : Z) : outcome spec_float :=
  let! w := f_central_wavelength id ch in
  Ok (f_div (f_of_Z 1) (f_mul w (f_lit 1 1000000))).
Definition f_channel_from_wave_number (id : Z) (n : spec_float) : outcome Z :=
  f_channel_from_wavelength id (f_mul (f_div (f_of_Z 1) n) (f_of_Z 1000000)).

(** ** Day of year, facts.cpp:575-601. The sums are done in double, exactly for
    all int arguments; int overflow of the result is not modelled. *)
Definition jday (yr month day : Z) : Z :=
  let leap := ((Z.rem yr 4 =? 0) && negb (Z.rem yr 100 =? 0)) || (Z.rem yr 400 =? 0) in
  let j := 0 in
  let j := if month =? 1 then 0 else j in
  let j := if month =? 2 then 31 else j in
  let j := if month =? 3 then 59 else j in
  let j := if month =? 4 then 90 else j in
  let j := if month =? 5 then 120 else j in
  let j := if month =? 6 then 151 else j in
  let j := if month =? 7 then 181 else j in
  let j := if month =? 8 then 212 else j in
  let j := if month =? 9 then 243 else j in
  let j := if month =? 10 then 273 else j in
  let j := if month =? 11 then 304 else j in
  let j := if month =? 12 then 334 else j in
  let j := if (2 <? month) && leap then j + 1 else j in
  j + day.
