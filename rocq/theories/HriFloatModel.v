(** msat/hri/HRI_machine.cpp: IBM floating point numbers and integers. *)
From Verif Require Import Base MachineModel.

(** An element of an array of unsigned long over the bytes [m]; [w] is
    sizeof(long). (Aliasing and alignment rules are not modelled.) *)
Definition long_at (w : nat) (h : host) (m : list Z) (i : nat) : outcome Z :=
  let! bs := bytes_at m (i * w) w in Ok (load_u h bs).
Definition wrap (w : nat) (v : Z) : Z := v mod 2 ^ (8 * Z.of_nat w).

(** HRI_machine.cpp:180-232, r4_from_buff: the bits of the float returned.
    [buff] is the memory from the pointer on. isbig is computed by the
    constructor (32-44), as in MSG_machine. The loop on the fraction ends, see
    the proofs; [fuel] bounds it. *)
Fixpoint norm4 (w fuel : nat) (fraction exponent : Z) : outcome (Z * Z) :=
  if Z.land fraction 0x800000 =? 0 then
    match fuel with
    | O => Loop
    | S n => norm4 w n (wrap w (Z.shiftl fraction 1)) (exponent - 1)
    end
  else Ok (fraction, exponent).
Definition times4 (exponent : Z) : Z := if 0 <=? exponent then Z.shiftl exponent 2 else - Z.shiftl (- exponent) 2.
Definition r4_from_buff (w : nat) (h : host) (buff : list Z) : outcome Z :=
  let! four := bytes_at buff 0 4 in
  let pnt := if check_endianess h then buff else rev four in
  let! p0 := long_at w h pnt 0 in
  if Z.land p0 0x7FFFFFFF =? 0 then let! f := bytes_at pnt 0 4 in Ok (load_u h f)
  else
    let sign := Z.land p0 0x80000000 in
    let exponent := Z.shiftr (Z.land p0 0x7F000000) 24 - 64 in
    let fraction := Z.land p0 0x00FFFFFF in
    let exponent := times4 exponent - 1 in
    let! fe := (if negb (fraction =? 0) then norm4 w 64 fraction exponent else Ok (fraction, exponent)) in
    let '(fraction, exponent) := fe in
    let fraction := Z.land fraction 0x7FFFFF in
    let exponent := exponent + 127 in
    Ok ((if 255 <=? exponent then Z.lor sign 0x7F7FFFFF
         else if exponent <=? 0 then sign
         else Z.lor (Z.lor sign (Z.shiftl exponent 23)) fraction) mod 2 ^ 32).

(** HRI_machine.cpp:144-178, leftshift and rightshift by one bit. *)
Definition leftshift1 (w : nat) (p : Z * Z) : Z * Z :=
  let '(hiw, low) := p in
  (wrap w (Z.lor (Z.shiftl hiw 1) (Z.land (Z.shiftr low 31) 1)), wrap w (Z.shiftl low 1)).
Definition rightshift1 (w : nat) (p : Z * Z) : Z * Z :=
  let '(hiw, low) := p in
  (Z.shiftr hiw 1, wrap w (Z.lor (Z.shiftl hiw 31) (Z.land (Z.shiftr low 1) 0x7FFFFFFF))).
Fixpoint rightshift (w : nat) (p : Z * Z) (n : nat) : Z * Z :=
  match n with O => p | S m => rightshift w (rightshift1 w p) m end.
Fixpoint norm8 (w fuel : nat) (fraction : Z * Z) (exponent : Z) : outcome ((Z * Z) * Z) :=
  if Z.land (fst fraction) 0x01000000 =? 0 then
    match fuel with
    | O => Loop
    | S n => norm8 w n (leftshift1 w fraction) (exponent - 1)
    end
  else Ok (fraction, exponent).
(** HRI_machine.cpp:234-309, r8_from_buff: the high and low 32 bits of the double
    returned (idxl and idxh select them in the order of the host). *)
Definition r8_from_buff (w : nat) (h : host) (buff : list Z) : outcome (Z * Z) :=
  let! four := bytes_at buff 0 4 in
  let! next := bytes_at buff 4 4 in
  let pnt := if check_endianess h then buff else rev four ++ rev next in
  let! p0 := long_at w h pnt 0 in
  let! p1 := long_at w h pnt 1 in
  if Z.land p0 0x7FFFFFFF =? 0 then Ok (p0 mod 2 ^ 32, p1 mod 2 ^ 32)
  else
    let sign := Z.land p0 0x80000000 in
    let exponent := Z.shiftr (Z.land p0 0x7F000000) 24 - 64 in
    let fraction := (Z.land p0 0x00FFFFFF, p1) in
    let exponent := times4 exponent in
    let! fe := (if negb (fst fraction =? 0) then norm8 w 64 fraction exponent else Ok (fraction, exponent)) in
    let '(fraction, exponent) := fe in
    let '(f0, f1) := rightshift w fraction 4 in
    let f0 := Z.land f0 0x000FFFFF in
    let exponent := exponent + 1023 in
    Ok (if 2047 <=? exponent then (Z.lor sign 0x7FEFFFFF mod 2 ^ 32, 0xFFFFFFFF)
        else if exponent <=? 0 then (sign mod 2 ^ 32, 0)
        else (Z.lor (Z.lor sign (Z.shiftl exponent 20)) f0 mod 2 ^ 32, f1 mod 2 ^ 32)).

(** HRI_machine.cpp:311-347, i2_from_buff and i4_from_buff. *)
Definition i2_from_buff (h : host) (buff : list Z) : outcome Z :=
  let! c := bytes_at buff 0 2 in Ok (load_i h (if check_endianess h then c else rev c)).
Definition i4_from_buff (h : host) (buff : list Z) : outcome Z :=
  let! c := bytes_at buff 0 4 in Ok (load_i h (if check_endianess h then c else rev c)).
