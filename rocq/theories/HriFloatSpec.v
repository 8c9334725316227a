(** IBM hexadecimal and IEEE binary floating point numbers. *)
From Verif Require Import Base.

(** The number an IBM single of bits [W] stands for, times 2^400: sign, 7 bits of
    exponent in excess 64 of 16, 24 bits of fraction. *)
Definition sgn32 (W : Z) : Z := if W <? 2 ^ 31 then 1 else -1.
Definition ibm32 (W : Z) : Z := sgn32 W * ((W mod 2 ^ 24) * 2 ^ (4 * ((W / 2 ^ 24) mod 128) + 120)).
(** The number a finite IEEE single stands for, times 2^400. *)
Definition ieee32 (B : Z) : Z :=
  let E := (B / 2 ^ 23) mod 256 in let M := B mod 2 ^ 23 in
  sgn32 B * (if E =? 0 then M * 2 ^ 251 else (2 ^ 23 + M) * 2 ^ (E + 250)).
Definition finite32 (B : Z) : Prop := 0 <= B < 2 ^ 32 /\ (B / 2 ^ 23) mod 256 < 255.

(** Doubles, times 2^1100. *)
Definition sgn64 (W : Z) : Z := if W <? 2 ^ 63 then 1 else -1.
Definition ibm64 (W : Z) : Z := (W mod 2 ^ 56) * 2 ^ (4 * ((W / 2 ^ 56) mod 128) + 788).
Definition ieee64 (B : Z) : Z :=
  let E := (B / 2 ^ 52) mod 2048 in let M := B mod 2 ^ 52 in
  if E =? 0 then M * 2 ^ 26 else (2 ^ 52 + M) * 2 ^ (E + 25).
Definition finite64 (B : Z) : Prop := 0 <= B < 2 ^ 64 /\ (B / 2 ^ 52) mod 2048 < 2047.
