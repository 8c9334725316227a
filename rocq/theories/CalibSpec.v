(** What calibrated values mean, independently of the code. *)
From Verif Require Import Base HriImageSpec.
From Coq Require Import Reals.
Local Open Scope R_scope.

(** Planck's law in wave numbers: the radiance, in mW m-2 sr-1 (cm-1)-1, of a black
    body of temperature [t] at [nu] cm-1. *)
Definition planck (nu t : R) : R := 119104 / 10 ^ 10 * nu ^ 3 / (exp (143877 / 10 ^ 5 * nu / t) - 1).
(** Central wave number and band correction of the thermal channels of SEVIRI. *)
Definition thermal (ch : Z) : option (R * R * R) :=
  match ch with
  | 4%Z => Some (2569.094, 0.9959, 3.471)
  | 5%Z => Some (1598.566, 0.9963, 2.2219)
  | 6%Z => Some (1362.142, 0.9991, 0.485)
  | 7%Z => Some (1149.083, 0.9996, 0.181)
  | 8%Z => Some (1034.345, 0.9999, 0.060)
  | 9%Z => Some (930.659, 0.9983, 0.627)
  | 10%Z => Some (839.661, 0.9988, 0.397)
  | 11%Z => Some (752.381, 0.9981, 0.576)
  | _ => None
  end.
(** [t] is the brightness temperature of the radiance [l]. *)
Definition brightness (nu a b l t : R) : Prop := 0 < a * t + b /\ planck nu (a * t + b) = l.

(** First generation radiometers: radiance exp (a - b / t) at temperature [t]. *)
Definition emits (a b t l : R) : Prop := 0 < t /\ exp (a - b / t) = l.
Definition meteosat_ir : R * R := (6.9618, 1255.5465).
Definition meteosat_wv : R * R := (9.2477, 2233.4882).
Definition indoex_ir : R * R := (6.7348, 1272.2).
Definition indoex_wv : R * R := (9.1124, 2264.9).

(** Coefficients written in the headers: five digits after the point; two digits,
    the point, one digit. Blanks count as zeros. *)
Definition coefficient (c : list Z) : R := IZR (decimal c) / 100000.
Definition space_count (c : list Z) : R := IZR (decimal c) / 10.
