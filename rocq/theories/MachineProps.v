(** Properties C10 and C15. *)
From Verif Require Import BaseFacts MachineModel MachineProofs.

(** C10: every field decoder returns the big-endian value of its bytes, whatever
    the host byte order, and that value fits the field. *)
Theorem C10_unsigned_fields : forall (h : host) (bs : list Z), bytes_ok bs ->
  get_ui h (check_endianess h) bs = be_val bs /\
  0 <= be_val bs < 256 ^ Z.of_nat (List.length bs).
Proof. exact decode_unsigned. Qed.
Print Assumptions C10_unsigned_fields.

Theorem C10_signed_fields : forall (h : host) (bs : list Z),
  get_i h (check_endianess h) bs = to_signed (8 * Z.of_nat (List.length bs)) (be_val bs).
Proof. exact get_i_val. Qed.
Print Assumptions C10_signed_fields.

(** C10, seen from the writer: whatever value was laid out is what is read. *)
Theorem C10_unsigned_round_trip : forall (h : host) (n : nat) (v : Z),
  0 <= v < 256 ^ Z.of_nat n -> get_ui h (check_endianess h) (be n v) = v.
Proof. exact decode_encode_unsigned. Qed.
Print Assumptions C10_unsigned_round_trip.

Theorem C10_signed_round_trip : forall (h : host) (n : nat) (v : Z), (0 < n)%nat ->
  - 2 ^ (8 * Z.of_nat n - 1) <= v < 2 ^ (8 * Z.of_nat n - 1) ->
  get_i h (check_endianess h) (be n (v mod 2 ^ (8 * Z.of_nat n))) = v.
Proof. exact decode_encode_signed. Qed.
Print Assumptions C10_signed_round_trip.

Example C10_case_unsigned : get_ui LE (check_endianess LE) [1; 2; 3; 4] = 16909060
  /\ get_ui BE (check_endianess BE) [1; 2; 3; 4] = 16909060.
Proof. vm_compute. auto. Qed.
Example C10_case_signed : get_i LE (check_endianess LE) [255; 254] = -2
  /\ get_i BE (check_endianess BE) (be 4 ((-77) mod 2 ^ 32)) = -77.
Proof. vm_compute. auto. Qed.

(** C15: decoding of a six byte stamp found anywhere in a buffer. 4383 days
    separate 1958-01-01 from 1970-01-01. *)
Theorem C15_short_stamp : forall (h : host) (pre bs post : list Z), List.length bs = 6%nat ->
  exists t, read_cds_short h (pre ++ bs ++ post) (List.length pre) = Ok t /\
    cds_day t = be_val (firstn 2 bs) /\ cds_msec t = be_val (skipn 2 bs) /\
    cds_unixtime t = 86400 * (be_val (firstn 2 bs) - 4383) + be_val (skipn 2 bs) / 1000 /\
    cds_usecs t = be_val (skipn 2 bs) mod 1000.
Proof. exact cds_decode. Qed.
Print Assumptions C15_short_stamp.

(** The 8 and 10 byte variants add microseconds and nanoseconds and agree with
    the short one. *)
Theorem C15_long_stamps : forall (h : host) (pre bs us ns post : list Z),
  List.length bs = 6%nat -> List.length us = 2%nat -> List.length ns = 2%nat ->
  exists t, read_cds_short h (pre ++ bs ++ post) (List.length pre) = Ok t /\
    read_cds h (pre ++ bs ++ us ++ post) (List.length pre) = Ok (t, be_val us) /\
    read_cds_expanded h (pre ++ bs ++ us ++ ns ++ post) (List.length pre) = Ok (t, be_val us, be_val ns).
Proof. exact cds_variants. Qed.
Print Assumptions C15_long_stamps.

(** Distinct stamps are distinct instants and order is preserved. *)
Theorem C15_instants_are_ordered : forall (h : host) (p1 b1 q1 p2 b2 q2 : list Z) (t1 t2 : cds_short),
  bytes_ok b1 -> bytes_ok b2 -> List.length b1 = 6%nat -> List.length b2 = 6%nat ->
  be_val (skipn 2 b1) < 86400000 -> be_val (skipn 2 b2) < 86400000 ->
  read_cds_short h (p1 ++ b1 ++ q1) (List.length p1) = Ok t1 ->
  read_cds_short h (p2 ++ b2 ++ q2) (List.length p2) = Ok t2 ->
  (cds_unixtime t1 = cds_unixtime t2 /\ cds_usecs t1 = cds_usecs t2 -> b1 = b2) /\
  (cds_lt t1 t2 <->
     be_val (firstn 2 b1) < be_val (firstn 2 b2) \/
     (be_val (firstn 2 b1) = be_val (firstn 2 b2) /\ be_val (skipn 2 b1) < be_val (skipn 2 b2))).
Proof. exact cds_order. Qed.
Print Assumptions C15_instants_are_ordered.

(** CUC coarse/fine time: the seven bytes as one big-endian number (scaled by 2^24). *)
Theorem C15_cuc_time : forall pre bs post : list Z, List.length bs = 7%nat ->
  read_cuc_scaled (pre ++ bs ++ post) (List.length pre) = Ok (be_val bs).
Proof. exact cuc_value. Qed.
Print Assumptions C15_cuc_time.

(** 2006-11-13 08:00:00.123 : day 17848 *)
Example C15_case : exists t,
  read_cds_short LE ([9] ++ (be 2 17848 ++ be 4 28800123) ++ [7]) 1 = Ok t /\
  cds_unixtime t = 1163404800 /\ cds_usecs t = 123.
Proof. eexists. vm_compute. auto. Qed.
