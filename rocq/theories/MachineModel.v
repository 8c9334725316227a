(** msat/hrit/MSG_machine.cpp and msat/hrit/MSG_time_cds.cpp. *)
From Verif Require Import Base.

(** Byte order of the host running the program. *)
Inductive host := LE | BE.

(** Value of an unsigned integer object whose storage holds [bs]: the pointer
    casts and dereferences of MSG_machine.cpp. [be_load] reads most significant byte
    first. (Alignment and aliasing rules are not modelled.) *)
Definition be_load (bs : list Z) : Z := fold_left (fun acc b => acc * 256 + b) bs 0.
Definition load_u (h : host) (bs : list Z) : Z :=
  match h with BE => be_load bs | LE => be_load (rev bs) end.
(** Same for signed objects of 8*length bits (two's complement). *)
Definition load_i (h : host) (bs : list Z) : Z :=
  let v := load_u h bs in
  let bits := 8 * Z.of_nat (List.length bs) in
  if v <? 2 ^ (bits - 1) then v else v - 2 ^ bits.

(** MSG_machine.cpp:35-47 check_endianess: byte[3]=1 in a zero int; big iff the
    int reads 1. *)
Definition check_endianess (h : host) : bool :=
  let val := load_i h [0; 0; 0; 1] in
  if negb (val =? 1) then false else true.

(** MSG_machine.cpp:59-92 get_i2/get_i4/get_i8 and 99-132 get_ui2/4/8: use the
    buffer directly if [isbig], else a byte-reversed copy. [isbig] is the
    file-static flag (line 33). *)
Definition get_ui (h : host) (isbig : bool) (bs : list Z) : Z :=
  if isbig then load_u h bs else load_u h (rev bs).
Definition get_i (h : host) (isbig : bool) (bs : list Z) : Z :=
  if isbig then load_i h bs else load_i h (rev bs).
(** MSG_machine.cpp:54-57, 94-97 get_i1/get_ui1: no swap ([char] signed). *)
Definition get_ui1 (h : host) (b : Z) : Z := load_u h [b].
Definition get_i1 (h : host) (b : Z) : Z := load_i h [b].

(** Reads of N-byte fields from a buffer; the flag has been set by
    check_endianess at the start of MSG_header::read_from (MSG_header.cpp:79). *)
Definition rd_ui (h : host) (buf : list Z) (off n : nat) : outcome Z :=
  let! bs := bytes_at buf off n in Ok (get_ui h (check_endianess h) bs).
Definition rd_i (h : host) (buf : list Z) (off n : nat) : outcome Z :=
  let! bs := bytes_at buf off n in Ok (get_i h (check_endianess h) bs).
Definition rd1 (buf : list Z) (off : nat) : outcome Z :=
  match nth_error buf off with Some b => Ok b | None => UB end.

(** MSG_time_cds.h:105-109, fields of MSG_time_cds_short. *)
Record cds_short := mk_cds {
  cds_day : Z; cds_msec : Z; cds_unixtime : Z; cds_usecs : Z }.

(** MSG_time_cds.cpp:54-69. time_t is 64 bits: no overflow possible. The
    returned length 6 is the caller's stride. *)
Definition read_cds_short (h : host) (buf : list Z) (off : nat) : outcome cds_short :=
  let! day := rd_ui h buf off 2 in
  let! msec := rd_ui h buf (off + 2) 4 in
  let secs_from_1958 := 86400 * day in
  let secs_in_day := msec / 1000 in
  Ok {| cds_day := day; cds_msec := msec;
        cds_unixtime := secs_from_1958 + secs_in_day + (-378691200);
        cds_usecs := msec mod 1000 |}.

(** MSG_time_cds.cpp:277-282 (8 bytes) and 208-214 (10 bytes). *)
Definition read_cds (h : host) (buf : list Z) (off : nat) : outcome (cds_short * Z) :=
  let! s := read_cds_short h buf off in
  let! us := rd_ui h buf (off + 6) 2 in
  Ok (s, us).
Definition read_cds_expanded (h : host) (buf : list Z) (off : nat)
  : outcome (cds_short * Z * Z) :=
  let! s := read_cds_short h buf off in
  let! us := rd_ui h buf (off + 6) 2 in
  let! ns := rd_ui h buf (off + 8) 2 in
  Ok (s, us, ns).

(** MSG_time_cds.cpp:152-160 MSG_time_cuc::read_from; the value is kept scaled
    by 2^24 (an integer below 2^56; a double holds 53 bits, so the code's
    [cucvalue] may round: rounding is not modelled). *)
Definition read_cuc_scaled (buf : list Z) (off : nat) : outcome Z :=
  let! t := bytes_at buf off 7 in
  match t with
  | [t0; t1; t2; t3; t4; t5; t6] =>
      Ok (256^6 * t0 + 256^5 * t1 + 256^4 * t2 + 256^3 * t3 + 256^2 * t4 + 256 * t5 + t6)
  | _ => UB
  end.
