(** Specification of native files: the bit stream of samples, the layout of the
    packets and the order of the channels. *)
From Verif Require Import Base.

(** Sample [i] of [n] in a bit string of value [v]: bits 10 i to 10 i + 9 from the left. *)
Definition group (v : Z) (n i : nat) : Z := (v / 1024 ^ Z.of_nat (n - 1 - i)) mod 1024.
Definition groups (d : list Z) : list Z := let n := (List.length d / 5 * 4)%nat in map (group (be_val d) n) (seq 0 n).
(** Packing samples, 10 bits each. *)
Definition val10 (s : list Z) : Z := fold_left (fun a v => a * 1024 + v) s 0.
Definition pack (s : list Z) : list Z := be (List.length s / 4 * 5) (val10 s).

(** A line packet: 38 bytes of packet header with the length at 18, 27 bytes of
    line header, the data. The length counts what follows byte 22, less one. *)
Record packet := mk_packet { pk_head : list Z; pk_sub : list Z; pk_line : list Z; pk_data : list Z }.
Definition packet_ok (p : packet) : Prop :=
  List.length (pk_head p) = 18%nat /\ List.length (pk_sub p) = 16%nat /\ List.length (pk_line p) = 27%nat /\
  bytes_ok (pk_head p) /\ bytes_ok (pk_sub p) /\ bytes_ok (pk_line p) /\ bytes_ok (pk_data p) /\
  Z.of_nat (List.length (pk_data p)) + 42 < 2 ^ 32.
Definition packet_bytes (p : packet) : list Z :=
  pk_head p ++ be 4 (Z.of_nat (List.length (pk_data p)) + 42) ++ pk_sub p ++ pk_line p ++ pk_data p.
Definition file_bytes (ps : list packet) : list Z := flat_map packet_bytes ps.

(** The channel of each line: for every image line the selected channels in
    order, channel 11 three times. *)
Definition row (sel : list bool) : list nat :=
  flat_map (fun ic => if nth ic sel false then if (ic =? 11)%nat then [11; 11; 11]%nat else [ic] else []) (seq 0 12).
Definition order (sel : list bool) (n : nat) : list nat := List.concat (repeat (row sel) n).
(** What belongs to one channel, in order. *)
Definition of_channel {A} (ic : nat) (tags : list nat) (l : list A) : list A :=
  map snd (filter (fun p => (fst p =? ic)%nat) (combine tags l)).
