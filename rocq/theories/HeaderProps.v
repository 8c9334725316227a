(** Properties C11, C12, C13, C14. *)
From Verif Require Import BaseFacts MachineModel HeaderModel HeaderSpec HeaderProofs HeaderSafety.

(** C11: reading back any well formed header, laid out by the independent
    encoder, gives for each kind of record the last one laid out and stops
    exactly behind the header. [before] is the state of the header object, which
    may hold records of an earlier file. *)
Theorem C11_header_round_trip :
  forall (h : host) (before : header) (ft dfl : Z) (rs : list rec) (rest : list Z),
  wf_header (option_map is_lines (h_image before)) ft dfl rs = true ->
  read_header h before (encode_header ft dfl rs ++ rest) = Ok (expected before ft dfl rs, rest).
Proof. exact header_round_trip. Qed.
Print Assumptions C11_header_round_trip.

(** The consumed bytes are what the header announces as its length. *)
Theorem C11_header_length : forall (ft dfl : Z) (rs : list rec),
  Z.of_nat (List.length (encode_header ft dfl rs)) = h_total (expected empty_header ft dfl rs).
Proof. exact encode_header_length. Qed.
Print Assumptions C11_header_length.

Definition sample_lq (n : Z) : raw_lq :=
  {| rq_line := n; rq_day := 17848; rq_msec := 28800000 + n; rq_v := 1; rq_r := 2; rq_g := 3 |}.
Definition sample_recs : list rec :=
  [ RImage 10 3712 464 0;
    RNavig (codes "GEOS(+000.0)" ++ repeat 0 20) (-781648343) (-781648343) 1856 1856;
    RFunc (codes "$HALFTONE:=10");
    RAnnot (codes "H-000-MSG1__-MSG1________-IR_039___-000001___-200611130800-C_");
    RTime 64 17848 28800000; RAnc (codes "note"); RKey 130 (2 ^ 63 + 5);
    RSeg 321 4 1 1 8 0; RImage 8 7 2 1; RQual [sample_lq (-1); sample_lq 2] [0; 0] ].
Example C11_case_wf : wf_header None 0 (3712 * 464 * 10) sample_recs = true.
Proof. vm_compute. reflexivity. Qed.
Example C11_case_read : exists hd,
  read_header LE empty_header (encode_header 0 17223680 sample_recs ++ [1; 2; 3]) = Ok (hd, [1; 2; 3]) /\
  option_map is_lines (h_image hd) = Some 2 /\ option_map si_spacecraft (h_seg hd) = Some 321 /\
  option_map nv_cfac (h_navig hd) = Some (-781648343) /\
  option_map nv_lon (h_navig hd) = Some (Some (codes "+000.0")).
Proof. eexists. vm_compute. repeat split; reflexivity. Qed.

(** C12 (partial): on every byte stream whose announced header body is tiled by
    records satisfying the conditions of [framed] (length fields at least 3;
    lines*columns below 2^31; a terminated projection name that is not POLAR;
    line quality only after an image structure and long enough for its lines),
    reading ends with success or a reported error. Missing for the full claim:
    the refutations below show it is false without those conditions. *)
Theorem C12_header_safe_partial : forall (h : host) (before : header) (s : list Z), bytes_ok s ->
  framed (option_map is_lines (h_image before)) (firstn (announced s) (skipn 16 s)) ->
  defined (read_header h before s) = true.
Proof. exact header_safe. Qed.
Print Assumptions C12_header_safe_partial.

(** C12: whatever the bytes, an accepted header lies inside the stream, leaves
    the stream behind the announced length, and its length fields tile it. *)
Theorem C12_accepted_header_is_tiled :
  forall (h : host) (before : header) (s : list Z) (hd : header) (rest : list Z), bytes_ok s ->
  read_header h before s = Ok (hd, rest) ->
  (16 + announced s <= List.length s)%nat /\ rest = skipn (16 + announced s) s /\
  tiled (firstn (announced s) (skipn 16 s)).
Proof. exact header_accepts_tiled. Qed.
Print Assumptions C12_accepted_header_is_tiled.

(** C12: the only way to hang is a line quality record announcing length 0. *)
Theorem C12_hang_needs_zero_length_quality : forall (h : host) (before : header) (s : list Z),
  bytes_ok s -> read_header h before s = Loop ->
  exists k, nth_error (firstn (announced s) (skipn 16 s)) k = Some 129 /\
            reclen (skipn k (firstn (announced s) (skipn 16 s))) = 0.
Proof. exact header_loop. Qed.
Print Assumptions C12_hang_needs_zero_length_quality.

(** Raw header around a given body. *)
Definition raw_header (body : list Z) : list Z :=
  [0] ++ be 2 16 ++ [0] ++ be 4 (16 + Z.of_nat (List.length body)) ++ be 8 0 ++ body.

(** C12 is false as stated: streams, all made of bytes, that make the reader
    read outside its buffer, use a missing record, overflow, or hang. *)
Theorem C12_refuted_truncated_record : exists s, bytes_ok s /\
  read_header LE empty_header s = UB.
Proof. exists (raw_header [5]). split; [apply all_bytes_iff|]; vm_compute; reflexivity. Qed.
Print Assumptions C12_refuted_truncated_record.
Theorem C12_refuted_overlong_record : exists s, bytes_ok s /\
  read_header LE empty_header s = UB.
Proof. exists (raw_header ([6] ++ be 2 60000 ++ [65; 66])). split; [apply all_bytes_iff|]; vm_compute; reflexivity. Qed.
Print Assumptions C12_refuted_overlong_record.
Theorem C12_refuted_missing_image_structure : exists s, bytes_ok s /\
  read_header LE empty_header s = UB.
Proof. exists (raw_header (encode_rec (RQual [sample_lq 1] []))). split; [apply all_bytes_iff|]; vm_compute; reflexivity. Qed.
Print Assumptions C12_refuted_missing_image_structure.
Theorem C12_refuted_polar_projection : exists s, bytes_ok s /\
  read_header LE empty_header s = UB.
Proof. exists (raw_header (encode_rec (RNavig (codes "POLAR(N,+000.0)" ++ repeat 0 17) 1 1 1 1))).
  split; [apply all_bytes_iff|]; vm_compute; reflexivity. Qed.
Print Assumptions C12_refuted_polar_projection.
Theorem C12_refuted_zero_length_quality_hangs : exists s, bytes_ok s /\
  read_header LE empty_header s = Loop.
Proof. exists (raw_header (encode_rec (RImage 8 5 0 0) ++ [129; 0; 0])).
  split; [apply all_bytes_iff|]; vm_compute; reflexivity. Qed.
Print Assumptions C12_refuted_zero_length_quality_hangs.

Example C12_case_framed : framed None (encode_recs sample_recs).
Proof.
  unfold encode_recs, sample_recs. cbn [flat_map].
  repeat (apply framed_cons; [vm_compute; discriminate|vm_compute; reflexivity|vm_compute; reflexivity|]).
  constructor.
Qed.
Example C12_case_accepted : is_ok (read_header BE empty_header (raw_header (encode_recs sample_recs))) = true.
Proof. vm_compute. reflexivity. Qed.

(** C13 (partial): derived values after any successful read, for any bytes. Missing:
    for lines*columns >= 2^31, which the format can express, the read is not
    successful but undefined (below). *)
Theorem C13_derived_values_partial :
  forall (h : host) (before : header) (s : list Z) (hd : header) (rest : list Z),
  bytes_ok s -> derived_ok before ->
  read_header h before s = Ok (hd, rest) ->
  derived_ok hd /\ h_total hd = be_val (piece 4 4 s) /\ h_dfl hd = be_val (piece 8 8 s) /\
  h_filesize hd = h_total hd + h_dfl hd / 8.
Proof. exact header_derived. Qed.
Print Assumptions C13_derived_values_partial.

Theorem C13_refuted_largest_dimensions : exists s, bytes_ok s /\
  read_header LE empty_header s = UB.
Proof. exists (raw_header (encode_rec (RImage 8 65535 65535 0))).
  split; [apply all_bytes_iff|]; vm_compute; reflexivity. Qed.
Print Assumptions C13_refuted_largest_dimensions.

Example C13_case_start : derived_ok empty_header.
Proof. intros im H. discriminate. Qed.
Example C13_case : exists hd rest,
  read_header LE empty_header (encode_header 0 800 [RImage 10 3 3 0] ++ [9]) = Ok (hd, rest) /\
  h_filesize hd = 125 /\ option_map is_size (h_image hd) = Some 12.
Proof. eexists. eexists. vm_compute. auto. Qed.

(** C14: exactly one class per key number. *)
Theorem C14_key_classes_partition : forall n, 0 <= n < 256 ->
  (is_key_group_1 n = true /\ is_key_group_2 n = false /\ is_key_reserved n = false) \/
  (is_key_group_1 n = false /\ is_key_group_2 n = true /\ is_key_reserved n = false) \/
  (is_key_group_1 n = false /\ is_key_group_2 n = false /\ is_key_reserved n = true).
Proof. unfold is_key_group_1, is_key_group_2, is_key_reserved. intros n H. lia. Qed.
Print Assumptions C14_key_classes_partition.
Example C14_case : is_key_group_1 100 = true /\ is_key_group_2 200 = true /\ is_key_reserved 130 = true.
Proof. vm_compute. auto. Qed.
