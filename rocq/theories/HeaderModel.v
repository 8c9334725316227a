(** msat/hrit/MSG_header.cpp and msat/hrit/MSG_header_*.cpp:
    reading the header records of an HRIT/LRIT file. *)
From Verif Require Import Base MachineModel.

(** MSG_header_image_struct.h:47-52 *)
Record img_struct := mk_is {
  is_bpp : Z; is_cols : Z; is_lines : Z; is_comp : Z; is_pixels : Z; is_size : Z }.

(** MSG_header_image_struct.cpp:43-53. The product of two uint_2 is computed in
    [int] (integer promotion): signed overflow above 2^31-1 is UB. *)
Definition read_image_struct (h : host) (b : list Z) : outcome img_struct :=
  let! bpp := rd1 b 3 in
  let! cols := rd_ui h b 4 2 in
  let! lines := rd_ui h b 6 2 in
  let! comp := rd1 b 8 in
  if 2 ^ 31 <=? cols * lines then UB else
  let pixels := cols * lines in
  let size0 := (pixels * bpp) / 8 in
  let size := if (pixels * bpp) mod 8 =? 0 then size0 else size0 + 1 in
  Ok {| is_bpp := bpp; is_cols := cols; is_lines := lines; is_comp := comp;
        is_pixels := pixels; is_size := size |}.

(** MSG_header_image_navig.h: the projection name [pname], the scaling factors
    and offsets; [nv_lon] is the text handed to sscanf("%f") for the
    sub-satellite longitude (number scanning itself is not modelled). *)
Record navig := mk_nv {
  nv_pname : list Z; nv_lon : option (list Z);
  nv_cfac : Z; nv_lfac : Z; nv_coff : Z; nv_loff : Z }.

(** strchr on an array region: scan up to the NUL; [None] = ran off the array. *)
Fixpoint strchr (c : Z) (l : list Z) (i : nat) : option (option nat) :=
  match l with
  | [] => None
  | b :: l' => if b =? c then Some (Some i)
               else if b =? 0 then Some None else strchr c l' (S i)
  end.

(** MSG_header_image_navig.cpp:47-85. 'G'=71 'P'=80 'O'=79 'S'=83 'M'=77 ')'=41.
    In the POLAR branch (67-77) the first strchr result is dereferenced (null if
    absent), then [*tmp = 0] makes the second strchr(tmp, ')') return null, which
    is dereferenced: every path is UB. *)
Definition read_image_navig (h : host) (b : list Z) : outcome navig :=
  let! name := bytes_at b 3 32 in
  let! cfac := rd_i h b 35 4 in
  let! lfac := rd_i h b 39 4 in
  let! coff := rd_i h b 43 4 in
  let! loff := rd_i h b 47 4 in
  let c0 := nth 0 name 0 in
  let c1 := nth 1 name 0 in
  if c0 =? 71 then
    let name4 := set_nth name 4 0 in
    let pname := match upto_nul name4 with Some p => p | None => [] end in
    let tail := skipn 5 name4 in
    match strchr 41 tail 0 with
    | None => UB                                        (* not NUL terminated *)
    | Some r =>
        let tail' := match r with Some i => set_nth tail i 0 | None => tail end in
        match upto_nul tail' with
        | None => UB
        | Some lon => Ok (mk_nv pname (Some lon) cfac lfac coff loff)
        end
    end
  else if (c0 =? 80) && (c1 =? 79) then UB
  else if (c0 =? 80) && (c1 =? 83) then
    Ok (mk_nv (codes "PSD") None cfac lfac coff loff)
  else if c0 =? 77 then
    Ok (mk_nv (codes "MERCATOR") None cfac lfac coff loff)
  else Ok (mk_nv [] None cfac lfac coff loff).

(** MSG_header_image_datafunc.cpp:45-66. [h_length = len - 2] in size_t:
    len=2 -> error; len<2 wraps and the allocation throws. *)
Definition read_datafunc (h : host) (b : list Z) : outcome (list Z) :=
  let! len := rd_ui h b 1 2 in
  let h_length := (len - 2) mod 2 ^ 64 in
  if h_length =? 0 then Terminate
  else if 2 ^ 63 <=? h_length then Throw
  else
    let! body := bytes_at b 3 (Z.to_nat (h_length - 1)) in
    match upto_nul (body ++ [0]) with Some s => Ok s | None => UB end.

(** MSG_header_annotation.h:46-55 *)
Record annot := mk_an {
  an_text : list Z; an_chan : list Z; an_version : list Z; an_sc : list Z;
  an_pid1 : list Z; an_pid2 : list Z; an_pid3 : list Z; an_pid4 : list Z;
  an_flags : list Z }.

(** std::string::substr: throws out_of_range when pos > size. *)
Definition substr (s : list Z) (pos n : nat) : outcome (list Z) :=
  if (pos <=? List.length s)%nat then Ok (firstn n (skipn pos s)) else Throw.

(** MSG_header_annotation.cpp:45-60 *)
Definition read_annotation (b : list Z) : outcome annot :=
  let! tmp := bytes_at b 3 61 in
  match upto_nul (tmp ++ [0]) with
  | None => UB
  | Some a =>
      let! chan := substr a 0 1 in
      let! version := substr a 2 3 in
      let! sc := substr a 6 6 in
      let! p1 := substr a 13 12 in
      let! p2 := substr a 26 9 in
      let! p3 := substr a 36 9 in
      let! p4 := substr a 46 12 in
      let! fl := substr a 59 2 in
      Ok (mk_an a chan version sc p1 p2 p3 p4 fl)
  end.

(** MSG_header_timestamp.cpp:41-44 *)
Definition read_timestamp (h : host) (b : list Z) : outcome cds_short :=
  read_cds_short h b 4.

(** MSG_header_ancillary_text.cpp:52-70 *)
Definition read_ancillary (h : host) (b : list Z) : outcome (list Z) :=
  let! len := rd_ui h b 1 2 in
  let h_length := (len - 3) mod 2 ^ 64 in
  if h_length =? 0 then Terminate
  else if 2 ^ 63 <=? h_length then Throw
  else bytes_at b 3 (Z.to_nat h_length).

(** MSG_header_key.cpp:43-48 *)
Definition read_key (h : host) (b : list Z) : outcome (Z * Z) :=
  let! num := rd1 b 3 in
  let! seed := rd_ui h b 4 8 in
  Ok (num, seed).
(** MSG_header_key.cpp:50-63 *)
Definition is_key_group_1 (n : Z) : bool := (64 <=? n) && (n <=? 127).
Definition is_key_group_2 (n : Z) : bool := 192 <=? n.
Definition is_key_reserved (n : Z) : bool := (n <? 64) || ((127 <? n) && (n <? 192)).

(** MSG_header_segment_id.h:52-57 *)
Record seg_id := mk_si {
  si_spacecraft : Z; si_channel : Z; si_seq : Z; si_first : Z; si_last : Z; si_format : Z }.
(** MSG_header_segment_id.cpp:46-55 *)
Definition read_segment_id (h : host) (b : list Z) : outcome seg_id :=
  let! sc := rd_ui h b 3 2 in
  let! ch := rd1 b 5 in
  let! seq := rd_ui h b 6 2 in
  let! fst := rd_ui h b 8 2 in
  let! lst := rd_ui h b 10 2 in
  let! fmt := rd1 b 12 in
  Ok (mk_si sc ch seq fst lst fmt).

(** MSG_header_segment_quality.h:44-48 *)
Record line_q := mk_lq {
  lq_line : Z; lq_time : cds_short; lq_validity : Z; lq_radio : Z; lq_geo : Z }.
(** MSG_header_segment_quality.cpp:86-96 MSG_segment_quality::set *)
Definition read_line_q (h : host) (b : list Z) (off : nat) : outcome line_q :=
  let! line := rd_i h b off 4 in
  let! t := read_cds_short h b (off + 4) in
  let! v := rd1 b (off + 10) in
  let! r := rd1 b (off + 11) in
  let! g := rd1 b (off + 12) in
  Ok (mk_lq line t v r g).
(** MSG_header_segment_quality.cpp:56-68: [nlines] records from buff+3. *)
Fixpoint read_line_qs (h : host) (b : list Z) (off : nat) (n : nat) : outcome (list line_q) :=
  match n with
  | O => Ok []
  | S n' =>
      let! q := read_line_q h b off in
      let! qs := read_line_qs h b (off + 13) n' in
      Ok (q :: qs)
  end.

(** MSG_header.h:84-96. Pointers to records are options (null = None). *)
Record header := mk_h {
  h_typecode : Z; h_total : Z; h_dfl : Z; h_filesize : Z;
  h_image : option img_struct;
  h_navig : option navig;
  h_datafunc : option (list Z);
  h_annot : option annot;
  h_time : option cds_short;
  h_anc : option (list Z);
  h_key : option (Z * Z);
  h_seg : option seg_id;
  h_quality : option (list line_q) }.

(** MSG_header.cpp:34-45: all record pointers null (the scalar fields are
    uninitialised in the code; 0 here and always overwritten by read_from). *)
Definition empty_header : header :=
  mk_h 0 0 0 0 None None None None None None None None None.

Definition with_image (h : header) v := mk_h (h_typecode h) (h_total h) (h_dfl h) (h_filesize h) (Some v) (h_navig h) (h_datafunc h) (h_annot h) (h_time h) (h_anc h) (h_key h) (h_seg h) (h_quality h).
Definition with_navig (h : header) v := mk_h (h_typecode h) (h_total h) (h_dfl h) (h_filesize h) (h_image h) (Some v) (h_datafunc h) (h_annot h) (h_time h) (h_anc h) (h_key h) (h_seg h) (h_quality h).
Definition with_datafunc (h : header) v := mk_h (h_typecode h) (h_total h) (h_dfl h) (h_filesize h) (h_image h) (h_navig h) (Some v) (h_annot h) (h_time h) (h_anc h) (h_key h) (h_seg h) (h_quality h).
Definition with_annot (h : header) v := mk_h (h_typecode h) (h_total h) (h_dfl h) (h_filesize h) (h_image h) (h_navig h) (h_datafunc h) (Some v) (h_time h) (h_anc h) (h_key h) (h_seg h) (h_quality h).
Definition with_time (h : header) v := mk_h (h_typecode h) (h_total h) (h_dfl h) (h_filesize h) (h_image h) (h_navig h) (h_datafunc h) (h_annot h) (Some v) (h_anc h) (h_key h) (h_seg h) (h_quality h).
Definition with_anc (h : header) v := mk_h (h_typecode h) (h_total h) (h_dfl h) (h_filesize h) (h_image h) (h_navig h) (h_datafunc h) (h_annot h) (h_time h) (Some v) (h_key h) (h_seg h) (h_quality h).
Definition with_key (h : header) v := mk_h (h_typecode h) (h_total h) (h_dfl h) (h_filesize h) (h_image h) (h_navig h) (h_datafunc h) (h_annot h) (h_time h) (h_anc h) (Some v) (h_seg h) (h_quality h).
Definition with_seg (h : header) v := mk_h (h_typecode h) (h_total h) (h_dfl h) (h_filesize h) (h_image h) (h_navig h) (h_datafunc h) (h_annot h) (h_time h) (h_anc h) (h_key h) (Some v) (h_quality h).
Definition with_quality (h : header) v := mk_h (h_typecode h) (h_total h) (h_dfl h) (h_filesize h) (h_image h) (h_navig h) (h_datafunc h) (h_annot h) (h_time h) (h_anc h) (h_key h) (h_seg h) (Some v).

(** Result of handling the record at [pnt]: new header and the number of bytes
    the record claims. MSG_header.cpp:121-221, one case of the switch. Pointers
    into [hbuff] are represented by the remaining suffix [b] of the buffer. *)
Definition fixed (h : host) (b : list Z) (len : Z) (k : outcome header) : outcome (header * Z) :=
  let! l := rd_ui h b 1 2 in
  if negb (l =? len) then Terminate
  else let! hd := k in Ok (hd, len).

Definition read_record (h : host) (hd : header) (b : list Z) : outcome (header * Z) :=
  let! t := rd1 b 0 in
  if t =? 1 then fixed h b 9 (let! v := read_image_struct h b in Ok (with_image hd v))
  else if t =? 2 then fixed h b 51 (let! v := read_image_navig h b in Ok (with_navig hd v))
  else if t =? 3 then
    let! l := rd_ui h b 1 2 in
    let! v := read_datafunc h b in Ok (with_datafunc hd v, l)
  else if t =? 4 then fixed h b 64 (let! v := read_annotation b in Ok (with_annot hd v))
  else if t =? 5 then fixed h b 10 (let! v := read_timestamp h b in Ok (with_time hd v))
  else if t =? 6 then
    let! l := rd_ui h b 1 2 in
    let! v := read_ancillary h b in Ok (with_anc hd v, l)
  else if t =? 7 then fixed h b 12 (let! v := read_key h b in Ok (with_key hd v))
  else if t =? 128 then fixed h b 13 (let! v := read_segment_id h b in Ok (with_seg hd v))
  else if t =? 129 then
    match h_image hd with
    | None => UB                                   (* null image_structure, line 211 *)
    | Some im =>
        let! v := read_line_qs h b 3 (Z.to_nat (is_lines im)) in
        let! l := rd_ui h b 1 2 in
        Ok (with_quality hd v, l)
    end
  else Terminate.

(** MSG_header.cpp:119-222 [while (left)]. [left] is size_t: subtracting a
    record longer than [left] wraps, after which the pointer is past the
    buffer. A record of length 0 leaves the state (pnt, left) unchanged, so the
    loop repeats it forever ([Loop]; each round also leaks an object). [fuel]
    bounds the number of iterations; [read_header] passes more than can be used
    (proved in HeaderProofs). *)
Fixpoint read_records (fuel : nat) (h : host) (hd : header) (b : list Z) (left : Z)
  : outcome header :=
  if left =? 0 then Ok hd else
  match fuel with
  | O => Loop
  | S fuel' =>
      let! r := read_record h hd b in
      let '(hd', l) := r in
      if l =? 0 then Loop
      else read_records fuel' h hd' (skipn (Z.to_nat l) b) ((left - l) mod 2 ^ 64)
  end.

(** MSG_header.cpp:74-225. The stream is the list of bytes still to be read;
    istream::read of more bytes than remain sets failbit. Allocation is assumed
    to succeed. [hd0] is the object before the call (records of an earlier file
    stay until overwritten, as when DataAccess::scan reuses one MSG_header). *)
Definition read_header (h : host) (hd0 : header) (s : list Z) : outcome (header * list Z) :=
  if (List.length s <? 16)%nat then Terminate else
  let prim := firstn 16 s in
  let s1 := skipn 16 s in
  let! t := rd1 prim 0 in
  if negb (t =? 0) then Terminate else
  let! pl := rd_ui h prim 1 2 in
  if negb (pl =? 16) then Terminate else
  let! ft := rd1 prim 3 in
  let! total := rd_ui h prim 4 4 in
  let! dfl := rd_ui h prim 8 8 in
  let filesize := dfl / 8 + total in
  let hsize := (total - 16) mod 2 ^ 32 in
  if Z.of_nat (List.length s1) <? hsize then Terminate else
  let hbuff := firstn (Z.to_nat hsize) s1 in
  let s2 := skipn (Z.to_nat hsize) s1 in
  let hd1 := mk_h ft total dfl filesize (h_image hd0) (h_navig hd0) (h_datafunc hd0)
               (h_annot hd0) (h_time hd0) (h_anc hd0) (h_key hd0) (h_seg hd0) (h_quality hd0) in
  let! hd := read_records (S (List.length hbuff)) h hd1 hbuff hsize in
  Ok (hd, s2).
