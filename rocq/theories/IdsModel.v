(** msat/omtp-ids: reading and writing OpenMTP-IDS files.
    A stream is its remaining bytes and whether good() holds; eofbit and failbit
    are not told apart. Output never fails. int has 32 bits. *)
From Verif Require Import Base.

Record stream := mk_stream { rest : list Z; good : bool }.
(** istream::get: -1 and no longer good at the end or on a bad stream. *)
Definition get (s : stream) : Z * stream :=
  if good s then
    match rest s with
    | [] => (-1, mk_stream [] false)
    | b :: r => (b, mk_stream r true)
    end
  else (-1, s).
(** istream::read into a buffer holding [old], whose unread part is kept. *)
Definition sread (n : nat) (old : list Z) (s : stream) : list Z * stream :=
  if good s then
    if (n <=? List.length (rest s))%nat then (firstn n (rest s), mk_stream (skipn n (rest s)) true)
    else (rest s ++ skipn (List.length (rest s)) old, mk_stream [] false)
  else (old, s).
(** for (int i = 0; i < n; i++) is.get(); *)
Fixpoint skip (n : nat) (s : stream) : stream :=
  match n with O => s | S m => skip m (snd (get s)) end.
Definition setfail (s : stream) : stream := mk_stream (rest s) false.

(** ** ByteSex.cc *)
(** The number of cases entered by [switch (bytes)]: out of range counts take
    [default], the first case. *)
Definition entered (top : nat) (bytes : Z) : nat :=
  if (0 <=? bytes) && (bytes <=? Z.of_nat top) then Z.to_nat bytes else top.
(** ByteSex.cc:45-79 and 82-105: k cases of a big-endian read of a W-bit word.
    A 16-bit value is promoted to int before the shift, which is undefined when
    the result exceeds 32 bits. *)
Fixpoint big_get (W : Z) (k : nat) (acc : Z) (s : stream) : outcome (Z * stream) :=
  match k with
  | O => Ok (acc, s)
  | S O => let '(c, s) := get s in Ok (Z.lor acc c mod 2 ^ W, s)
  | S k' =>
      let '(c, s) := get s in
      let v := Z.shiftl (c mod 2 ^ W) (8 * Z.of_nat k') in
      if (W =? 16) && (2 ^ 32 <=? v) then UB
      else big_get W k' (Z.lor acc v mod 2 ^ W) s
  end.
(** ByteSex.cc:108-163 *)
Fixpoint big_put (k : nat) (v : Z) : list Z :=
  match k with
  | O => []
  | S k' => Z.land (Z.shiftr v (8 * Z.of_nat k')) 255 :: big_put k' v
  end.
(** ByteSex.cc:166-227 *)
Fixpoint little_get (W bits : Z) (k : nat) (acc : Z) (s : stream) : Z * stream :=
  match k with
  | O => (acc, s)
  | S k' => let '(c, s) := get s in
            little_get W (bits + 8) k' (Z.lor acc (Z.shiftl (c mod 2 ^ W) bits) mod 2 ^ W) s
  end.
(** ByteSex.cc:230-297 *)
Fixpoint little_put (bits : Z) (k : nat) (v : Z) : list Z :=
  match k with
  | O => []
  | S k' => Z.land (Z.shiftr v bits) 255 :: little_put (bits + 8) k' v
  end.
(** big::read2 has cases up to 4, all others up to their width. *)
Definition big_read2 (bytes : Z) (s : stream) := big_get 16 (entered 4 bytes) 0 s.
Definition big_read4 (bytes : Z) (s : stream) := big_get 32 (entered 4 bytes) 0 s.
Definition big_read8 (bytes : Z) (s : stream) := big_get 64 (entered 8 bytes) 0 s.
Definition big_write2 (bytes : Z) (v : Z) := big_put (entered 2 bytes) v.
Definition big_write4 (bytes : Z) (v : Z) := big_put (entered 4 bytes) v.
Definition big_write8 (bytes : Z) (v : Z) := big_put (entered 8 bytes) v.
Definition little_read2 (bytes : Z) (s : stream) := little_get 16 0 (entered 2 bytes) 0 s.
Definition little_read4 (bytes : Z) (s : stream) := little_get 32 0 (entered 4 bytes) 0 s.
Definition little_read8 (bytes : Z) (s : stream) := little_get 64 0 (entered 8 bytes) 0 s.
Definition little_write2 (bytes : Z) (v : Z) := little_put 0 (entered 2 bytes) v.
Definition little_write4 (bytes : Z) (v : Z) := little_put 0 (entered 4 bytes) v.
Definition little_write8 (bytes : Z) (v : Z) := little_put 0 (entered 8 bytes) v.

(** The calls made below, with the default count 2: an int field is converted to
    uint16_t; the result of a read is 0..65535 (65535 or 0xbbff past the end). *)
Definition read2 (s : stream) : Z * stream :=
  let '(a, s) := get s in let '(b, s) := get s in
  (Z.lor (Z.shiftl (a mod 2 ^ 16) 8 mod 2 ^ 16) b mod 2 ^ 16, s).
Definition write2 (v : Z) : list Z := big_write2 2 (v mod 2 ^ 16).

(** ** FileHeader.cc; Constants.hh: FORTRAN_LEN 2, SATELLITE_LEN 8,
    FILEHEADER_LEN 60, LINEHEADER_LEN 16, RECORDHEADER_LEN 8, PAD 2 *)
Definition FORTRAN : list Z := [0; 1].
Definition SATELLITE : list Z := codes "METEOSAT".
Record file_header := mk_file_header {
  fh_fortran : list Z; fh_no_records : Z;
  fh_year : Z; fh_julian_day : Z; fh_hour : Z; fh_minute : Z;
  fh_process_year : Z; fh_process_julian_day : Z; fh_process_hour : Z; fh_process_minute : Z;
  fh_no_channels : Z; fh_vis_id : Z; fh_wv_id : Z; fh_ir_id : Z;
  fh_satellite : list Z; fh_satellite_id : Z; fh_record_length : Z;
  fh_no_vis_average : Z; fh_no_wv_average : Z; fh_no_ir_average : Z; fh_averaging_type : Z;
  fh_sample_interval : Z; fh_ir_calibration : Z; fh_wv_calibration : Z; fh_fine_adjustment : Z;
  fh_ir_space_count : Z; fh_wv_space_count : Z }.
(** FileHeader.cc:86-131 *)
Definition write_file_header (h : file_header) : list Z :=
  fh_fortran h ++ write2 (fh_no_records h)
  ++ write2 (fh_year h) ++ write2 (fh_julian_day h) ++ write2 (fh_hour h) ++ write2 (fh_minute h)
  ++ write2 (fh_process_year h) ++ write2 (fh_process_julian_day h) ++ write2 (fh_process_hour h) ++ write2 (fh_process_minute h)
  ++ write2 (fh_no_channels h) ++ write2 (fh_vis_id h) ++ write2 (fh_wv_id h) ++ write2 (fh_ir_id h)
  ++ fh_satellite h ++ write2 (fh_satellite_id h) ++ write2 (fh_record_length h)
  ++ write2 (fh_no_vis_average h) ++ write2 (fh_no_wv_average h) ++ write2 (fh_no_ir_average h) ++ write2 (fh_averaging_type h)
  ++ write2 (fh_sample_interval h) ++ write2 (fh_ir_calibration h) ++ write2 (fh_wv_calibration h) ++ write2 (fh_fine_adjustment h)
  ++ write2 (fh_ir_space_count h) ++ write2 (fh_wv_space_count h)
  ++ repeat 0 (Z.to_nat (fh_record_length h + 2 - 60)).
(** FileHeader.cc:133-186 *)
Definition read_file_header (s : stream) : file_header * stream :=
  let '(fortran, s) := sread 2 FORTRAN s in
  let '(no_records, s) := read2 s in
  let '(year, s) := read2 s in
  let '(julian_day, s) := read2 s in
  let '(hour, s) := read2 s in
  let '(minute, s) := read2 s in
  let '(process_year, s) := read2 s in
  let '(process_julian_day, s) := read2 s in
  let '(process_hour, s) := read2 s in
  let '(process_minute, s) := read2 s in
  let '(no_channels, s) := read2 s in
  let '(vis_id, s) := read2 s in
  let '(wv_id, s) := read2 s in
  let '(ir_id, s) := read2 s in
  let '(satellite, s) := sread 8 SATELLITE s in
  let '(satellite_id, s) := read2 s in
  let '(record_length, s) := read2 s in
  let '(no_vis_average, s) := read2 s in
  let '(no_wv_average, s) := read2 s in
  let '(no_ir_average, s) := read2 s in
  let '(averaging_type, s) := read2 s in
  let '(sample_interval, s) := read2 s in
  let '(ir_calibration, s) := read2 s in
  let '(wv_calibration, s) := read2 s in
  let '(fine_adjustment, s) := read2 s in
  let '(ir_space_count, s) := read2 s in
  let '(wv_space_count, s) := read2 s in
  let offset := record_length + 2 - 60 in
  let s := if offset <? 0 then setfail s else s in
  (mk_file_header fortran no_records year julian_day hour minute process_year process_julian_day process_hour process_minute
     no_channels vis_id wv_id ir_id satellite satellite_id record_length no_vis_average no_wv_average no_ir_average averaging_type
     sample_interval ir_calibration wv_calibration fine_adjustment ir_space_count wv_space_count,
   skip (Z.to_nat offset) s).

(** ** LineHeader.cc:59-97 *)
Record line_header := mk_line_header {
  lh_length : Z; lh_line : Z; lh_start : Z; lh_no_pixels : Z; lh_channel_id : Z; lh_quality : Z; lh_pad0 : Z; lh_pad1 : Z }.
Definition write_line_header (h : line_header) : list Z :=
  write2 (lh_length h) ++ write2 (lh_line h) ++ write2 (lh_start h) ++ write2 (lh_no_pixels h)
  ++ write2 (lh_channel_id h) ++ write2 (lh_quality h) ++ write2 (lh_pad0 h) ++ write2 (lh_pad1 h).
Definition read_line_header (s : stream) : line_header * stream :=
  let '(length, s) := read2 s in
  let '(line, s) := read2 s in
  let '(start, s) := read2 s in
  let '(no_pixels, s) := read2 s in
  let '(channel_id, s) := read2 s in
  let '(quality, s) := read2 s in
  let '(pad0, s) := read2 s in
  let '(pad1, s) := read2 s in
  (mk_line_header length line start no_pixels channel_id quality pad0 pad1, s).

(** ** RecordHeader.cc:56-83 *)
Record record_header := mk_record_header {
  rh_fortran : list Z; rh_record_header_length : Z; rh_no_scanlines : Z; rh_record_length : Z; rh_zero : Z }.
Definition write_record_header (h : record_header) : list Z :=
  rh_fortran h ++ write2 (rh_record_header_length h) ++ write2 (rh_no_scanlines h) ++ write2 (rh_record_length h) ++ write2 (rh_zero h).
Definition read_record_header (s : stream) : record_header * stream :=
  let '(fortran, s) := sread 2 FORTRAN s in
  let '(record_header_length, s) := read2 s in
  let '(no_scanlines, s) := read2 s in
  let '(record_length, s) := read2 s in
  let '(zero, s) := read2 s in
  (mk_record_header fortran record_header_length no_scanlines record_length zero, s).

(** ** ScanLine.cc:46-100 *)
Record scan_line := mk_scan_line { sl_header : line_header; sl_pixels : list Z }.
Definition write_scan_line (l : scan_line) : list Z :=
  write_line_header (sl_header l) ++ sl_pixels l
  ++ repeat 0 (Z.to_nat (lh_length (sl_header l) - Z.of_nat (List.length (sl_pixels l)) - 16)).
(** Lines 82-87: a throw if a pixel cannot be read. *)
Fixpoint read_pixels (n : nat) (s : stream) : outcome (list Z * stream) :=
  match n with
  | O => Ok ([], s)
  | S m => let '(c, s) := get s in
           if good s then let! p := read_pixels m s in Ok (c :: fst p, snd p) else Throw
  end.
Definition read_scan_line (s : stream) : outcome (scan_line * stream) :=
  let '(h, s) := read_line_header s in
  if good s then
    let! p := read_pixels (Z.to_nat (lh_no_pixels h)) s in
    let '(px, s) := p in
    let offset := lh_length h - lh_no_pixels h - 16 in
    let s := if offset <? 0 then setfail s else s in
    Ok (mk_scan_line h px, skip (Z.to_nat offset) s)
  else Throw.

(** ** Record.cc:46-82 *)
Record record := mk_record { rc_header : record_header; rc_lines : list scan_line }.
Definition write_record (r : record) : list Z :=
  write_record_header (rc_header r) ++ List.concat (map write_scan_line (rc_lines r)).
Fixpoint read_lines (n : nat) (s : stream) : outcome (list scan_line * stream) :=
  match n with
  | O => Ok ([], s)
  | S m => let! p := read_scan_line s in
           let '(l, s) := p in
           if good s then let! q := read_lines m s in Ok (l :: fst q, snd q) else Throw
  end.
Definition read_record (s : stream) : outcome (record * stream) :=
  let '(h, s) := read_record_header s in
  if good s then
    let! p := read_lines (Z.to_nat (rh_no_scanlines h)) s in
    let '(ls, s) := p in Ok (mk_record h ls, s)
  else Throw.

(** ** OpenMTP-IDS.cc:50-93 *)
Record ids := mk_ids { id_header : file_header; id_records : list record }.
(** no_records() - 1 as unsigned. Writing record i beyond the vector is
    undefined; records beyond the announced number are not written. *)
Definition announced (h : file_header) : Z := (fh_no_records h - 1) mod 2 ^ 32.
Definition write_ids (x : ids) : outcome (list Z) :=
  let n := announced (id_header x) in
  if n <=? Z.of_nat (List.length (id_records x))
  then Ok (write_file_header (id_header x) ++ List.concat (map write_record (firstn (Z.to_nat n) (id_records x))))
  else UB.
(** The vector is assumed to be allocated. A record that leaves the stream good
    takes at least 10 bytes, so the fuel is never exhausted (proved). *)
Fixpoint read_records (fuel : nat) (n : Z) (s : stream) : outcome (list record * stream) :=
  if n <=? 0 then Ok ([], s)
  else match fuel with
       | O => Loop
       | S f => let! p := read_record s in
                let '(r, s) := p in
                if good s then let! q := read_records f (n - 1) s in Ok (r :: fst q, snd q) else Throw
       end.
Definition read_ids (s : stream) : outcome (ids * stream) :=
  let '(h, s) := read_file_header s in
  if good s then
    let! p := read_records (S (List.length (rest s))) (announced h) s in
    let '(rs, s) := p in Ok (mk_ids h rs, s)
  else Throw.
(** OpenMTP_IDS::read, lines 97-122, on an open file with this content. *)
Definition read_file (content : list Z) : outcome ids :=
  let! p := read_ids (mk_stream content true) in
  if good (snd p) then Ok (fst p) else Throw.

(** ** OpenMTP-IDS.cc:161-227. All numbers are unsigned, below 2^32. *)
Fixpoint range_loop (from to : nat) (rs : list record) : list scan_line :=
  match rs with
  | [] => []
  | r :: rs' =>
      let size := List.length (rc_lines r) in
      (if (from <? size)%nat then firstn (Nat.min to size - from) (skipn from (rc_lines r)) else [])
      ++ (if (to <? size)%nat then []
          else range_loop (if (from <? size)%nat then 0 else from - size)%nat (to - size) rs')
  end.
Definition scanline_range (x : ids) (from to : nat) : list scan_line :=
  if (to <=? from)%nat then [] else range_loop from to (id_records x).
Definition scanline_one (x : ids) (line : nat) : list scan_line := scanline_range x line (line + 1).
(** last - 1 wraps to 2^32 - 1 when there is no line. *)
Definition scanline_all (x : ids) : list scan_line :=
  let last := Z.of_nat (fold_right Nat.add 0%nat (map (fun r => List.length (rc_lines r)) (id_records x))) in
  scanline_range x 0 (Z.to_nat ((last - 1) mod 2 ^ 32)).
