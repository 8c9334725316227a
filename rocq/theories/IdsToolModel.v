(** tools/omtp-ids: extraction of a sector and conversion to PGM of OpenMTP-IDS
    files. Standard output is left out. Doubles are rounded to 53 bits with an
    unbounded exponent. A file that cannot be opened for writing is a parameter;
    writing does not fail otherwise. *)
From Coq Require Import Reals.
From Flocq Require Import Core.
From Verif Require Import Base GribModel IdsModel.
Open Scope string_scope.
Open Scope list_scope.
Open Scope Z_scope.

(** ** OpenMTP-IDS_sector.cc *)
(** Lines 50-53 *)
Definition LINE_0 : nat := Z.to_nat (3 * (1770 / 2)).
Definition LINE_1 : nat := Z.to_nat (3 * (2110 / 2)).
Definition PIXEL_0 : nat := Z.to_nat (1092 / 2).
Definition PIXEL_1 : nat := Z.to_nat (1604 / 2).
Definition rnd53 (x : R) : R := round radix2 (FLX_exp 53) ZnearestE x.
(** Lines 55-61. The division by zero pixels gives an infinity, converted to int. *)
Definition record_lines (lines pixels : Z) : outcome Z :=
  if pixels =? 0 then UB
  else Ok (ZnearestE (rnd53 (R_sqrt.sqrt (rnd53 (IZR (8 * lines) / IZR pixels))))).
(** Lines 63-69. *)
Definition no_records (scanlines lines_per_record : Z) : outcome Z :=
  if lines_per_record =? 0 then UB
  else Ok (Zceil (rnd53 (IZR scanlines / IZR lines_per_record))).
(** Lines 87-93 *)
Fixpoint fill (dummy : scan_line) (lines records : nat) (ls : list scan_line) : list (list scan_line) :=
  match records with
  | O => []
  | S r => (firstn lines ls ++ repeat dummy (lines - List.length (firstn lines ls))) :: fill dummy lines r (skipn lines ls)
  end.
(** Lines 71-101. scanline[0] of an empty vector is undefined. RecordHeader.cc:46-53
    and LineHeader.cc:46-57 give the other fields. *)
Definition repack (ls : list scan_line) : outcome (list record) :=
  match ls with
  | [] => UB
  | l0 :: _ =>
      let pixels := Z.of_nat (List.length (sl_pixels l0)) in
      let! lines := record_lines (Z.of_nat (List.length ls)) pixels in
      let! records := no_records (Z.of_nat (List.length ls)) lines in
      let header := mk_record_header FORTRAN 8 lines (lines * (pixels + 16) + 8) 0 in
      let dummy := mk_scan_line (mk_line_header (pixels + 16) 0 0 pixels 0 0 0 0) (repeat 0 (Z.to_nat pixels)) in
      Ok (map (mk_record header) (fill dummy (Z.to_nat lines) (Z.to_nat records) ls))
  end.
(** Lines 103-121. The iterators are past the end of a shorter line. *)
Definition sector_line (l : scan_line) : outcome scan_line :=
  if (PIXEL_1 <=? List.length (sl_pixels l))%nat then
    let pixels := firstn (PIXEL_1 - PIXEL_0) (skipn PIXEL_0 (sl_pixels l)) in
    let no_pixels := Z.of_nat (List.length pixels) in
    let h := sl_header l in
    Ok (mk_scan_line (mk_line_header (16 + no_pixels) (lh_line h) (Z.of_nat PIXEL_0) no_pixels (lh_channel_id h) (lh_quality h) (lh_pad0 h) (lh_pad1 h)) pixels)
  else UB.
Fixpoint all_lines (f : scan_line -> outcome scan_line) (ls : list scan_line) : outcome (list scan_line) :=
  match ls with
  | [] => Ok []
  | l :: ls' => let! x := f l in let! r := all_lines f ls' in Ok (x :: r)
  end.
(** Lines 123-130 *)
Definition sector (x : ids) : outcome (list record) :=
  let! ls := all_lines sector_line (scanline_range x LINE_0 LINE_1) in repack ls.
(** FileHeader.hh: no_records and record_length set. *)
Definition with_sizes (h : file_header) (nrec rlen : Z) : file_header :=
  mk_file_header (fh_fortran h) nrec (fh_year h) (fh_julian_day h) (fh_hour h) (fh_minute h)
    (fh_process_year h) (fh_process_julian_day h) (fh_process_hour h) (fh_process_minute h)
    (fh_no_channels h) (fh_vis_id h) (fh_wv_id h) (fh_ir_id h) (fh_satellite h) (fh_satellite_id h) rlen
    (fh_no_vis_average h) (fh_no_wv_average h) (fh_no_ir_average h) (fh_averaging_type h)
    (fh_sample_interval h) (fh_ir_calibration h) (fh_wv_calibration h) (fh_fine_adjustment h)
    (fh_ir_space_count h) (fh_wv_space_count h).
(** Lines 132-143: the bytes of omtp-ids-sector.ids. OpenMTP_IDS::write throws a
    pointer to const characters when the file cannot be opened. *)
Definition openmtp_ids_sector (can_write : bool) (x : ids) : outcome (list Z) :=
  let! rs := sector x in
  match rs with
  | [] => UB
  | r0 :: _ =>
      if can_write then write_ids (mk_ids (with_sizes (id_header x) (Z.of_nat (List.length rs) + 1) (rh_record_length (rc_header r0))) rs)
      else Throw
  end.
(** An exception that no handler takes. *)
Definition uncaught {A} (m : outcome A) : outcome A := match m with Throw => Terminate | _ => m end.
(** Lines 155-184 with a file name: [None] is a file that cannot be opened. The
    handler is for char*, the exceptions are const char*. The result is what is
    written before EXIT_SUCCESS. *)
Definition sector_main (can_write : bool) (content : option (list Z)) : outcome (list Z) :=
  match content with
  | None => Terminate
  | Some c => let! x := uncaught (read_file c) in uncaught (openmtp_ids_sector can_write x)
  end.

(** ** OpenMTP-IDS_to_pgm.cc *)
(** Lines 41-64; Constants.hh: Channel_Id *)
Definition filename (id : Z) : string :=
  if (id =? 1) || (id =? 2) || (id =? 3) || (id =? 8) || (id =? 9) || (id =? 10) || (id =? 11) || (id =? 12) then "vis.pgm"
  else if (id =? 4) || (id =? 5) then "ir.pgm"
  else if (id =? 6) || (id =? 7) then "wv.pgm"
  else "unknown-channel.pgm".
(** The directory: the content of each file there is. *)
Definition directory := string -> option (list Z).
Definition put_file (d : directory) (name : string) (content : list Z) : directory :=
  fun n => if String.eqb n name then Some content else d n.
(** Lines 92-101: the rows up to the first of another size, and whether there was none. *)
Fixpoint put_rows (size : nat) (image : list (list Z)) : list Z * bool :=
  match image with
  | [] => ([], true)
  | row :: image' =>
      if (List.length row =? size)%nat then let '(b, ok) := put_rows size image' in (row ++ b, ok)
      else ([], false)
  end.
(** Lines 69-105; sizes are printed as unsigned; the comment is always null. *)
Definition write_pgm (can : string -> bool) (name : string) (image : list (list Z)) (d : directory) : bool * directory :=
  match image with
  | [] => (false, d)
  | row0 :: _ =>
      let size := List.length row0 in
      if (size =? 0)%nat then (false, d)
      else if can name then
        let '(b, ok) := put_rows size image in
        (ok, put_file d name (codes "P5" ++ [10] ++ print (Z.of_nat size) ++ [32] ++ print (Z.of_nat (List.length image)) ++ [10] ++ codes "255" ++ [10] ++ b))
      else (false, d)
  end.
(** Lines 121-135: the vectors are read as far as their headers say. *)
Fixpoint channel_rows (channel : Z) (rs : list record) : outcome (list (list Z)) :=
  match rs with
  | [] => Ok []
  | r :: rs' =>
      let n := rh_no_scanlines (rc_header r) in
      if n <=? Z.of_nat (List.length (rc_lines r)) then
        let! rows := channel_rows channel rs' in
        Ok (map sl_pixels (filter (fun l => lh_channel_id (sl_header l) =? channel) (firstn (Z.to_nat n) (rc_lines r))) ++ rows)
      else UB
  end.
(** Lines 111-139 *)
Definition write_channel_pgm (can : string -> bool) (channel : Z) (x : ids) (d : directory) : outcome (bool * directory) :=
  if channel =? 0 then Ok (false, d)
  else
    let n := announced (id_header x) in
    if n <=? Z.of_nat (List.length (id_records x)) then
      let! image := channel_rows channel (firstn (Z.to_nat n) (id_records x)) in
      Ok (write_pgm can (filename channel) image d)
    else UB.
(** Lines 145-157: the value returned is the opposite of the last result. *)
Definition openmtp_ids_to_pgm (can : string -> bool) (x : ids) (d : directory) : outcome (bool * directory) :=
  let fh := id_header x in
  let! p := write_channel_pgm can (fh_vis_id fh) x d in
  let! p := write_channel_pgm can (fh_ir_id fh) x (snd p) in
  let! p := write_channel_pgm can (fh_wv_id fh) x (snd p) in
  Ok (negb (fst p), snd p).
(** Lines 172-201 with a file name: the exit status and the directory. The text
    thrown for a file that cannot be opened (OpenMTP-IDS.cc:99-106) is destroyed
    before it is printed. *)
Definition pgm_main (can : string -> bool) (content : option (list Z)) (d : directory) : outcome (Z * directory) :=
  match content with
  | None => UB
  | Some c =>
      match read_file c with
      | Throw => Ok (1, d)
      | m => let! x := m in
             let! p := openmtp_ids_to_pgm can x d in
             Ok (if fst p then 0 else 1, snd p)
      end
  end.
