(** msat/openmtp: reading OpenMTP files. *)
From Verif Require Import Base MachineModel HriModel.
#[local] Open Scope string_scope.
#[local] Open Scope list_scope.
#[local] Open Scope Z_scope.

Definition int_max : Z := 2 ^ 31 - 1.
Definition int_ok (v : Z) : bool := (- 2 ^ 31 <=? v) && (v <=? int_max).

(** istream::read with a signed count: a negative one stores nothing and fails. *)
Definition sreadz (s : stream) (n : Z) : list Z * stream :=
  if n <? 0 then ([], mk_stream (left s) true) else sread s (Z.to_nat n).
(** istream::seekg forward from the current position: going past the end of the
    file is not an error (the next read fails). *)
Definition sskip (s : stream) (n : nat) : stream :=
  if failed s then s else mk_stream (skipn n (left s)) false.

(** ** OpenMTP_machine.cpp:32-101: the constructor computes isbig as in
    MSG_machine; int2, int4 reverse the bytes unless isbig; float4 and float8 do
    the same and are kept as the bits of the result. *)
Definition mint (n : nat) (hs : host) (hdr : list Z) (off : nat) : outcome Z :=
  let! bs := bytes_at hdr off n in Ok (load_i hs (if check_endianess hs then bs else rev bs)).
Definition int2 := mint 2.
Definition int4 := mint 4.
Definition mbits (n : nat) (hs : host) (hdr : list Z) (off : nat) : outcome Z :=
  let! bs := bytes_at hdr off n in Ok (load_u hs (if check_endianess hs then bs else rev bs)).
(** OpenMTP_machine.cpp:102-150: numbers in characters; a blank counts nothing.
    [digit w c] is the amount added for a digit of weight [w]. The two functions
    returning float are kept exactly, scaled by 10^5 and by 10 (the code rounds to
    float after each addition). The sums fit in the short used by the last two. *)
Definition digit (w c : Z) : Z := if negb (c =? 32) then (c - 48) * w else 0.
Fixpoint sum_digits (ws bs : list Z) : Z :=
  match ws, bs with
  | w :: ws', b :: bs' => digit w b + sum_digits ws' bs'
  | _, _ => 0
  end.
Definition chars (ws : list Z) (hdr : list Z) (off : nat) : outcome Z :=
  let! bs := bytes_at hdr off (List.length ws) in Ok (sum_digits ws bs).
Definition r4_from_char5 := chars [10000; 1000; 100; 10; 1].
Definition r4_from_char3 := chars [100; 10; 1].
Definition int4_from_char3 := chars [100; 10; 1].
Definition int4_from_char2 := chars [10; 1].

(** ** OpenMTP_binary_header.h:368-373, section lengths and the buffer. *)
Definition sec1_len : nat := Z.to_nat 5175.
Definition sec2_len : nat := Z.to_nat 2636.
Definition sec3_normal : nat := Z.to_nat 136704.
Definition sec3_viscmp : nat := Z.to_nat 185188.
Definition hdr_len : nat := Z.to_nat 192999.

(** OpenMTP_binary_header.cpp:191-194 is_rectified and 211-214
    is_visible_composite. *)
Definition is_rectified (hs : host) (h : list Z) : outcome bool := let! v := int4 hs h 36 in Ok (3 <? v).
Definition chan_is (hs : host) (h : list Z) (c : Z) : outcome bool := let! v := int4 hs h 40 in Ok (v =? c).
Definition is_visible_composite (hs : host) (h : list Z) : outcome bool := chan_is hs h 3.

(** OpenMTP_binary_header.cpp:43-98, read. *)
Definition read_header (hs : host) (s : stream) : outcome (list Z * stream) :=
  let '(b1, s) := sread s sec1_len in
  if failed s then Terminate else
  let! h := copy_to (repeat 0 hdr_len) 0 b1 in
  let! rect := is_rectified hs h in
  let! hs2 := (if rect then let s := sskip s sec2_len in if failed s then Terminate else Ok (h, s)
               else let '(b2, s) := sread s sec2_len in
                    if failed s then Terminate else let! h := copy_to h sec1_len b2 in Ok (h, s)) in
  let '(h, s) := hs2 in
  let! comp := is_visible_composite hs h in
  let '(b3, s) := sread s (if comp then sec3_viscmp else sec3_normal) in
  if failed s then Terminate else
  let! h := copy_to h (sec1_len + sec2_len) b3 in Ok (h, s).

(** OpenMTP_ascii_header.cpp:42-52, read. *)
Definition ascii_len : nat := Z.to_nat 1345.
Definition read_ascii (s : stream) : outcome (list Z * stream) :=
  let '(b, s) := sread s ascii_len in
  if failed s then Terminate else Ok (b, s).

(** OpenMTP_binary_header.cpp:328-343. *)
Definition first_line (hs : host) (h : list Z) := int4 hs h 123.
Definition nlines (hs : host) (h : list Z) := int4 hs h 131.
Definition npixels (hs : host) (h : list Z) := int4 hs h 135.

(** ** OpenMTP_image_line.cpp:42-52, read: the bytes got are stored into line[5032]
    (lines 60-62 of the header), whatever their number. *)
Definition read_line (s : stream) (np : Z) : outcome (list Z * stream) :=
  if int_ok (np + 32) then
    let '(b, s) := sreadz s (np + 32) in
    if (List.length b <=? Z.to_nat 5032)%nat then if failed s then Terminate else Ok (b, s) else UB
  else UB.

(** OpenMTP_image.cpp:54-58, the loop from line [i] on. memcpy takes its size as
    size_t: a negative one is out of any buffer. The pixels are those at
    line + 32. *)
Fixpoint read_lines (n : nat) (i : nat) (np : Z) (s : stream) (image : list Z) : outcome (list Z * stream) :=
  match n with
  | O => Ok (image, s)
  | S m =>
      let! ls := read_line s np in
      let '(l, s) := ls in
      if np <? 0 then UB else
      let! px := bytes_at l 32 (Z.to_nat np) in
      let! image := copy_to image (i * Z.to_nat np) px in
      read_lines m (S i) np s image
  end.

(** OpenMTP_image.cpp:44-58, read, up to the calibration (see OmtpCalModel). [old]
    is the image buffer of the object (null at construction), [fill] what new
    memory contains. A negative size makes new throw; running out of memory is not
    modelled. *)
Definition read_image (hs : host) (fill : Z) (h : list Z) (old : option (list Z)) (s : stream) : outcome (list Z * stream) :=
  let! nl := nlines hs h in
  let! np := npixels hs h in
  let! image := match old with
                | Some im => Ok im
                | None => if int_ok (nl * np) then if nl * np <? 0 then Throw else Ok (repeat fill (Z.to_nat (nl * np))) else UB
                end in
  read_lines (Z.to_nat nl) 0 np s image.

(** ** OpenMTP.cpp:53-59, read. *)
Record omtp := mk_omtp { o_ascii : list Z; o_header : list Z; o_image : option (list Z) }.
Definition read (hs : host) (fill : Z) (o : omtp) (f : list Z) : outcome (omtp * stream) :=
  let! a := read_ascii (mk_stream f false) in
  let '(a, s) := a in
  let! h := read_header hs s in
  let '(h, s) := h in
  let! im := read_image hs fill h (o_image o) s in
  let '(im, s) := im in
  Ok (mk_omtp a h (Some im), s).
(** A new object: the headers are not initialised, the image is null. *)
Definition fresh (a h : list Z) : omtp := mk_omtp a h None.

(** ** OpenMTP.cpp:110-137. Channels: OpenMTP_binary_header.cpp:203-243. *)
Definition is_ir_data (hs : host) (h : list Z) : outcome bool :=
  let! a := chan_is hs h 4 in let! b := chan_is hs h 5 in Ok (a || b).
Definition is_wv_data (hs : host) (h : list Z) : outcome bool :=
  let! a := chan_is hs h 6 in let! b := chan_is hs h 7 in Ok (a || b).
Definition is_vis_data (hs : host) (h : list Z) : outcome bool :=
  let! a := chan_is hs h 1 in let! b := chan_is hs h 2 in let! c := is_visible_composite hs h in Ok (a || b || c).
Definition is_A_format (hs : host) (h : list Z) : outcome bool :=
  let! ir := is_ir_data hs h in let! wv := is_wv_data hs h in let! vc := is_visible_composite hs h in
  let! nl := nlines hs h in let! np := npixels hs h in
  Ok (if (ir || wv) && ((nl =? 2500) && (np =? 2500)) then true
      else if vc && ((nl =? 5000) && (np =? 5000)) then true else false).
Definition is_B_format (hs : host) (h : list Z) : outcome bool :=
  let! ir := is_ir_data hs h in let! wv := is_wv_data hs h in let! vc := is_visible_composite hs h in
  let! nl := nlines hs h in let! np := npixels hs h in let! fl := first_line hs h in
  Ok (if (ir || wv) && ((nl =? 625) && (np =? 1250)) && (fl =? 1810) then true
      else if vc && ((nl =? 1250) && (np =? 2500)) && (fl =? 3620) then true else false).
Definition is_subwindow (hs : host) (h : list Z) : outcome bool :=
  let! a := is_A_format hs h in
  let! b := (if negb a then Ok true else let! b := is_B_format hs h in Ok (negb b)) in Ok b.

(** OpenMTP.cpp:61-76, get_datetime: year since 1900, month from 0, day, hour,
    minute. Division truncates; the only overflow possible is in the year. *)
Record tm := mk_tm { tm_year : Z; tm_mon : Z; tm_mday : Z; tm_hour : Z; tm_min : Z }.
Definition get_datetime (hs : host) (h : list Z) : outcome tm :=
  let! y := int4 hs h 8 in
  if negb (int_ok (y - 1900)) then UB else
  let! d := int4 hs h 24 in
  let d := d - Z.quot d 10000 * 10000 in
  let mon := Z.quot d 100 - 1 in
  let! t := int4 hs h 28 in
  let hour := Z.quot t 100 in
  Ok (mk_tm (y - 1900) mon (d - (mon + 1) * 100) hour (t - hour * 100)).
(** "%04d" of printf: the sign, then the digits filled with zeros to a width of
    four. *)
Fixpoint digits_of (fuel : nat) (v : Z) : list Z :=
  match fuel with
  | O => []
  | S n => if v <? 10 then [48 + v] else digits_of n (v / 10) ++ [48 + v mod 10]
  end.
Definition fmt04 (v : Z) : list Z :=
  if v <? 0 then let d := digits_of 10 (- v) in 45 :: repeat 48 (3 - List.length d) ++ d
  else let d := digits_of 10 v in repeat 48 (4 - List.length d) ++ d.
(** OpenMTP.cpp:97-108, get_timestr: snprintf keeps 13 characters and a NUL. *)
Definition get_timestr (hs : host) (h : list Z) : outcome (list Z) :=
  let! d := int4 hs h 24 in
  let! y := int4 hs h 8 in
  let! t := int4 hs h 28 in
  Ok (firstn 13 (fmt04 y ++ fmt04 (d - Z.quot d 10000 * 10000) ++ [95] ++ fmt04 t)).

(** OpenMTP.cpp:85-95, with satellite_name (OpenMTP_binary_header.cpp:108-114):
    two characters and a NUL, compared as C strings; 157-182, the channel; 184-189
    get_field_name: strncpy from the second of the eight characters of the field. *)
Definition c_string (b : list Z) : list Z := match upto_nul (b ++ [0]) with Some s => s | None => [] end.
Definition text_at (h : list Z) (off n : nat) : outcome (list Z) := let! b := bytes_at h off n in Ok (c_string b).
Definition str_eq (a b : list Z) : bool := if list_eq_dec Z.eq_dec a b then true else false.
Definition get_satellite_name (h : list Z) : outcome string :=
  let! n := text_at h 32 2 in
  if str_eq n (codes "M7") then Ok "METEOSAT 7" else if str_eq n (codes "M6") then Ok "METEOSAT 6" else Throw.
Definition get_chname (hs : host) (h : list Z) : outcome string :=
  let! v := is_vis_data hs h in
  if v then Ok "VIS" else
  let! i := is_ir_data hs h in
  if i then Ok "IR" else
  let! w := is_wv_data hs h in
  if w then Ok "WV" else Throw.
Definition get_chunit (hs : host) (h : list Z) : outcome string :=
  let! v := is_vis_data hs h in
  if v then Ok "%" else
  let! i := is_ir_data hs h in
  if i then Ok "K" else
  let! w := is_wv_data hs h in
  if w then Ok "K" else Throw.
Definition get_field_name (h : list Z) : outcome (list Z) := text_at h 1 7.

(** ** The accessors of OpenMTP_binary_header.cpp: name, kind of element, offset,
    elements read, size of the array returned (a static one: what is not written is
    zero). Booleans of urec_status_flags are kept as 0 or 1; of texts the bytes
    copied (a NUL follows). Lines 100-347, 376-389 and 398-809. *)
Inductive okind := OI2 | OI4 | OF4 | OF8 | OC | OB | OC5 | OC3 | OD3 | OD2.
Definition owidth (k : okind) : nat :=
  match k with OI2 => 2 | OI4 => 4 | OF4 => 4 | OF8 => 8 | OC => 1 | OB => 1 | OC5 => 5 | OC3 => 3 | OD3 => 3 | OD2 => 2 end.
Definition get_elem (hs : host) (h : list Z) (k : okind) (off : nat) : outcome Z :=
  match k with
  | OI2 => int2 hs h off
  | OI4 => int4 hs h off
  | OF4 => mbits 4 hs h off
  | OF8 => mbits 8 hs h off
  | OC => rd1 h off
  | OB => let! b := rd1 h off in Ok (if negb (b =? 0) then 1 else 0)
  | OC5 => r4_from_char5 h off
  | OC3 => r4_from_char3 h off
  | OD3 => int4_from_char3 h off
  | OD2 => int4_from_char2 h off
  end.
Fixpoint get_elems (hs : host) (h : list Z) (k : okind) (off n : nat) : outcome (list Z) :=
  match n with
  | O => Ok []
  | S m => let! v := get_elem hs h k off in let! vs := get_elems hs h k (off + owidth k) m in Ok (v :: vs)
  end.
Definition accessors : list (string * okind * Z * Z * Z) :=
  [("field_name", OC, 0, 8, 8); ("satellite_name", OC, 32, 2, 2); ("rectification_method_name", OC, 72, 15, 15);
   ("phenomena_index", OC, 115, 8, 8); ("year", OI4, 8, 1, 1); ("jday", OI4, 12, 1, 1); ("slot", OI4, 16, 1, 1);
   ("dtype", OI4, 20, 1, 1); ("date", OI4, 24, 1, 1); ("time", OI4, 28, 1, 1); ("proc", OI4, 36, 1, 1);
   ("chan", OI4, 40, 1, 1); ("mpef_calibration_coefficient", OC5, 44, 1, 1); ("mpef_calibration_space_count", OC3, 49, 1, 1);
   ("mpef_calibration_day", OD3, 52, 1, 1); ("mpef_calibration_slot", OD2, 55, 1, 1); ("header_2_record_size", OI4, 60, 1, 1);
   ("image_line_record_size", OI4, 64, 1, 1); ("offset_first_pixel_in_line", OI4, 68, 1, 1); ("deformation_model", OI4, 87, 1, 1);
   ("resampling_method", OI4, 91, 1, 1); ("subsatellite_point", OF4, 95, 1, 1); ("origin", OI4, 111, 1, 1);
   ("first_line", OI4, 123, 1, 1); ("first_pixel", OI4, 127, 1, 1); ("nlines", OI4, 131, 1, 1); ("npixels", OI4, 135, 1, 1);
   ("image_quality", OI4, 5155, 1, 1); ("missing_line_table", OC, 155, 2500, 2500); ("missing_line_table_VISn", OC, 2655, 2500, 2500);
   ("urect_nominal_end_time", OI4, 5175, 1, 1); ("urect_processing_performed", OI4, 5179, 1, 1); ("urect_special_output", OI4, 5183, 1, 1);
   ("urect_radiometer_refpos", OI4, 5187, 1, 1); ("urect_refpos_line_number", OI4, 5191, 1, 1); ("urect_scanning_law", OI2, 5195, 1, 1);
   ("urect_number_of_received_subimage", OI2, 5197, 1, 1); ("urect_first_line_in_subimage", OI2, 5199, 20, 20);
   ("urect_nlines_in_subimage", OI2, 5239, 20, 20); ("urect_curr_decoded_rad_pos_of_first_line_in_subimage", OI2, 5279, 20, 20);
   ("urect_raw_image_histogram", OI4, 5319, 20, 256); ("urect_raw_image_histogram_VISn", OI4, 6343, 20, 256);
   ("urec_start_image", OF8, 7367, 1, 1); ("urec_end_image", OF8, 7375, 1, 1);
   ("urec_orbit_coord_in_geoframe_start", OF8, 7383, 6, 6); ("urec_orbit_coord_in_geoframe_end", OF8, 7431, 6, 6);
   ("urec_cartesian_attitude_start", OF4, 7479, 4, 4); ("urec_cartesian_attitude_end", OF4, 7491, 4, 4);
   ("urec_horizon_information", OI2, 7503, 12, 12); ("urec_time_of_first_pixel", OF8, 7527, 1, 1);
   ("urec_status_flags", OB, 7559, 16, 16); ("urec_ir_channel_in_use", OI2, 7575, 1, 1); ("urec_radiometer_step_offset_start", OI2, 7577, 1, 1);
   ("urec_horizon_limit_information", OI2, 7579, 12, 12); ("urec_times_of_horizon_scan_lines", OF8, 7579, 2, 2);
   ("urec_radiometer_step_south", OI2, 7619, 1, 1); ("urec_radiometer_step_north", OI2, 7621, 1, 1); ("urec_rmid", OF4, 7623, 1, 1);
   ("urec_tmid", OF8, 7627, 1, 1); ("urec_distance_es", OF8, 7635, 1, 1); ("urec_cone_angle_beta_south_obs", OF8, 7643, 1, 1);
   ("urec_cone_angle_beta_north_obs", OF8, 7651, 1, 1); ("urec_cone_angle_beta_south_exp", OF8, 7659, 1, 1);
   ("urec_cone_angle_beta_north_exp", OF8, 7667, 1, 1); ("urec_etas", OF8, 7675, 1, 1); ("urec_etan", OF8, 7683, 1, 1);
   ("urec_betasn", OF8, 7691, 1, 1); ("urec_betann", OF8, 7699, 1, 1); ("urec_step_parameter_F0_old", OF8, 7707, 1, 1);
   ("urec_step_parameter_F1_old", OF8, 7715, 1, 1); ("urec_step_parameter_F0_new", OF8, 7723, 1, 1);
   ("urec_step_parameter_F1_new", OF8, 7731, 1, 1); ("urec_spin_deviation_fit_const", OF8, 7755, 1, 1);
   ("urec_spin_deviation_fit_linear", OF8, 7763, 1, 1); ("urec_spin_deviation_fit_quad", OF8, 7771, 1, 1);
   ("urec_standard_deviation_spin_fit", OF8, 7779, 1, 1); ("urec_maximum_deviation_spin_fit", OF8, 7787, 1, 1);
   ("ngridpoints_deformation_matrix", OI4, 7811, 1, 1); ("grid_deformation_start", OI4, 7815, 1, 1); ("grid_deformation_end", OI4, 7819, 1, 1);
   ("grid_deformation_step", OI4, 7823, 1, 1); ("deformation_matrix_x", OF4, 7827, 11025, 11025); ("deformation_matrix_y", OF4, 51927, 11025, 11025);
   ("number_corrected_channels", OI4, 96027, 1, 1); ("chid_first_corrected", OI4, 96031, 1, 1);
   ("line_geometric_correction_EW_1", OF4, 96035, 3030, 3030); ("line_geometric_correction_NS_1", OF4, 108155, 3030, 3030);
   ("line_radiometric_correction_offset_1", OF4, 120275, 3030, 3030); ("line_radiometric_correction_gain_1", OF4, 132395, 3030, 3030);
   ("chid_second_corrected", OI4, 144515, 1, 1); ("line_geometric_correction_EW_2", OF4, 144519, 3030, 3030);
   ("line_geometric_correction_NS_2", OF4, 156639, 3030, 3030); ("line_radiometric_correction_offset_2", OF4, 168759, 3030, 3030);
   ("line_radiometric_correction_gain_2", OF4, 180879, 3030, 3030)].
Definition find_accessor (name : string) : option (okind * Z * Z * Z) :=
  match find (fun e => String.eqb (fst (fst (fst (fst e)))) name) accessors with
  | Some (_, k, off, n, size) => Some (k, off, n, size)
  | None => None
  end.
Definition accessor (name : string) (hs : host) (h : list Z) : outcome (list Z) :=
  match find_accessor name with
  | Some (k, off, n, size) =>
      let! vs := get_elems hs h k (Z.to_nat off) (Z.to_nat n) in Ok (vs ++ repeat 0 (Z.to_nat (size - n)))
  | None => Throw
  end.
(** OpenMTP_binary_header.cpp:390-397, is_line_present and is_line_present_VISn;
    the index is an int. *)
Definition line_present (base : Z) (h : list Z) (i : Z) : outcome bool :=
  if base + i <? 0 then UB else let! b := rd1 h (Z.to_nat (base + i)) in Ok (0 <? b).
