(** OpenMTP files, independently of the reader. *)
From Verif Require Import Base.
From Verif Require Import OmtpModel.
#[local] Open Scope string_scope.
#[local] Open Scope list_scope.
#[local] Open Scope Z_scope.

(** A four byte big endian two's complement number at [off]. *)
Definition word (b : list Z) (off : nat) : Z := to_signed 32 (be_val (firstn 4 (skipn off b))).

(** A file: text header, binary header in three sections, lines. *)
Record file := mk_file { f_ascii : list Z; f_sec1 : list Z; f_sec2 : list Z; f_sec3 : list Z; f_lines : list (list Z) }.
Definition f_chan (f : file) := word (f_sec1 f) 40.
Definition f_rectified (f : file) : bool := 3 <? word (f_sec1 f) 36.
Definition f_nlines (f : file) := word (f_sec1 f) 131.
Definition f_npixels (f : file) := word (f_sec1 f) 135.
Definition file_bytes (f : file) : list Z := f_ascii f ++ f_sec1 f ++ f_sec2 f ++ f_sec3 f ++ List.concat (f_lines f).
Definition headers_ok (f : file) : Prop :=
  Z.of_nat (List.length (f_ascii f)) = 1345 /\ Z.of_nat (List.length (f_sec1 f)) = 5175 /\ Z.of_nat (List.length (f_sec2 f)) = 2636 /\
  Z.of_nat (List.length (f_sec3 f)) = if f_chan f =? 3 then 185188 else 136704.
(** Each line: 32 bytes of line header, then the pixels. *)
Definition file_ok (f : file) : Prop :=
  headers_ok f /\ 0 <= f_nlines f /\ 0 <= f_npixels f <= 5000 /\ f_nlines f * f_npixels f < 2 ^ 31 /\
  Z.of_nat (List.length (f_lines f)) = f_nlines f /\ Forall (fun l => Z.of_nat (List.length l) = f_npixels f + 32) (f_lines f).

(** The binary header as documented by the names of the accessors: the fields
    follow each other without gaps other than the spare ones. *)
Definition layout : list (string * okind * Z) :=
  [("field_name", OC, 8); ("year", OI4, 1); ("jday", OI4, 1); ("slot", OI4, 1); ("dtype", OI4, 1); ("date", OI4, 1); ("time", OI4, 1);
   ("satellite_name", OC, 2); ("spare 1", OC, 2); ("proc", OI4, 1); ("chan", OI4, 1); ("mpef_calibration_coefficient", OC5, 1);
   ("mpef_calibration_space_count", OC3, 1); ("mpef_calibration_day", OD3, 1); ("mpef_calibration_slot", OD2, 1); ("spare 2", OC, 3);
   ("header_2_record_size", OI4, 1); ("image_line_record_size", OI4, 1); ("offset_first_pixel_in_line", OI4, 1); ("rectification_method_name", OC, 15);
   ("deformation_model", OI4, 1); ("resampling_method", OI4, 1); ("subsatellite_point", OF4, 1); ("spare 3", OC, 12); ("origin", OI4, 1);
   ("phenomena_index", OC, 8); ("first_line", OI4, 1); ("first_pixel", OI4, 1); ("nlines", OI4, 1); ("npixels", OI4, 1); ("spare 4", OC, 16);
   ("missing_line_table", OC, 2500); ("missing_line_table_VISn", OC, 2500); ("image_quality", OI4, 1); ("spare 5", OC, 16);
   (* second section *)
   ("urect_nominal_end_time", OI4, 1); ("urect_processing_performed", OI4, 1); ("urect_special_output", OI4, 1); ("urect_radiometer_refpos", OI4, 1);
   ("urect_refpos_line_number", OI4, 1); ("urect_scanning_law", OI2, 1); ("urect_number_of_received_subimage", OI2, 1); ("urect_first_line_in_subimage", OI2, 20);
   ("urect_nlines_in_subimage", OI2, 20); ("urect_curr_decoded_rad_pos_of_first_line_in_subimage", OI2, 20); ("urect_raw_image_histogram", OI4, 256);
   ("urect_raw_image_histogram_VISn", OI4, 256); ("urec_start_image", OF8, 1); ("urec_end_image", OF8, 1); ("urec_orbit_coord_in_geoframe_start", OF8, 6);
   ("urec_orbit_coord_in_geoframe_end", OF8, 6); ("urec_cartesian_attitude_start", OF4, 3); ("urec_cartesian_attitude_end", OF4, 3);
   ("urec_horizon_information", OI2, 12); ("urec_time_of_first_pixel", OF8, 1); ("spare 6", OC, 24); ("urec_status_flags", OB, 16);
   ("urec_ir_channel_in_use", OI2, 1); ("urec_radiometer_step_offset_start", OI2, 1); ("urec_horizon_limit_information", OI2, 12);
   ("urec_times_of_horizon_scan_lines", OF8, 2); ("urec_radiometer_step_south", OI2, 1); ("urec_radiometer_step_north", OI2, 1); ("urec_rmid", OF4, 1);
   ("urec_tmid", OF8, 1); ("urec_distance_es", OF8, 1); ("urec_cone_angle_beta_south_obs", OF8, 1); ("urec_cone_angle_beta_north_obs", OF8, 1);
   ("urec_cone_angle_beta_south_exp", OF8, 1); ("urec_cone_angle_beta_north_exp", OF8, 1); ("urec_etas", OF8, 1); ("urec_etan", OF8, 1);
   ("urec_betasn", OF8, 1); ("urec_betann", OF8, 1); ("urec_step_parameter_F0_old", OF8, 1); ("urec_step_parameter_F1_old", OF8, 1);
   ("urec_step_parameter_F0_new", OF8, 1); ("urec_step_parameter_F1_new", OF8, 1); ("spare 7", OC, 16); ("urec_spin_deviation_fit_const", OF8, 1);
   ("urec_spin_deviation_fit_linear", OF8, 1); ("urec_spin_deviation_fit_quad", OF8, 1); ("urec_standard_deviation_spin_fit", OF8, 1);
   ("urec_maximum_deviation_spin_fit", OF8, 1); ("spare 8", OC, 16);
   (* third section *)
   ("ngridpoints_deformation_matrix", OI4, 1); ("grid_deformation_start", OI4, 1); ("grid_deformation_end", OI4, 1); ("grid_deformation_step", OI4, 1);
   ("deformation_matrix_x", OF4, 11025); ("deformation_matrix_y", OF4, 11025); ("number_corrected_channels", OI4, 1); ("chid_first_corrected", OI4, 1);
   ("line_geometric_correction_EW_1", OF4, 3030); ("line_geometric_correction_NS_1", OF4, 3030); ("line_radiometric_correction_offset_1", OF4, 3030);
   ("line_radiometric_correction_gain_1", OF4, 3030);
   (* second channel of visible composites *)
   ("chid_second_corrected", OI4, 1); ("line_geometric_correction_EW_2", OF4, 3030); ("line_geometric_correction_NS_2", OF4, 3030);
   ("line_radiometric_correction_offset_2", OF4, 3030); ("line_radiometric_correction_gain_2", OF4, 3030)].
Definition field_size (k : okind) (n : Z) : Z :=
  n * match k with OI2 => 2 | OI4 => 4 | OF4 => 4 | OF8 => 8 | OC => 1 | OB => 1 | OC5 => 5 | OC3 => 3 | OD3 => 3 | OD2 => 2 end.
(** The bytes of the fields of a header, in order. *)
Definition packed (bss : list (list Z)) : Prop :=
  Forall2 (fun f bs => Z.of_nat (List.length bs) = field_size (snd (fst f)) (snd f)) layout bss.
(** The value of one element. Numbers in characters: the weight of each place times
    the digit, blanks being zeros. *)
Definition place (c w : Z) : Z := if c =? 32 then 0 else (c - 48) * w.
Definition elem (k : okind) (bs : list Z) : Z :=
  match k, bs with
  | OI2, _ => to_signed 16 (be_val bs)
  | OI4, _ => to_signed 32 (be_val bs)
  | OC5, [a; b; c; d; e] => place a 10000 + place b 1000 + place c 100 + place d 10 + place e 1
  | OC3, [a; b; c] => place a 100 + place b 10 + place c 1
  | OD3, [a; b; c] => place a 100 + place b 10 + place c 1
  | OD2, [a; b] => place a 10 + place b 1
  | OB, _ => if be_val bs =? 0 then 0 else 1
  | _, _ => be_val bs
  end.
(** The i-th element of a field. *)
Definition elem_at (k : okind) (bs : list Z) (i : nat) : Z :=
  let w := Z.to_nat (field_size k 1) in elem k (firstn w (skipn (w * i) bs)).
(** Accessors that do not return what the layout says. *)
Definition odd_accessors : list string :=
  ["urect_raw_image_histogram"; "urect_raw_image_histogram_VISn"; "urec_cartesian_attitude_start"; "urec_cartesian_attitude_end"; "urec_times_of_horizon_scan_lines"].

(** Dates: yyyymmdd or yymmdd numbers, hhmm times, and their text. *)
Definition digit_char (v : Z) : Z := 48 + v.
Definition four_digits (v : Z) : list Z := map digit_char [v / 1000; v / 100 mod 10; v / 10 mod 10; v mod 10].
(** A number right aligned on [n] characters. *)
Fixpoint aligned (fillc : Z) (n : nat) (v : Z) : list Z :=
  match n with
  | O => []
  | S m => if v <? 10 then repeat fillc m ++ [digit_char v] else aligned fillc m (v / 10) ++ [digit_char (v mod 10)]
  end.
