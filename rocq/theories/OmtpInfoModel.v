(** tools/openmtp/OpenMTP_info.cc and the operators << of msat/openmtp: the listing of an
    OpenMTP file.

    Not modelled: what is written to standard error, and the release of the image with
    the wrong operator delete (OpenMTP_image.cpp:42). *)
From Coq Require Import Reals.
From Verif Require Import Base IniModel MachineModel HriModel OmtpModel CalibModel GribModel.
Open Scope string_scope.
Open Scope list_scope.
Open Scope Z_scope.

(** How the start of a line is made: a name and tabs; with a number counted from 0; with
    a row and a column, counted from 1, of rows of [cols]; either of two names. *)
Inductive label := LOne (name : string) (tabs : nat) | LIdx (name : string) (tabs : nat) | LMat (name : string) (cols : Z) | LTwo (a b : string).
Definition label_text (l : label) (i : nat) : str :=
  match l with
  | LOne s t => codes s ++ repeat 9 t
  | LIdx s t => codes s ++ [32] ++ print (Z.of_nat i) ++ repeat 9 t
  | LMat s c => codes s ++ codes " (" ++ print (Z.of_nat i / c + 1) ++ [44] ++ print (Z.of_nat i mod c + 1) ++ [41; 9]
  | LTwo a b => codes (match i with O => a | _ => b end) ++ [9]
  end.
(** Lines of one accessor: their start, the accessor, their number and their end. *)
Record entry := mk_entry { e_label : label; e_acc : string; e_count : Z; e_end : list Z }.
Definition one (s : string) (tabs : nat) (acc : string) : entry := mk_entry (LOne s tabs) acc 1 [10].
Definition idx (s : string) (tabs : nat) (acc : string) (n : Z) : entry := mk_entry (LIdx s tabs) acc n [10].
Definition mat (s : string) (cols : Z) (acc : string) (n : Z) : entry := mk_entry (LMat s cols) acc n [10].

(** OpenMTP_binary_header.h:206-235. *)
Definition first_entries : list entry :=
  [one "Product Type" 1 "field_name"; one "Year" 2 "year"; one "Jday" 2 "jday"; one "Slot" 2 "slot"; one "Dtype" 2 "dtype"; one "Date" 2 "date";
   one "Time" 2 "time"; one "Satellite Name" 1 "satellite_name"; one "Proc" 2 "proc"; one "CalC0" 2 "mpef_calibration_coefficient";
   one "Space" 2 "mpef_calibration_space_count"; mk_entry (LOne "Calctim" 2) "" 1 (codes "Day ");
   mk_entry (LOne "" 0) "mpef_calibration_day" 1 []; mk_entry (LOne " Slot " 0) "mpef_calibration_slot" 1 [10];
   one "Rec2siz" 2 "header_2_record_size"; one "Lrecsize" 1 "image_line_record_size"; one "Loffset" 2 "offset_first_pixel_in_line";
   one "Rtmet" 2 "rectification_method_name"; one "Dmmod" 2 "deformation_model"; one "Rsmet" 2 "resampling_method"; one "Ssp" 2 "subsatellite_point";
   one "Origin" 2 "origin"; one "Idx" 2 "phenomena_index"; one "Line1" 2 "first_line"; one "Pixel1" 2 "first_pixel"; one "Nlines" 2 "nlines";
   one "Npixels" 2 "npixels"; one "Mlt1" 2 "missing_line_table"; one "Mlt2" 2 "missing_line_table_VISn"; one "Imgqua" 2 "image_quality"].
(** 236-322, images that are not rectified. *)
Definition second_entries : list entry :=
  [one "Int" 2 "urect_nominal_end_time"; one "Imp" 2 "urect_processing_performed"; one "Spr" 2 "urect_special_output"; one "Rpr" 2 "urect_radiometer_refpos";
   one "Lre" 2 "urect_refpos_line_number"; one "Lb0" 2 "urect_scanning_law"; one "Nsi" 2 "urect_number_of_received_subimage";
   idx "Fls" 2 "urect_first_line_in_subimage" 20; idx "Nsl" 2 "urect_nlines_in_subimage" 20; idx "Rdpsim" 2 "urect_curr_decoded_rad_pos_of_first_line_in_subimage" 20;
   idx "Hist1" 2 "urect_raw_image_histogram" 256; idx "Hist2" 2 "urect_raw_image_histogram_VISn" 256; one "Timef" 2 "urec_start_image"; one "Timel" 2 "urec_end_image";
   idx "Orbf" 2 "urec_orbit_coord_in_geoframe_start" 6; idx "Orbl" 2 "urec_orbit_coord_in_geoframe_end" 6; idx "Attf" 2 "urec_cartesian_attitude_start" 4;
   idx "Attl" 2 "urec_cartesian_attitude_end" 4; mat "Earco" 3 "urec_horizon_information" 12; one "Htime" 2 "urec_time_of_first_pixel"; idx "Status" 1 "urec_status_flags" 16;
   one "Irchan" 2 "urec_ir_channel_in_use"; one "Lstart" 2 "urec_radiometer_step_offset_start"; mat "Horlim" 3 "urec_horizon_limit_information" 12;
   mk_entry (LTwo "Hortim South" "Hortim North") "urec_times_of_horizon_scan_lines" 2 [10]; one "Ls" 2 "urec_radiometer_step_south"; one "Ln" 2 "urec_radiometer_step_north";
   one "Rmid" 2 "urec_rmid"; one "Tmid" 2 "urec_tmid"; one "Distan" 2 "urec_distance_es"; one "Betaso" 2 "urec_cone_angle_beta_south_obs"; one "Betano" 2 "urec_cone_angle_beta_north_obs";
   one "Betase" 2 "urec_cone_angle_beta_south_exp"; one "Betane" 2 "urec_cone_angle_beta_north_exp"; one "Etas" 2 "urec_etas"; one "Etan" 2 "urec_etan";
   one "Betasn" 2 "urec_betasn"; one "Betann" 2 "urec_betann"; one "F0old" 2 "urec_step_parameter_F0_old"; one "F1old" 2 "urec_step_parameter_F1_old";
   one "F0new" 2 "urec_step_parameter_F0_new"; one "F1new" 2 "urec_step_parameter_F1_new"; one "S0" 2 "urec_spin_deviation_fit_const"; one "S1" 2 "urec_spin_deviation_fit_linear";
   one "S2" 2 "urec_spin_deviation_fit_quad"; one "Sigmas" 2 "urec_standard_deviation_spin_fit"].
(** 323-350. *)
Definition third_entries : list entry :=
  [one "Ndgrp" 2 "ngridpoints_deformation_matrix"; one "Dmstrt" 2 "grid_deformation_start"; one "Dmend" 2 "grid_deformation_end"; one "Dmstep" 2 "grid_deformation_step";
   mat "Defmax" 105 "deformation_matrix_x" 11025; mat "Defmay" 105 "deformation_matrix_y" 11025; one "Ncor" 2 "number_corrected_channels"; one "Chid1" 2 "chid_first_corrected";
   idx "Ewgeo1" 1 "line_geometric_correction_EW_1" 3030; idx "Nsgeo1" 1 "line_geometric_correction_NS_1" 3030; idx "Roff1" 1 "line_radiometric_correction_offset_1" 3030;
   idx "Rgain1" 1 "line_radiometric_correction_gain_1" 3030].
(** 351-366, visible composites. *)
Definition fourth_entries : list entry :=
  [one "Chid2" 2 "chid_second_corrected"; idx "Ewgeo2" 1 "line_geometric_correction_EW_2" 3030; idx "Nsgeo2" 1 "line_geometric_correction_NS_2" 3030;
   idx "Roff2" 1 "line_radiometric_correction_offset_2" 3030; idx "Rgain2" 1 "line_radiometric_correction_gain_2" 3030].

Section Info.
(** How numbers with fractions are printed: those of the header by their kind and bits (or
    digits), calibrated values. *)
Variable num : okind -> Z -> str.
Variable show : xr -> str.
Definition int_text (v : Z) : str := if v <? 0 then 45 :: print (- v) else print v.
(** The text of element [i] of what an accessor returns; characters are printed as a C
    string. *)
Definition value_text (k : okind) (vs : list Z) (i : nat) : str :=
  match k with
  | OC => c_string vs
  | OI2 | OI4 | OB | OD3 | OD2 => int_text (nth i vs 0)
  | OF4 | OF8 | OC5 | OC3 => num k (nth i vs 0)
  end.
Definition kind_of (name : string) : okind := match find_accessor name with Some (k, _, _, _) => k | None => OC end.
(** An entry without accessor is only its texts. *)
Definition entry_text (hs : host) (h : list Z) (e : entry) : outcome str :=
  let! vs := (if String.eqb (e_acc e) "" then Ok [] else accessor (e_acc e) hs h) in
  Ok (flat_map (fun i => label_text (e_label e) i ++ value_text (kind_of (e_acc e)) vs i ++ e_end e) (seq 0 (Z.to_nat (e_count e)))).
Fixpoint entries_text (hs : host) (h : list Z) (l : list entry) : outcome str :=
  match l with
  | [] => Ok []
  | e :: l' => let! a := entry_text hs h e in let! b := entries_text hs h l' in Ok (a ++ b)
  end.
Definition header_text (hs : host) (h : list Z) : outcome str :=
  let! rect := is_rectified hs h in
  let! comp := is_visible_composite hs h in
  entries_text hs h (first_entries ++ (if rect : bool then [] else second_entries) ++ third_entries ++ (if comp : bool then fourth_entries else [])).
(** OpenMTP_image.h:52-60. *)
Definition pixel_text (table : Z -> xr) (im : list Z) (np : Z) (j i : nat) : str :=
  codes "Pixel (" ++ print (Z.of_nat j) ++ [44] ++ print (Z.of_nat i) ++ [41; 9] ++ show (table (nth (j * Z.to_nat np + i) im 0)) ++ [10].
Definition image_text (table : Z -> xr) (im : list Z) (nl np : Z) : str :=
  flat_map (fun j => flat_map (pixel_text table im np j) (seq 0 (Z.to_nat np))) (seq 0 (Z.to_nat nl)).
(** OpenMTP_image.cpp:63-74, what read prints. *)
Definition read_text (h : list Z) : outcome str :=
  let! n := text_at h 32 2 in
  if negb (str_eq n (codes "M7")) then Ok []
  else
    let! c := OmtpModel.r4_from_char5 h 44 in
    let! s := OmtpModel.r4_from_char3 h 49 in
    Ok (codes "Calibration Coefficient : " ++ num OC5 c ++ [10] ++ codes "Space Count             : " ++ num OC3 s ++ [10]).
(** OpenMTP_info.cc:36-43 with OpenMTP.h:76-83 and OpenMTP_ascii_header.h:46-51. *)
Definition info (neg : bool) (hs : host) (fill : Z) (a h : list Z) (bytes : list Z) : outcome str :=
  let! (o, _) := read hs fill (fresh a h) bytes in
  let! table := omtp_calibration neg hs (o_header o) in
  let! pre := read_text (o_header o) in
  let! t := header_text hs (o_header o) in
  let! nl := nlines hs (o_header o) in
  let! np := npixels hs (o_header o) in
  match o_image o with
  | None => UB
  | Some im => Ok (pre ++ c_string (o_ascii o) ++ t ++ image_text table im nl np)
  end.
(** main, OpenMTP_info.cc:47-71. A file that cannot be opened: OpenMTP.cpp:42-51 throws
    again an exception that there is none of. *)
Definition info_main (neg : bool) (hs : host) (fill : Z) (a h : list Z) (prog base version : str) (arg : option str) (content : str -> option (list Z)) : outcome (Z * str) :=
  match arg with
  | None => Ok (1, codes "Usage : " ++ base ++ codes " OpenMTP_filename" ++ [10])
  | Some f =>
      if str_eqb f (codes "-V") then Ok (0, prog ++ codes " " ++ version ++ [10])
      else match content f with
           | None => Terminate
           | Some c => let! t := info neg hs fill a h c in Ok (0, t)
           end
  end.
End Info.
