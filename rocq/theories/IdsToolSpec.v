(** What the tools for OpenMTP-IDS files should do. *)
From Verif Require Import Base IniSpec Db1Spec IdsModel.
Open Scope string_scope.
Open Scope list_scope.
Open Scope Z_scope.

(** The lines of a file and those of a channel, in order. *)
Definition image_lines (x : ids) : list scan_line := List.concat (map rc_lines (id_records x)).
Definition channel_lines (channel : Z) (x : ids) : list scan_line := filter (fun l => lh_channel_id (sl_header l) =? channel) (image_lines x).
(** A binary PGM file of 8 bit samples, and its rows. *)
Definition pgm_image (b : list Z) (rows : list (list Z)) : Prop :=
  exists width tw th, rows <> [] /\ (0 < width)%nat /\ Forall (fun r => List.length r = width) rows /\
    plain_number tw (Z.of_nat width) /\ plain_number th (Z.of_nat (List.length rows)) /\
    b = codes "P5" ++ [10] ++ tw ++ [32] ++ th ++ [10] ++ codes "255" ++ [10] ++ List.concat rows.
(** Rows that make an image. *)
Definition rectangular (rows : list (list Z)) : Prop :=
  rows <> [] /\ exists width, (0 < width)%nat /\ Forall (fun r => List.length r = width) rows.
(** Channel identifiers of OpenMTP-IDS: visible, infrared, water vapour; 0 is none. *)
Definition vis_ids : list Z := [1; 2; 3; 8; 9; 10; 11; 12].
Definition ir_ids : list Z := [4; 5].
Definition wv_ids : list Z := [6; 7].

(** The sector: lines 2655 to 3164 and pixels 546 to 801, counted from 0. *)
Definition sector_lines (x : ids) : list scan_line := firstn 510 (skipn (Z.to_nat 2655) (image_lines x)).
Definition sector_pixels (l : scan_line) : list Z := firstn 256 (skipn 546 (sl_pixels l)).
(** What a line says besides its size and position. *)
Definition identity (l : scan_line) : Z * Z * Z * Z * Z :=
  let h := sl_header l in (lh_line h, lh_channel_id h, lh_quality h, lh_pad0 h, lh_pad1 h).
(** What a file header says besides the sizes. *)
Definition header_facts (h : file_header) : list (list Z) :=
  [fh_fortran h; fh_satellite h;
   [fh_year h; fh_julian_day h; fh_hour h; fh_minute h; fh_process_year h; fh_process_julian_day h; fh_process_hour h; fh_process_minute h];
   [fh_no_channels h; fh_vis_id h; fh_wv_id h; fh_ir_id h; fh_satellite_id h];
   [fh_no_vis_average h; fh_no_wv_average h; fh_no_ir_average h; fh_averaging_type h; fh_sample_interval h];
   [fh_ir_calibration h; fh_wv_calibration h; fh_fine_adjustment h; fh_ir_space_count h; fh_wv_space_count h]].
