(** tools/omtp-ids/OpenMTP-IDS_debug.cc and the debug functions of msat/omtp-ids: the
    listing of an OpenMTP-IDS file. char is signed. *)
From Verif Require Import Base IniModel GribModel IdsModel.
Open Scope string_scope.
Open Scope list_scope.
Open Scope Z_scope.

(** One line with a number, without its end; all of them start with a line break. *)
Definition item (p : string * Z) : str := [10] ++ codes "  " ++ codes (fst p) ++ codes " : " ++ print (snd p).
Definition items (l : list (string * Z)) : str := flat_map item l.
(** static_cast<int> of a char *)
Definition char_text (c : Z) : str := if c <? 128 then print c else 45 :: print (256 - c).
Definition fortran_text (f : list Z) : str := [10] ++ codes "  fortran bytes        : " ++ [34] ++ flat_map char_text f ++ [34].
(** FileHeader::debug, FileHeader.cc:190-240 *)
Definition file_header_text (h : file_header) : str :=
  codes "FileHeader :" ++ fortran_text (fh_fortran h) ++
  items [("number of records   ", fh_no_records h); ("year                ", fh_year h); ("julian_day          ", fh_julian_day h);
         ("hour                ", fh_hour h); ("minute              ", fh_minute h);
         ("process year        ", fh_process_year h); ("process julian_day  ", fh_process_julian_day h);
         ("process hour        ", fh_process_hour h); ("process minute      ", fh_process_minute h);
         ("number of channels  ", fh_no_channels h); ("vis channel id      ", fh_vis_id h);
         ("wv channel id       ", fh_wv_id h); ("ir channel id       ", fh_ir_id h)] ++
  [10] ++ codes "  satellite            : " ++ [34] ++ fh_satellite h ++ [34] ++
  items [("satellite id        ", fh_satellite_id h); ("record length       ", fh_record_length h);
         ("vis no average      ", fh_no_vis_average h); ("ir no average       ", fh_no_ir_average h);
         ("wv no average       ", fh_no_wv_average h); ("averaging type      ", fh_averaging_type h);
         ("sample interval     ", fh_sample_interval h); ("ir calibration      ", fh_ir_calibration h);
         ("wv calibration      ", fh_wv_calibration h); ("fine adjustment     ", fh_fine_adjustment h);
         ("ir space count      ", fh_ir_space_count h); ("wv space count      ", fh_wv_space_count h)] ++ [10].
(** LineHeader::debug, LineHeader.cc:101-122 *)
Definition line_header_text (h : line_header) : str :=
  codes "LineHeader :" ++
  items [("length              ", lh_length h); ("line                ", lh_line h); ("start               ", lh_start h);
         ("no_pixels           ", lh_no_pixels h); ("channel_id          ", lh_channel_id h); ("quality             ", lh_quality h)] ++
  [10] ++ codes "  pad                  : " ++ print (lh_pad0 h) ++ codes ", " ++ print (lh_pad1 h) ++ [10].
(** RecordHeader::debug, RecordHeader.cc:87-104 *)
Definition record_header_text (h : record_header) : str :=
  codes "RecordHeader :" ++ fortran_text (rh_fortran h) ++
  items [("record header length", rh_record_header_length h); ("number of scanlines ", rh_no_scanlines h);
         ("record length       ", rh_record_length h); ("zero                ", rh_zero h)] ++ [10].
(** ScanLine::debug, ScanLine.cc:104-112 *)
Definition scan_line_text (l : scan_line) : str :=
  codes "ScanLine :" ++ items [("number of linepixels", Z.of_nat (List.length (sl_pixels l)))] ++ [10] ++ line_header_text (sl_header l).
(** Record::debug, Record.cc:86-98 *)
Definition record_text (r : record) : str :=
  codes "-- Record --" ++ [10] ++ record_header_text (rc_header r) ++ flat_map scan_line_text (rc_lines r).
(** OpenMTP_IDS::debug, OpenMTP-IDS.cc:148-161 *)
Definition ids_text (x : ids) : str :=
  codes "-- * OpenMTP-IDS * --" ++ [10] ++ file_header_text (id_header x) ++ flat_map record_text (id_records x).
(** main, OpenMTP-IDS_debug.cc:43-68: the exit status and standard output. [why] is the
    text thrown while reading. That for a file that cannot be opened (OpenMTP-IDS.cc:99-106)
    is destroyed before it is printed. *)
Definition debug_main (prog version : str) (why : list Z -> str) (arg : option str) (content : str -> option (list Z)) : outcome (Z * str) :=
  match arg with
  | None => Ok (1, codes "Usage : " ++ prog ++ codes " OpenMTP_filename" ++ [10])
  | Some a =>
      if str_eqb a (codes "-V") then Ok (0, prog ++ codes " " ++ version ++ [10])
      else match content a with
           | None => UB
           | Some c =>
               match read_file c with
               | Throw => Ok (1, prog ++ codes ": " ++ why c ++ [10])
               | m => let! x := m in Ok (0, ids_text x)
               end
           end
  end.
