(** msat/hrit/MSG_header.cpp:227-247, msat/hrit/MSG_header_*.cpp and
    msat/hrit/MSG_time_cds.cpp:128-135, the operators << that list the header of an HRIT or
    LRIT file.

    The name of the specification after the text of an unknown file type is a literal of
    msat/hrit/MSG_hrit_specdoc.h:33. *)
From Verif Require Import Base IniModel MachineModel HeaderModel GribModel CodeTextModel MsgModel ConvModel.
Open Scope string_scope.
Open Scope list_scope.
Open Scope Z_scope.

(** A number of 64 bits, which may have twenty digits; the others have fewer. *)
Definition print64 (z : Z) : str := if z <? 10 then [48 + z] else print (z / 10) ++ [48 + z mod 10].
(** An int. *)
Definition print_int (z : Z) : str := if z <? 0 then 45 :: print (- z) else print z.
(** Lines. *)
Definition dashes : str := repeat 45 54.
Definition rule : str := dashes ++ [10].
Definition title (t : string) : str := rule ++ codes t ++ [10] ++ rule.
Definition field (name : string) (v : str) : str := codes name ++ v ++ [10].
(** A code and its text in parentheses. *)
Definition coded (c : Z) (t : str) : str := print c ++ [32; 40] ++ t ++ [41].

(** MSG_filetype.cpp:33-68 *)
Definition filetype_text (c : Z) : str :=
  codes (text_of MSG_filetype c) ++ (if existsb (fun p => c =? fst p) (tb_cases MSG_filetype) then [] else codes "CGMS-03 LRIT-HRIT Global Specification, V. 2.6 19 Aug 1999").
(** MSG_header_image_struct.cpp:55-67 *)
Definition struct_text (i : img_struct) : str :=
  field "Bits per pixel      : " (print (is_bpp i)) ++ field "Number of Columns   : " (print (is_cols i)) ++ field "Number of Lines     : " (print (is_lines i)) ++
  field "Compression Flag    : " (coded (is_comp i) (codes (text_of MSG_image_compression (is_comp i)))).
(** MSG_time_cds.cpp:128-135 *)
Definition cds_text (t : cds_short) : str :=
  field "Day from epoch      : " (print (cds_day t) ++ codes " (epoch is 1958-01-01)") ++ field "Msecs in day        : " (print (cds_msec t)) ++ field "Actual date         : " (timestring t).
(** MSG_header_annotation.cpp:62-76 *)
Definition annot_text (a : annot) : str :=
  field "XRIT channel ID     : " (an_chan a) ++ field "Annotation Version  : " (an_version a) ++ field "Disseminating S/C   : " (an_sc a) ++ field "Product ID 1        : " (an_pid1 a) ++
  field "Product ID 2        : " (an_pid2 a) ++ field "Product ID 3        : " (an_pid3 a) ++ field "Product ID 4        : " (an_pid4 a) ++ field "Flags               : " (an_flags a).
(** MSG_header_key.cpp:65-73 *)
Definition key_text (k : Z * Z) : str := field "Key number          : " (print (fst k)) ++ field "Seed                : " (print64 (snd k)).
(** MSG_header_segment_id.cpp:57-75 *)
Definition segment_text (s : seg_id) : str :=
  field "Spacecraft ID       : " (coded (si_spacecraft s) (MSG_spacecraft_name (si_spacecraft s))) ++
  field "Data channel ID     : " (coded (si_channel s) (MSG_channel_name (si_spacecraft s) (si_channel s))) ++
  field "Segment seq No      : " (print (si_seq s)) ++ field "Planned seq start   : " (print (si_first s)) ++ field "Planned seq end     : " (print (si_last s)) ++
  field "Data format         : " (coded (si_format s) (codes (text_of MSG_data_format (si_format s)))).
(** MSG_header_segment_quality.cpp:113-124 *)
Definition line_q_text (q : line_q) : str :=
  field "Line Number         : " (print_int (lq_line q)) ++ cds_text (lq_time q) ++
  field "Line validity       : " (coded (lq_validity q) (codes (text_of MSG_segment_validity (lq_validity q)))) ++
  field "Line radiometric ql : " (coded (lq_radio q) (codes (text_of MSG_segment_radiometric_quality (lq_radio q)))) ++
  field "Line geometric ql   : " (coded (lq_geo q) (codes (text_of MSG_segment_geometric_quality (lq_geo q)))).
(** MSG_header_segment_quality.cpp:70-84 *)
Definition stars : str := repeat 42 11 ++ [10].
Definition told (q : line_q) : bool := (0 <? lq_line q) && ((1 <? lq_validity q) || (2 <? lq_radio q) || (2 <? lq_geo q)).
Definition quality_text (l : list line_q) : str :=
  field "Total number of Lines: " (print (Z.of_nat (List.length l))) ++ flat_map (fun q => if told q then stars ++ line_q_text q else []) l ++ stars.
(** An optional record. *)
Definition opt {A} (t : string) (f : A -> str) (x : option A) : str := match x with Some a => title t ++ f a | None => [] end.

Section Listing.
(** A float that sscanf read from a text, printed; [None]: it was never set. *)
Variable num : option (list Z) -> str.
(** MSG_header_image_navig.cpp:87-122. There is no record of the POLAR projection, which
    cannot be read. *)
Definition navig_text (n : navig) : str :=
  field "Projection Name     : " (nv_pname n) ++ (if str_eqb (nv_pname n) (codes "GEOS") then field "Subsatellite Lat.   : " (num (nv_lon n)) else []) ++
  field "Column scale factor : " (print_int (nv_cfac n)) ++ field "Line scale factor   : " (print_int (nv_lfac n)) ++ field "Column offset       : " (print_int (nv_coff n)) ++
  field "Line Offset         : " (print_int (nv_loff n)).
(** MSG_header.cpp:227-247. The ancillary text is an array of as many characters as the
    record has, listed as a C string (MSG_header_ancillary_text.cpp:63-79). *)
Definition listing (h : header) : outcome str :=
  let! anc := match h_anc h with None => Ok None | Some a => match upto_nul a with Some s => Ok (Some s) | None => UB end end in
  Ok (title "-                  MSG PRIMARY HEADER                -" ++
      field "File Typecode       : " (coded (h_typecode h) (filetype_text (h_typecode h))) ++ field "Total Header Length : " (print (h_total h)) ++ field "Data Length (bits)  : " (print64 (h_dfl h)) ++
      opt "-             MSG IMAGE STRUCTURE HEADER             -" struct_text (h_image h) ++
      opt "-            MSG IMAGE NAVIGATION HEADER             -" navig_text (h_navig h) ++
      opt "-            MSG IMAGE DATA FUNCTION HEADER          -" (field "") (h_datafunc h) ++
      opt "-            MSG IMAGE ANNOTATION HEADER             -" annot_text (h_annot h) ++
      opt "-                MSG TIMESTAMP HEADER                -" cds_text (h_time h) ++
      opt "-              MSG ANCILLARY TEXT HEADER             -" (field "") anc ++
      opt "-                    MSG KEY HEADER                  -" key_text (h_key h) ++
      opt "-              MSG HEADER SEGMENT ID                 -" segment_text (h_seg h) ++
      opt "-            MSG HEADER SEGMENT QUALITY              -" quality_text (h_quality h) ++ rule).
End Listing.
