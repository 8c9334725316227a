(** msat/hrit/MSG_data_ImageDescription.cpp and msat/hrit/MSG_data_GeometricQuality.cpp: a record
    of the level 1.5 header and one of the trailer, read and listed.

    As in ProdListModel, fields of one kind and arrays are lists in the order of the file, and a
    float is the number of its four bytes. Enumerations are numbers. *)
From Verif Require Import Base IniModel MachineModel GribModel CodeTextModel HeadListModel ProdListModel.
Open Scope string_scope.
Open Scope list_scope.
Open Scope Z_scope.

Section Real.
(** A float, printed. *)
Variable real : Z -> str.

(** MSG_data_ImageDescription.cpp:106-124 *)
Record grid := mk_grid { gr_size : list Z; gr_steps : list Z; gr_origin : Z }.
Definition read_grid (h : host) (b : list Z) (off : nat) : outcome grid :=
  let! n := read_i4s h b off 2 in let! s := read_ui4s h b (off + 8) 2 in let! o := rd1 b (off + 16) in Ok (mk_grid n s o).
Definition grid_text (g : grid) : str :=
  fields ["Number Of Lines     : "; "Number of Columns   : "] print_int (gr_size g) ++ fields ["Grid Step SSP line  : "; "Grid Step SSP col.  : "] real (gr_steps g) ++
  field "Grid Origin         : " (codes (text_of MSG_grid_origin (gr_origin g))).
(** MSG_data_ImageDescription.cpp:135-142 and 157-168 *)
Definition ir_plan_text (l : list Z) : str := fields ["Southern line Plan. : "; "Northern line Plan. : "; "Eastern col. Plan.  : "; "Western col. Plan.  : "] print_int l.
Definition hrv_plan_text (l : list Z) : str :=
  fields ["Low South line Plan.: "; "Low North line Plan.: "; "Low East col. Plan. : "; "Low West col. Plan. : ";
          "Up South line Plan. : "; "Up North line Plan. : "; "Up East col. Plan.  : "; "Up West col. Plan.  : "] print_int l.
(** MSG_data_ImageDescription.cpp:170-183 *)
Definition projection_text (p : Z * Z) : str := field "Type of Projection  : " (codes (text_of MSG_projection_type (fst p))) ++ field "SSP Longitude       : " (real (snd p)).
(** MSG_data_ImageDescription.cpp:185-207 *)
Record production := mk_production { pd_lines : Z; pd_columns : Z; pd_planned : list bool }.
Definition read_production (b : list Z) (off : nat) : outcome production :=
  let! l := rd1 b off in let! c := rd1 b (off + 1) in let! p := each (fun i => let! x := rd1 b (off + 2 + i)%nat in Ok (negb (x =? 0))) 0 12 in Ok (mk_production l c p).
Definition production_text (p : production) : str :=
  field "Image Processing Dir: " (codes (text_of MSG_direction_line (pd_lines p))) ++ field "Pixel Processing Dir: " (codes (text_of MSG_direction_column (pd_columns p))) ++
  flat_map (fun i => field "Channel " (zpad 2 (Z.of_nat i + 1) ++ codes " is plan. : " ++ (if nth i (pd_planned p) false then [49] else [48]))) (seq 0 12).
(** MSG_data_ImageDescription.cpp:219-230; the readers of the coverages are at 126-133 and
    144-155. *)
Record description := mk_description { ds_projection : Z * Z; ds_grid : grid; ds_hrv_grid : grid; ds_ir : list Z; ds_hrv : list Z; ds_production : production }.
Definition read_description (h : host) (b : list Z) : outcome description :=
  let! t := rd1 b 0 in let! lon := rd_ui h b 1 4 in let! g := read_grid h b 5 in let! g' := read_grid h b 22 in let! ir := read_i4s h b 39 4 in let! hrv := read_i4s h b 55 8 in
  let! p := read_production b 87 in Ok (mk_description (t, lon) g g' ir hrv p).
(** MSG_data_ImageDescription.cpp:232-245 *)
Definition description_text (d : description) : str :=
  title "-           MSG IMAGE DESCRIPTION RECORD             -" ++ projection_text (ds_projection d) ++
  field "VIS-IR REFERENCE GRID" [] ++ grid_text (ds_grid d) ++ field "HRV REFERENCE GRID" [] ++ grid_text (ds_hrv_grid d) ++
  field "VIS-IR PLANNED COVERAGE" [] ++ ir_plan_text (ds_ir d) ++ field "HRV PLANNED COVERAGE" [] ++ hrv_plan_text (ds_hrv d) ++ production_text (ds_production d).

(** MSG_data_GeometricQuality.cpp:58-74 and 97-111: a code and n floats. *)
Definition read_quality (h : host) (b : list Z) (off n : nat) : outcome (Z * list Z) := let! c := rd1 b off in let! l := read_ui4s h b (off + 1) n in Ok (c, l).
(** MSG_data_GeometricQuality.cpp:76-95 and 113-132 *)
Definition measured (names : list string) (q : Z * list Z) : str :=
  field "Quality Info Valid. : " (codes (text_of MSG_quality_info_validity (fst q))) ++ (if fst q =? 0 then [] else fields names real (snd q)).
Definition accuracy_text : Z * list Z -> str :=
  measured ["E/W Accuracy RMS    : "; "N/S Accuracy RMS    : "; "Magnitude RMS       : "; "E/W Uncert. RMS     : "; "N/S Uncert. RMS     : "; "Magnitude Unc. RMS  : ";
            "E/W Max Deviation   : "; "N/S Max Deviation   : "; "Magnitude Deviation : "; "E/W Uncert. Max     : "; "N/S Uncert. Max     : "; "Magnitude Unc. Max  : "].
Definition residuals_text : Z * list Z -> str :=
  measured ["E/W Residuals       : "; "N/S Residuals       : "; "E/W Uncertainty     : "; "N/S Uncertainty     : "; "E/W RMS             : "; "N/S RMS             : ";
            "E/W Magnitude       : "; "N/S Magnitude       : "; "E/W Magnitude Unce. : "; "N/S Magnitude Unce. : "].
(** MSG_data_GeometricQuality.cpp:145-156 *)
Definition status_text (l : list Z) : str :=
  fields ["Quality Nominal     : "; "Nominal Absolute    : "; "Nominal Rel. Prev.  : "; "Nominal Rel. 500    : "; "Nominal Rel. 16     : "; "Nominal Rel. Misreg : "] print l.
(** MSG_data_GeometricQuality.cpp:168-185; the reader of a status is at 134-143. *)
Record geometry := mk_geometry { ge_absolute : list (Z * list Z); ge_relative : list (Z * list Z); ge_500 : list (Z * list Z); ge_16 : list (Z * list Z); ge_residuals : list (Z * list Z); ge_status : list (list Z) }.
Definition read_geometry (h : host) (b : list Z) : outcome geometry :=
  let accuracies off := each (fun i => read_quality h b (off + i * 49)%nat 12) 0 12 in
  let! a := accuracies 0%nat in let! r := accuracies 588%nat in let! n := accuracies 1176%nat in let! m := accuracies 1764%nat in
  let! e := each (fun i => read_quality h b (2352 + i * 41)%nat 10) 0 12 in let! s := each (fun i => read_bytes b (2844 + i * 6)%nat 6) 0 12 in Ok (mk_geometry a r n m e s).
(** MSG_data_GeometricQuality.cpp:187-208 *)
Definition geometry_text (g : geometry) : str :=
  title "-         MSG IMAGE GEOMETRIC QUALITY RESULTS        -" ++
  flat_map (fun i => channel_line i ++
    field "ABSOLUTE ACCURACY" [] ++ accuracy_text (nth i (ge_absolute g) (0, [])) ++ field "RELATIVE ACCURACY" [] ++ accuracy_text (nth i (ge_relative g) (0, [])) ++
    field "N 500 PIXELS ACCURACY" [] ++ accuracy_text (nth i (ge_500 g) (0, [])) ++ field "N 16 PIXELS ACCURACY" [] ++ accuracy_text (nth i (ge_16 g) (0, [])) ++
    field "MISREGISTRATION RESIDUALS" [] ++ residuals_text (nth i (ge_residuals g) (0, [])) ++ field "GEOMETRIC QUALITY" [] ++ status_text (nth i (ge_status g) [])) (seq 0 12).
End Real.
