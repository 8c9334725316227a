(** Opening an HRIT or LRIT product and reading its pixels:
    msat/xrit/dataaccess.cpp:45-151 (reading files, scan), gdal/xrit/dataset.cpp:16-109
    and gdal/xrit/rasterband.cpp:22-103.

    Input is the contents of the files that FileAccess named (FileAccessModel.v).
    Simplified: SetMetadataItem never fails; identifiers are numbers, not their
    texts; the sub-satellite longitude is the text that the header has (see
    GeoModel.v for the projection made of it); numbers that are not finite are
    [None] in the transform and count as 0 in the calibration; products of doubles
    do not round (the ones of the transform are exact, a float has 24 bits);
    decompression is a parameter. *)
From Coq Require Import Reals.
From Verif Require Import Base IniModel MachineModel HeaderModel LayoutModel MsgModel GribModel DataAccessModel FactsModel.
From Verif Require CalibModel.
Open Scope string_scope.
Open Scope list_scope.
Open Scope Z_scope.

(** ** Fields of a prologue or epilogue *)
Definition seg_eqb (a b : seg) : bool :=
  match a, b with
  | N s, N s' => String.eqb s s'
  | I i, I i' => i =? i'
  | _, _ => false
  end.
Fixpoint path_eqb (p q : path) : bool :=
  match p, q with
  | [], [] => true
  | a :: p', b :: q' => seg_eqb a b && path_eqb p' q'
  | _, _ => false
  end.
(** The bytes a member was set from. *)
Fixpoint field (vs : list (path * list Z)) (p : path) : outcome (list Z) :=
  match vs with
  | [] => UB
  | (q, v) :: vs' => if path_eqb q p then Ok v else field vs' p
  end.

(** ** Numbers of the floating point unit *)
(** A float ([eb] = 8, [mb] = 23) or double ([eb] = 11, [mb] = 52) with the bits of
    [n]; [None] for infinities and NaN. *)
Definition float_value (eb mb n : Z) : option R :=
  let m := n mod 2 ^ mb in
  let e := n / 2 ^ mb mod 2 ^ eb in
  let s := n / 2 ^ (eb + mb) in
  let bias := 2 ^ (eb - 1) - 1 in
  let sign := if s =? 0 then 1%R else (-1)%R in
  if e =? 2 ^ eb - 1 then None
  else if e =? 0 then Some (sign * IZR m * powerRZ 2 (1 - bias - mb))%R
  else Some (sign * IZR (2 ^ mb + m) * powerRZ 2 (e - bias - mb))%R.
(** MSG_machine.cpp get_r4 and get_r8 *)
Definition get_r4 (h : host) (b : list Z) : outcome (option R) := let! n := rd_ui h b 0 4 in Ok (float_value 8 23 n).
Definition get_r8 (h : host) (b : list Z) : outcome (option R) := let! n := rd_ui h b 0 8 in Ok (float_value 11 52 n).

Section Open.
Variable h : host.
Variable dec : decoding.
Variable can_open : str -> bool.

(** ** Reading files *)
(** dataaccess.cpp:54-65 with a fresh header and data field; [None] cannot be
    opened. *)
Definition read_file (b : option (list Z)) : outcome mdata :=
  match b with
  | None => Throw
  | Some b =>
      let! r := read_header h empty_header b in
      let '(hd, rest) := r in
      if match h_seg hd with Some s => si_format s =? 0 | None => false end then Throw
      else let! m := read_from h dec can_open new_mdata hd rest in Ok (fst m)
  end.
(** The samples that image->data points to. *)
Fixpoint pairs (l : list Z) : list Z :=
  match l with
  | a :: b :: l' => load_u h [a; b] :: pairs l'
  | _ => []
  end.
Definition samples_of (b : block) : list Z := match b with Samples l => l | Chars l => pairs l end.
(** dataaccess.cpp:180-182, the segment files as a loader for DataAccessModel.v *)
Definition file_loader (fs : fname -> option (list Z)) : loader :=
  fun f =>
    let! m := read_file (fs f) in
    let! im := deref (m_image m) in
    Ok (samples_of (im_data im)).

(** ** dataaccess.cpp:86-151 *)
Definition cov (nm : string) : path := [N nm; N "ActualL15CoverageHRV"; N "product_stats"].
(** An int_4 kept in a size_t, lines 122-129. *)
Definition cov_number (vs : list (path * list Z)) (nm : string) : outcome Z :=
  let! b := field vs (cov nm) in
  let! v := rd_i h b 0 4 in
  Ok (wrap64 v).
Definition read_windows (vs : list (path * list Z)) : outcome windows :=
  let! le := cov_number vs "LowerEastColumnActual" in
  let! ln := cov_number vs "LowerNorthLineActual" in
  let! lw := cov_number vs "LowerWestColumnActual" in
  let! ls := cov_number vs "LowerSouthLineActual" in
  let! ue := cov_number vs "UpperEastColumnActual" in
  let! us := cov_number vs "UpperSouthLineActual" in
  let! uw := cov_number vs "UpperWestColumnActual" in
  let! un := cov_number vs "UpperNorthLineActual" in
  Ok (mk_win le ls lw ln ue us uw un).
(** Not set for other channels, and then not used. *)
Definition no_windows : windows := mk_win 0 0 0 0 0 0 0 0.
Record scanned := mk_scanned {
  sc_pro : mdata; sc_epi : mdata; sc_header : header;
  sc_names : list fname; sc_geo : geometry; sc_win : windows }.
Definition scan_product (pro epi : option (list Z)) (segs : list (fname * list Z)) : outcome scanned :=
  let! p := read_file pro in
  let! e := read_file epi in
  let! r := scan_files h ([], empty_header) segs in
  let '(names, hd) := r in
  match names with
  | [] => Throw
  | _ =>
      let! g := scan_segment hd in
      let! w := (if g_hrv g then let! vs := deref (m_epilogue e) in read_windows vs else Ok no_windows) in
      Ok (mk_scanned p e hd names g w)
  end.

(** ** gdal/xrit/dataset.cpp:33-109 and gdal/xrit/rasterband.cpp:22-63 *)
Record dataset := mk_dataset {
  d_xsize : Z; d_ysize : Z;
  d_spacecraft_id : Z; d_spacecraft : str; d_time : str; d_lon : option (list Z);
  d_transform : list (option R);
  d_block : Z * Z; d_channel_id : Z; d_channel : str; d_unit : str; d_band : CalibModel.band;
  d_names : list fname; d_geo : geometry; d_win : windows }.

(** dataset.cpp:59-63: strftime "%Y-%m-%d %H:%M:00" of gmtime. *)
Definition start_path (nm : string) : path := [N nm; N "TrueRepeatCycleStart"; N "PlannedAquisitionTime"; N "image_acquisition"].
Definition start_time (vs : list (path * list Z)) : outcome Z :=
  let! d := field vs (start_path "day_from_epoch") in
  let! m := field vs (start_path "msec_in_day") in
  let! t := read_cds_short h (d ++ m) 0 in
  Ok (cds_unixtime t).
Definition time_text (t : Z) : str :=
  let '(y, m, d) := civil (t / 86400) in
  let s := t mod 86400 in date_text y m d (s / 3600) (s / 60 mod 60) 0.

(** dataset.cpp:69-104 *)
Definition step_path (hrv : bool) (nm : string) : path :=
  [N nm; N (if hrv then "ReferenceGridHRV" else "ReferenceGridVIS_IR"); N "image_description"].
Definition step (hrv : bool) (vs : list (path * list Z)) (nm : string) : outcome (option R) :=
  let! b := field vs (step_path hrv nm) in
  let! v := get_r4 h b in
  Ok (option_map (fun x => Rabs (1000 * x))%R v).
Definition transform (hrv : bool) (vs : list (path * list Z)) : outcome (list (option R)) :=
  let off := if hrv then 5568 else 1856 in
  let! px := step hrv vs "ColumnDirGridStep" in
  let! py := step hrv vs "LineDirGridStep" in
  Ok [option_map (fun x => - IZR off * x)%R px; px; Some 0%R;
      option_map (fun y => IZR off * y)%R py; Some 0%R; option_map Ropp py].

(** MSG_data_RadiometricProc.cpp: the twelve pairs of ImageCalibration. *)
Definition cal_path (i : Z) (nm : string) : path := [N nm; I i; N "ImageCalibration"; N "radiometric_proc"].
Definition finite (o : option R) : R := match o with Some x => x | None => 0%R end.
Definition cal_entry (vs : list (path * list Z)) (i : Z) : outcome (R * R) :=
  let! b := field vs (cal_path i "Cal_Slope") in
  let! s := get_r8 h b in
  let! b' := field vs (cal_path i "Cal_Offset") in
  let! o := get_r8 h b' in
  Ok (finite s, finite o).
Fixpoint cal_entries (vs : list (path * list Z)) (i : Z) (n : nat) : outcome (list (R * R)) :=
  match n with
  | O => Ok []
  | S n' => let! c := cal_entry vs i in let! l := cal_entries vs (i + 1) n' in Ok (c :: l)
  end.

Definition open_dataset (pro epi : option (list Z)) (segs : list (fname * list Z)) : outcome dataset :=
  let! s := scan_product pro epi segs in
  let hrv := g_hrv (sc_geo s) in
  let size := if hrv then 11136 else 3712 in
  let! sg := deref (h_seg (sc_header s)) in
  let sat := spacecraftIDFromHRIT (si_spacecraft sg) in
  let! vs := deref (m_prologue (sc_pro s)) in
  let! t := start_time vs in
  let! nv := deref (h_navig (sc_header s)) in
  let! tr := transform hrv vs in
  let ch := si_channel sg in
  let! cal := cal_entries vs 0 12 in
  let! im := deref (h_image (sc_header s)) in
  let! b := CalibModel.xrit_band cal ch (is_bpp im) in
  Ok (mk_dataset size size sat (codes (spacecraftName sat)) (time_text t) (nv_lon nv) tr
        (size, 1) ch (codes (channelName sat ch)) (codes (channelUnit sat ch)) b
        (sc_names s) (sc_geo s) (sc_win s)).

(** rasterband.cpp:71-103, a row of a band whose values are the samples. *)
Definition read_row (fs : fname -> option (list Z)) (d : dataset) (st : da) (y : Z) (buf : list Z) : da * outcome (option (list Z)) :=
  iread_block_linear (d_names d) (d_geo d) (d_win d) (file_loader fs) (Z.to_nat (d_xsize d)) st 0 y buf.
End Open.
