(** tools/openmtp/OpenMTP_to_NetCDF.cpp: one NetCDF file of an OpenMTP file.

    Not modelled: the attributes that the driver of this library does not read
    (Antenna, Receiver, Area_Name, Projection, Orbit_Radius, Institution, ...), the
    values of the calibration table (OmtpCalModel) and whether the file can be
    created. *)
From Coq Require Import Reals.
From Verif Require Import Base IniModel MachineModel HriModel OmtpModel GeoModel GribModel NcModel.
Open Scope string_scope.
Open Scope list_scope.
Open Scope Z_scope.

(** Lines 78-80 and the end of 130-132: the time as printed. *)
Definition reftime (t : tm) : str :=
  zpad 4 (tm_year t + 1900) ++ [45] ++ zpad 2 (tm_mon t + 1) ++ [45] ++ zpad 2 (tm_mday t) ++ [32] ++ zpad 2 (tm_hour t) ++ [58] ++ zpad 2 (tm_min t) ++ codes ":00 UTC".
(** Lines 83-115: cfac (and lfac), coff, loff and the sampling. A text that is thrown
    is caught nowhere. *)
Definition geometry (hs : host) (h : list Z) : outcome (Z * Z * Z * Z) :=
  let! a := is_A_format hs h in
  if a : bool then
    let! ir := is_ir_data hs h in
    let! wv := is_wv_data hs h in
    if ir || wv then Ok (-9102222, 1248, 1249, 1)
    else let! vis := is_vis_data hs h in
         if vis : bool then Ok (-18204444, 2500, 2500, 1) else Throw
  else
    let! b := is_B_format hs h in
    if b : bool then Ok (-18204444, 1248, -1118, 2) else Throw.
(** Lines 43-188, after open: file name and file. [lon] is the value of
    subsatellite_point. Line 130 prints to title[64]. The time is what mktime makes of
    the fields in UTC: it takes them as local time and the zone is added back. The
    object, as a fresh one that has read a file, has an image. *)
Definition convert (hs : host) (lon : num) (o : omtp) : outcome (str * ncfile) :=
  let h := o_header o in
  let! t := get_datetime hs h in
  let! code := text_at h 32 2 in
  let! field := get_field_name h in
  let! ts := get_timestr hs h in
  let name := code ++ [95] ++ field ++ [95] ++ ts ++ codes ".nc" in
  if existsb (Z.eqb 47) name then Terminate
  else
    let! sat := get_satellite_name h in
    let! (fac, coff, loff, scale) := geometry hs h in
    let! wd := npixels hs h in
    let! hg := nlines hs h in
    if 64 <=? Z.of_nat (List.length (codes "OpenMTP " ++ field ++ codes " product for " ++ reftime t)) then UB
    else
      let! ch := get_chname hs h in
      match o_image o with
      | None => UB
      | Some px =>
          Ok (name,
              mk_ncfile
                [("Satellite", AText (codes sat)); ("Time", AText (reftime t)); ("Columns", AInt (wd * scale)); ("Lines", AInt (hg * scale));
                 ("SampleX", AFloat (Some (IZR scale))); ("SampleY", AFloat (Some (IZR scale)));
                 ("Column_Scale_Factor", AInt fac); ("Line_Scale_Factor", AInt fac); ("Column_Offset", AInt coff); ("Line_Offset", AInt loff);
                 ("Longitude", AFloat lon)]
                [mk_ncvar (codes "calibration") NcFloat [256] [] [];
                 time_var ((days_before (tm_year t + 1900) (tm_mon t + 1) + (tm_mday t - 1)) * 86400 + tm_hour t * 3600 + tm_min t * 60 - 946684800);
                 mk_ncvar (codes ch) NcByte [1; hg; wd] [("add_offset", ADouble (Some 0%R)); ("scale_factor", ADouble (Some 1%R))] px])
      end.
(** Line 62: open reads the whole file into the new object. *)
Definition OpenMTP_to_NetCDF (hs : host) (fill : Z) (lon : num) (a h bytes : list Z) : outcome (str * ncfile) :=
  let! (o, _) := read hs fill (fresh a h) bytes in convert hs lon o.
