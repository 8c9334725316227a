(** The identification of an HRI file (HRI_subframe_identification.cpp) and
    tools/hri/HRI2NetCDF.cpp, which makes one NetCDF file of each image.

    Not modelled: the text of the time (datetime), the offsets of the identification,
    the attributes that the NetCDF driver of this library does not read (Antenna,
    Projection, ...), the values of the calibration table, whether files can be
    created. *)
From Coq Require Import Reals.
From Verif Require Import Base IniModel MachineModel HriImageModel HriFloatModel HriModel GeoModel GribModel NcModel MsgModel.
Open Scope string_scope.
Open Scope list_scope.
Open Scope Z_scope.

(** ** HRI_subframe_identification.cpp:39-105, readfrom *)
Record ident := mk_ident { id_sat : str; id_year : Z; id_month : Z; id_day : Z; id_hour : Z; id_minute : Z; id_lon : Z }.
(** Lines 44-77: the name of the satellite. *)
Definition satellite_text (s0 s1 : Z) : str :=
  if s0 =? 212 then codes "METEOSAT" ++ (if 240 <? s1 then [45] ++ print (s1 - 240) else [])
  else if s1 =? 0 then codes "GOES-E" else if s1 =? 1 then codes "GOES-W" else if s1 =? 2 then codes "GMS" else codes "GOMS".
(** Lines 79-98. [tz]: the seconds from local time to UTC, without daylight saving
    (tm_isdst is 0). mktime takes noon of January 1st as local time, gmtime gives the
    day in UTC. Years and days are shorts. *)
Definition read_ident (hs : host) (tz : Z) (b : list Z) : outcome ident :=
  let! (s0, s1) := read_satellite b in
  let! year := i2_from_buff hs (skipn 2 b) in
  let! jday := i2_from_buff hs (skipn 4 b) in
  let jtime := days_before year 1 * 86400 + 12 * 3600 + tz + (jday - 1) * 24 * 60 * 60 in
  let '(_, month, day) := civil (jtime / 86400) in
  let! nominal := i2_from_buff hs (skipn 6 b) in
  let hour := Z.quot nominal 100 in
  let! lon := i2_from_buff hs (skipn 24 b) in
  Ok (mk_ident (satellite_text s0 s1) year month day hour (nominal - hour * 100) lon).

(** ** HRI_image.cpp:61-233: the name of an image and its sampling *)
Definition image_name (f : hformat) (b : hband) : str :=
  match f, b with
  | _, IR_BAND => codes "IR"
  | _, WV_BAND => codes "WV"
  | X_FORMAT, VH_BAND => codes "VH"
  | _, _ => codes "VIS"
  end.
Definition sampling (f : hformat) (b : hband) : Z :=
  match f, b with
  | A_FORMAT, _ => 1
  | B_FORMAT, VIS_BAND => 1
  | _, _ => 2
  end.
(** HRI_image.h:55-60 and HRI_image.cpp:304-307 *)
Definition band_number (b : hband) : Z := match b with IR_BAND => 0 | WV_BAND => 1 | VIS_BAND => 2 | VH_BAND => 3 end.
(** HRI.cpp:425-431 *)
Definition get_area_name (l : label) : str := if l_format l =? 0 then codes "AFormat" else if l_format l =? 255 then codes "BFormat" else codes "XFormat".

(** ** Time zones *)
(** A zone: the seconds from its standard time to UTC and the daylight saving, as
    seconds added at a moment of UTC. The offset of standard time is constant. *)
Record zone := mk_zone { z_west : Z; z_dst : Z -> Z }.
(** The fields of a struct tm that are used, with the daylight saving that is in
    them: tm_isdst tells whether it is zero. *)
Record tmz := mk_tmz { t_year : Z; t_month : Z; t_day : Z; t_hour : Z; t_minute : Z; t_dst : Z }.
(** mktime(3): the moment, and the structure with the local time of that moment. *)
Definition mktime (zn : zone) (t : tmz) : Z * tmz :=
  let r := (days_before (t_year t) (t_month t) + (t_day t - 1)) * 86400 + t_hour t * 3600 + t_minute t * 60 - t_dst t + z_west zn in
  let d := z_dst zn r in
  let l := r - z_west zn + d in
  let '(y, m, dd) := civil (l / 86400) in
  (r, mk_tmz y m dd (l mod 86400 / 3600) (l mod 3600 / 60) d).

(** ** HRI2NetCDF.cpp:69-162 *)
(** Lines 72-76; a year is printed with "%4d". *)
Definition spad (w : nat) (z : Z) : str := let t := zpad 0 z in repeat 32 (w - List.length t) ++ t.
Definition nc_name (sat area name : str) (t : tmz) : str :=
  sat ++ [95] ++ area ++ [95] ++ name ++ [95] ++ spad 4 (t_year t) ++ zpad 2 (t_month t) ++ zpad 2 (t_day t) ++ [95] ++ zpad 2 (t_hour t) ++ zpad 2 (t_minute t) ++ codes ".nc".
(** Lines 85-87 *)
Definition nc_time (t : tmz) : str :=
  zpad 4 (t_year t) ++ [45] ++ zpad 2 (t_month t) ++ [45] ++ zpad 2 (t_day t) ++ [32] ++ zpad 2 (t_hour t) ++ [58] ++ zpad 2 (t_minute t) ++ codes ":00 UTC".
(** The file of one image, and the structure of the time, which is that of the object
    and is changed by mktime in line 144. Bytes that were never written have the value
    [junk]. *)
Definition image_file (zn : zone) (junk : Z) (sat area : str) (lon : Z) (g : Z * Z * Z * Z) (t : tmz) (f : hformat) (b : hband) (im : HriImageModel.image) : (str * ncfile) * tmz :=
  let '(cfac, lfac, coff, loff) := g in
  let '(r, t') := mktime zn t in
  ((nc_name sat area (image_name f b) t,
    mk_ncfile
     [("Satellite", AText sat); ("Time", AText (nc_time t)); ("Columns", AInt (npixels im)); ("Lines", AInt (nlines im));
      ("SampleX", AFloat (Some (IZR (sampling f b)))); ("SampleY", AFloat (Some (IZR (sampling f b))));
      ("Column_Scale_Factor", AInt cfac); ("Line_Scale_Factor", AInt lfac); ("Column_Offset", AInt coff); ("Line_Offset", AInt loff);
      ("Longitude", AFloat (Some (IZR lon)))]
     [mk_ncvar (codes "calibration") NcFloat [256] [] [];
      time_var (r - 946684800 - z_west zn);
      mk_ncvar (image_name f b) NcByte [1; nlines im; npixels im] [("add_offset", ADouble (Some 0%R)); ("scale_factor", ADouble (Some 1%R)); ("chnum", AInt (band_number b))]
               (map (fun o => match o with Some v => v | None => junk end) (HriImageModel.data im))]), t').
(** The images of an object that has read a file are those of its format, in order. *)
Fixpoint image_files (zn : zone) (junk : Z) (sat area : str) (lon : Z) (g : Z * Z * Z * Z) (t : tmz) (l : list (hformat * hband)) (ims : list HriImageModel.image) : list (str * ncfile) :=
  match l, ims with
  | (f, b) :: l', im :: ims' => let '(x, t') := image_file zn junk sat area lon g t f b im in x :: image_files zn junk sat area lon g t' l' ims'
  | _, _ => []
  end.
(** Lines 63-164: the file is read as one that is not of TECNAVIA; the bytes of its
    identification are at 36 of the first frame (HRI.cpp:132-136). The structure of
    the time has tm_isdst zero. *)
Definition HRI2NetCDF (zn : zone) (junk : Z) (hs : host) (lb file : list Z) : outcome (list (str * ncfile)) :=
  let! x := readfrom 4 hs false lb file in
  let! (fb, _) := getbuff hs (mk_stream file false) in
  let! idn := bytes_at fb 36 48 in
  let! i := read_ident hs (z_west zn) idn in
  let! p := plan_of (h_format x) in
  match h_geo x with
  | None => UB
  | Some g => Ok (image_files zn junk (id_sat i) (get_area_name (h_label x)) (id_lon i) g
                    (mk_tmz (id_year i) (id_month i) (id_day i) (id_hour i) (id_minute i) 0) (p_images p) (h_images x))
  end.
