(** gdal/netcdf/utils.cpp, netcdf.cpp and netcdf24.cpp: the two NetCDF drivers.

    The NetCDF library is modelled as a file that keeps what is put in it: global
    attributes and variables with type, dimensions, attributes and data. Calls that
    add an attribute or a dimension succeed. Double values are real numbers or NaN
    (None), the arithmetic on them is exact; floats are rounded with 24 bits.
    Pixels are bit patterns of the width of their type. Not modelled: the names of
    channels, units, descriptions, texts that do not come back (title, institution,
    ...), the latitudes and longitudes written for a source without projection,
    opening and closing of files and its failures. *)
From Coq Require Import ZArith Reals String List.
From Flocq Require Import Core.
From Verif Require Import Base IniModel FactsModel GeoModel ScanModel ToolModel SunModel PixModel StretchFloat GribModel.
Import ListNotations.
Open Scope string_scope.
Open Scope list_scope.
Open Scope Z_scope.

(** ** The library *)
Inductive nctype := NcByte | NcChar | NcShort | NcInt | NcFloat | NcDouble.
Inductive attr := ABytes (z : Z) | AShort (z : Z) | AInt (z : Z) | AFloat (x : num) | ADouble (x : num) | AText (s : str).
Record ncvar := mk_ncvar { v_name : str; v_type : nctype; v_dims : list Z; v_attrs : list (string * attr); v_data : list Z }.
Record ncfile := mk_ncfile { f_attrs : list (string * attr); f_vars : list ncvar }.
Fixpoint get_att (l : list (string * attr)) (k : string) : option attr :=
  match l with [] => None | (k', a) :: l' => if String.eqb k k' then Some a else get_att l' k end.
(** NC_FILL_BYTE, NC_FILL_SHORT and NC_FILL_INT, which the library gives for
    values that do not fit. *)
Definition cast (lo hi fill : Z) (x : num) : Z :=
  match x with Some r => let z := Ztrunc r in if (lo <=? z) && (z <=? hi) then z else fill | None => fill end.
Definition as_int (a : attr) : Z :=
  match a with
  | ABytes z | AShort z | AInt z => z
  | AFloat x | ADouble x => cast (- 2 ^ 31) (2 ^ 31 - 1) (-2147483647) x
  | AText s => match s with c :: _ => to_signed 8 c | [] => 0 end
  end.
Definition as_short (a : attr) : Z :=
  match a with
  | ABytes z | AShort z => z
  | AInt z => if (- 2 ^ 15 <=? z) && (z <? 2 ^ 15) then z else -32767
  | AFloat x | ADouble x => cast (- 2 ^ 15) (2 ^ 15 - 1) (-32767) x
  | AText s => match s with c :: _ => to_signed 8 c | [] => 0 end
  end.
Definition as_byte (a : attr) : Z :=
  match a with
  | ABytes z => z
  | AShort z | AInt z => if (- 2 ^ 7 <=? z) && (z <? 2 ^ 7) then z else -127
  | AFloat x | ADouble x => cast (- 2 ^ 7) (2 ^ 7 - 1) (-127) x
  | AText s => match s with c :: _ => to_signed 8 c | [] => 0 end
  end.
Definition as_double (a : attr) : num :=
  match a with
  | ABytes z | AShort z | AInt z => Some (IZR z)
  | AFloat x | ADouble x => x
  | AText s => Some (IZR (match s with c :: _ => to_signed 8 c | [] => 0 end))
  end.
Definition to_float (x : num) : num := match x with Some r => Some (StretchFloat.rnd r) | None => None end.
Definition as_float (a : attr) : num := to_float (as_double a).

(** ** Pixel types *)
Inductive gtype := GUnknown | GByte | GInt16 | GUInt16 | GInt32 | GUInt32 | GFloat32 | GFloat64 | GComplex.
Definition width (t : gtype) : Z := match t with GByte => 1 | GInt16 | GUInt16 => 2 | GInt32 | GUInt32 | GFloat32 => 4 | GFloat64 => 8 | _ => 0 end.
(** utils.cpp:207-239: NetCDF type and whether the values are unsigned. *)
Definition target_type (t : gtype) : option (nctype * bool) :=
  match t with
  | GByte => Some (NcByte, true)
  | GInt16 => Some (NcShort, false)
  | GUInt16 => Some (NcShort, true)
  | GInt32 => Some (NcInt, false)
  | GUInt32 => Some (NcInt, true)
  | GFloat32 => Some (NcFloat, false)
  | GFloat64 => Some (NcDouble, false)
  | GUnknown | GComplex => None
  end.
(** utils.cpp:69-81 *)
Definition is_true (a : option attr) : bool := match a with Some (AText s) => str_eqb s (codes "true") | _ => false end.
Definition read_type (t : nctype) (u : bool) : gtype :=
  match t with
  | NcByte | NcChar => GByte
  | NcShort => if u then GUInt16 else GInt16
  | NcInt => if u then GUInt32 else GInt32
  | NcFloat => GFloat32
  | NcDouble => GFloat64
  end.

(** ** No data values *)
(** Conversion of a double to a signed integer type: undefined outside of it. *)
Definition to_signed_type (bits : Z) (x : num) : outcome Z :=
  match x with
  | Some r => let z := Ztrunc r in if (- 2 ^ (bits - 1) <=? z) && (z <? 2 ^ (bits - 1)) then Ok z else UB
  | None => UB
  end.
(** utils.cpp:257-279 *)
Definition fill_attr (t : nctype) (x : num) : outcome attr :=
  match t with
  | NcByte | NcChar => let! z := to_signed_type 8 x in Ok (ABytes z)
  | NcShort => let! z := to_signed_type 16 x in Ok (AShort z)
  | NcInt => let! z := to_signed_type 32 x in Ok (AInt z)
  | NcFloat => Ok (AFloat (to_float x))
  | NcDouble => Ok (ADouble x)
  end.
(** facts.cpp:16-30 and 517-525 *)
Definition defaultPackedMissing (ch : Z) : num := if (0 <=? ch) && (ch <? 13) then Some 0%R else None.
(** utils.cpp:124-154 *)
Definition GetNoDataValue (v : ncvar) (ch : Z) : num :=
  match get_att (v_attrs v) "_FillValue" with
  | Some a =>
      if is_true (get_att (v_attrs v) "_Unsigned") then
        match v_type v with
        | NcByte | NcChar => Some (IZR (as_byte a mod 2 ^ 8))
        | NcShort => Some (IZR (as_short a mod 2 ^ 16))
        | NcInt => Some (IZR (as_int a mod 2 ^ 32))
        | _ => as_double a
        end
      else as_double a
  | None =>
      match get_att (v_attrs v) "missing_value" with
      | Some a => as_double a
      | None => defaultPackedMissing ch
      end
  end.
(** utils.cpp:94-122 *)
Definition band_offset (v : ncvar) : num := match get_att (v_attrs v) "add_offset" with Some a => as_double a | None => Some 0%R end.
Definition band_scale (v : ncvar) : num := match get_att (v_attrs v) "scale_factor" with Some a => as_double a | None => Some 1%R end.

(** ** Writing a band, utils.cpp:183-289 *)
Record nband := mk_nband { b_name : str; b_type : gtype; b_offset : num; b_scale : num; b_nodata : num; b_chan : option str; b_pix : option (list Z) }.
(** What the library accepts as the name of a variable: [valid], and no two
    variables have the same name. *)
Section Write.
Variable valid : str -> bool.
Definition has_var (l : list ncvar) (n : str) : bool := existsb (fun v => str_eqb (v_name v) n) l.
(** Fill values, what a variable holds before anything is put in it; the patterns of
    floats are not modelled. *)
Definition filler (a : attr) : Z := match a with ABytes z | AShort z | AInt z => z | _ => 0 end.
(** The variables after the call and whether one is returned. The pixels are copied
    without any conversion: the types of the source and of the variable have the
    same width. *)
Definition rasterBandToNcVar (b : nband) (xs ys : Z) (vars : list ncvar) : outcome (list ncvar * bool) :=
  match target_type (b_type b) with
  | None => Ok (vars, false)
  | Some (t, u) =>
      if negb (valid (b_name b)) || has_var vars (b_name b) then Ok (vars, false)
      else
        let! fv := fill_attr t (b_nodata b) in
        let att := [("add_offset", ADouble (b_offset b)); ("scale_factor", ADouble (b_scale b))] ++ (if u then [("_Unsigned", AText (codes "true"))] else []) ++ [("_FillValue", fv)] in
        match b_pix b with
        | Some pix => Ok (vars ++ [mk_ncvar (b_name b) t [1; ys; xs] att pix], true)
        | None => Ok (vars ++ [mk_ncvar (b_name b) t [1; ys; xs] att (repeat (filler fv) (Z.to_nat (xs * ys)))], false)
        end
  end.
Definition strtoul_int (s : str) : Z := to_int (fst (strtoul s)).
(** Adds attributes to the last variable. *)
Definition add_last (vars : list ncvar) (l : list (string * attr)) : list ncvar :=
  match rev vars with
  | [] => []
  | v :: r => rev r ++ [mk_ncvar (v_name v) (v_type v) (v_dims v) (v_attrs v ++ l) (v_data v)]
  end.
(** netcdf.cpp:508-516 and netcdf24.cpp:479-492: a variable that was not made is
    dereferenced when the band has a channel. [keys] are the attributes for it. *)
Fixpoint write_bands (keys : list string) (bs : list nband) (xs ys : Z) (vars : list ncvar) : outcome (list ncvar) :=
  match bs with
  | [] => Ok vars
  | b :: bs' =>
      let! (vars, ok) := rasterBandToNcVar b xs ys vars in
      match b_chan b with
      | Some c => if ok : bool then write_bands keys bs' xs ys (add_last vars (map (fun k => (k, AInt (strtoul_int c))) keys)) else UB
      | None => write_bands keys bs' xs ys vars
      end
  end.

(** ** Time *)
(** Days from 1970-01-01 to the first day of a month, as mktime(3) counts them in
    UTC; other fields may have any value. *)
Definition days_before (y m : Z) : Z :=
  let y' := y + (m - 1) / 12 in
  let m' := (m - 1) mod 12 in
  let leap := ((y' mod 4 =? 0) && negb (y' mod 100 =? 0)) || (y' mod 400 =? 0) in
  let md := nth (Z.to_nat m') [0; 31; 59; 90; 120; 151; 181; 212; 243; 273; 304; 334] 0 + (if leap && (2 <=? m') then 1 else 0) in
  365 * (y' - 1970) + ((y' - 1) / 4 - (y' - 1) / 100 + (y' - 1) / 400) - (1969 / 4 - 1969 / 100 + 1969 / 400) + md.
(** utils.cpp:29-59: tm_sec is not set. *)
Definition forecastSeconds2000 (t : str) : outcome Z :=
  match scan_free t with
  | Some [year; month; day; hour; minute; second] =>
      if negb (forallb int_fits [year; month; day; hour; minute; second; year - 1900; month - 1]) then UB
      else Ok ((days_before year month + (day - 1)) * 86400 + hour * 3600 + minute * 60 - 946684800)
  | _ => Ok 0
  end.

(** ** Copies *)
Inductive srs := Geos (height lon : R) | LatLon | OtherProj.
Record nsrc := mk_nsrc {
  n_srs : option srs; n_gt : option (R * R * R * R * R * R); n_xs : Z; n_ys : Z;
  n_time : option str; n_sat : option str; n_satid : option str; n_bands : list nband }.
(** netcdf.cpp:367-426. The offsets of the sub-satellite point. *)
Definition area_offset (ps : R) : Z := if Rlt_dec (ps - PIXELSIZE_HRV) (1 / 10000) then 3712 else 1856.
Definition area (h lon : R) (gt : R * R * R * R * R * R) : outcome (option (list (string * attr))) :=
  let '(g0, g1, g2, g3, g4, g5) := gt in
  if nonzero (h - 35785831) then Ok None
  else if nonzero g2 then Ok None
  else if nonzero g4 then Ok None
  else
    let psx := g1 in
    let psy := (- g5)%R in
    let co := area_offset psx in
    let lo := area_offset psy in
    let! x0 := near_int (IZR co + g0 / psx) in
    let! y0 := near_int (IZR lo - g3 / psy) in
    if negb (int_fits (x0 + 1) && int_fits (y0 + 1)) then UB
    else Ok (Some [("Longitude", AFloat (to_float (Some lon)));
                   ("Column_Scale_Factor", ADouble (Some (CFACFromPixelHSize psx * 65536)%R));
                   ("Line_Scale_Factor", ADouble (Some (CFACFromPixelHSize psy * 65536)%R));
                   ("AreaStartPix", AInt (x0 + 1)); ("AreaStartLin", AInt (y0 + 1));
                   ("SampleX", ADouble (Some 1%R)); ("SampleY", ADouble (Some 1%R)); ("Column_Offset", AInt co); ("Line_Offset", AInt lo)]).
(** The one value of this variable is the time itself, not a bit pattern. *)
Definition time_var (t : Z) : ncvar := mk_ncvar (codes "time") NcDouble [1] [] [t].
(** netcdf.cpp:274-522, the file that is written. A source without projection is
    copied with its latitudes and longitudes; one whose geotransform cannot be read
    is refused. *)
Definition write_nc (s : nsrc) : outcome (option ncfile) :=
  match n_srs s with
  | None => UB
  | Some p =>
      let! t := (match n_time s with Some t => forecastSeconds2000 t | None => Ok 0 end) in
      let head := (match n_sat s with Some v => [("Satellite", AText v)] | None => [] end) ++
                  (match n_time s with Some v => [("Time", AText (v ++ codes " UTC"))] | None => [] end) in
      let? a := (match p with
                 | Geos h lon => match n_gt s with None => Ok None | Some gt => area h lon gt end
                 | LatLon => Ok (Some [])
                 | OtherProj => Ok None
                 end) in
      let pre := match p with
                 | LatLon => [mk_ncvar (codes "longitude") NcFloat [n_xs s] [] []; mk_ncvar (codes "latitude") NcFloat [n_ys s] [] []]
                 | _ => []
                 end in
      let! vars := write_bands ["chnum"] (n_bands s) (n_xs s) (n_ys s) (pre ++ [time_var t]) in
      Ok (Some (mk_ncfile (head ++ a ++ [("Version", AText (codes "1"))]) vars))
  end.

(** netcdf24.cpp:262-497. The checks of the geotransform are those of the GRIB
    driver. *)
Definition write_nc24 (s : nsrc) : outcome (option ncfile) :=
  match n_satid s with
  | None => Ok None
  | Some sv =>
      let id := strtoul_int sv in
      let head := [("GribEditionNumber", AInt 1); ("LevelType", AInt id); ("SatelliteID", AInt id)] in
      let? (t, ta) := (match n_time s with
                       | None => Ok (Some (0, []))
                       | Some v =>
                           let! t := forecastSeconds2000 v in
                           match scan_free v with
                           | Some [year; month; day; hour; minute; second] =>
                               Ok (Some (t, [("Time", AText (v ++ codes " UTC")); ("Year", AInt year); ("Month", AInt month); ("Day", AInt day); ("Hour", AInt hour); ("Minute", AInt minute); ("Second", AInt second)]))
                           | _ => Ok None
                           end
                       end) in
      match n_srs s with
      | None => UB
      | Some (Geos h lon) =>
          if nonzero (h - 35785831) then Ok None
          else match n_gt s with
               | None => Ok None
               | Some gt =>
                   match grid_offset gt with
                   | None => Ok None
                   | Some off =>
                       let '(g0, g1, g2, g3, g4, g5) := gt in
                       let! x0 := near_int (IZR off + g0 / g1) in
                       let! y0 := near_int (IZR off - g3 / - g5) in
                       let! dx := seviriDXFromPixelHSize g1 in
                       let! dy := seviriDXFromPixelHSize (- g5) in
                       if negb (int_fits (x0 + 1) && int_fits (y0 + 1)) then UB
                       else
                         let pa := [("Lop", AFloat (to_float (Some lon))); ("X0", AInt (x0 + 1)); ("Y0", AInt (y0 + 1)); ("DX", AInt dx); ("DY", AInt dy); ("Xp", AInt off); ("Yp", AInt off)] in
                         let! vars := write_bands ["L1"; "channel"] (n_bands s) (n_xs s) (n_ys s) [mk_ncvar (codes "Projection") NcInt [] pa []; time_var t] in
                         Ok (Some (mk_ncfile (head ++ ta) vars))
                   end
               end
      | Some _ => Ok None
      end
  end.
End Write.

(** ** Reading *)
Fixpoint string_of (s : str) : string := match s with [] => EmptyString | c :: s' => String (Ascii.ascii_of_N (Z.to_N c)) (string_of s') end.
Section Read.
(** What as_string() makes of a number. *)
Variable number_text : attr -> str.
Definition as_text (a : attr) : str := match a with AText s => s | _ => number_text a end.
Record ncband := mk_ncband { r_var : ncvar; r_type : gtype; r_chan : Z; r_offset : num; r_bx : Z; r_by : Z }.
Record ncds := mk_ncds { d_file : ncfile; d_size : option (Z * Z); d_sat : option str; d_satid : Z; d_time : str; d_lon : option num; d_bands : list ncband }.
(** netcdf.cpp:237-254 and netcdf24.cpp:202-219: the variables that are bands. *)
Definition is_band (skip : list string) (v : ncvar) : bool :=
  negb (existsb (fun k => str_eqb (v_name v) (codes k)) skip) && match v_dims v with [1; _; _] => true | _ => false end.
Definition dim (v : ncvar) (i : nat) : Z := to_int (nth i (v_dims v) 0).
(** netcdf.cpp:80-114 *)
Definition num_is_one (x : num) : bool := match x with Some r => if Req_EM_T r 1 then true else false | None => false end.
Definition read_band (key : string) (bug : bool) (v : ncvar) : ncband :=
  mk_ncband v (read_type (v_type v) (is_true (get_att (v_attrs v) "_Unsigned")))
            (match get_att (v_attrs v) key with Some a => as_int a | None => 0 end)
            (if bug && num_is_one (band_offset v) then Some 0%R else band_offset v)
            (dim v 2) (dim v 1).
(** netcdf.cpp:218-227: the text of the time. *)
Definition time_text (l : list Z) : str :=
  match l with
  | [year; month; day; hour; min; sec] => firstn 19 (zpad 4 year ++ [45] ++ zpad 2 month ++ [45] ++ zpad 2 day ++ [32] ++ zpad 2 hour ++ [58] ++ zpad 2 min ++ [58] ++ zpad 2 sec)
  | _ => []
  end.
Definition float_one (a : option attr) : bool := match a with Some a => num_is_one (as_float a) | None => true end.
Definition attr_text (l : list (string * attr)) (k : string) (d : str) : str := match get_att l k with Some a => as_text a | None => d end.
(** netcdf.cpp:116-300 *)
Definition open_nc (f : ncfile) : option ncds :=
  match get_att (f_attrs f) "Satellite" with
  | None => None
  | Some sa =>
      if negb (float_one (get_att (f_attrs f) "SampleX")) then None
      else if negb (float_one (get_att (f_attrs f) "SampleY")) then None
      else
        let sat := as_text sa in
        let id := match sat with [] => 0 | _ => spacecraftID (string_of sat) end in
        match scan_iso (attr_text (f_attrs f) "Time" (codes "0000-00-00 00:00:00 UTC")) with
        | None => None
        | Some t =>
            let bug := str_eqb (attr_text (f_attrs f) "Version" (codes "0")) (codes "0") in
            let bands := map (read_band "chnum" bug) (filter (is_band ["time"]) (f_vars f)) in
            Some (mk_ncds f (match bands with b :: _ => Some (r_bx b, r_by b) | [] => None end)
                          (match sat with [] => None | _ => Some sat end) id (time_text t)
                          (Some (match get_att (f_attrs f) "Longitude" with Some a => as_float a | None => Some 0%R end)) bands)
        end
  end.
(** netcdf.cpp:45-76, the elements 0, 1, 3 and 5 of the geotransform. *)
Definition att_int (l : list (string * attr)) (k : string) (d : Z) : Z := match get_att l k with Some a => as_int a | None => d end.
Definition gt_nc (f : ncfile) : outcome (option (R * R * R * R)) :=
  match get_att (f_attrs f) "AreaStartPix", get_att (f_attrs f) "AreaStartLin" with
  | Some asp, Some asl =>
      let co := att_int (f_attrs f) "Column_Offset" 1856 in
      let lo := att_int (f_attrs f) "Line_Offset" 1856 in
      let x0 := as_int asp - 1 in
      let y0 := as_int asl - 1 in
      let! psx := pixelHSizeFromCFAC (IZR (Z.abs (att_int (f_attrs f) "Column_Scale_Factor" (-13642337))) / 65536) in
      let! psy := pixelHSizeFromCFAC (IZR (Z.abs (att_int (f_attrs f) "Line_Scale_Factor" (-13642337))) / 65536) in
      if negb (int_fits x0 && int_fits y0 && int_fits (co - x0) && int_fits (lo - y0)) then UB
      else Ok (Some (- IZR (co - x0) * psx, psx, IZR (lo - y0) * psy, - psy)%R)
  | _, _ => Ok None
  end.
(** netcdf24.cpp:95-224. A file without projection variable is dereferenced. *)
Fixpoint find_var (l : list ncvar) (n : str) : option ncvar := match l with [] => None | v :: l' => if str_eqb (v_name v) n then Some v else find_var l' n end.
Definition gt_nc24 (pa : list (string * attr)) : outcome (option (R * R * R * R)) :=
  match get_att pa "Xp", get_att pa "Yp", get_att pa "X0", get_att pa "Y0", get_att pa "DX", get_att pa "DY" with
  | Some xp, Some yp, Some x0, Some y0, Some dx, Some dy =>
      if negb (int_fits (as_int x0 - 1) && int_fits (as_int y0 - 1)) then UB
      else
        let! psx := pixelHSizeFromSeviriDX (as_int dx) in
        let! psy := pixelHSizeFromSeviriDX (as_int dy) in
        Ok (Some (- IZR (as_int xp - (as_int x0 - 1)) * psx, psx, IZR (as_int yp - (as_int y0 - 1)) * psy, - psy)%R)
  | _, _, _, _, _, _ => Ok None
  end.
Definition open_nc24 (f : ncfile) : outcome (option (ncds * option (R * R * R * R))) :=
  match get_att (f_attrs f) "GribEditionNumber" with
  | None => Ok None
  | Some ed =>
      if negb (as_int ed =? 1) then Ok None
      else
        let level := att_int (f_attrs f) "LevelType" 0 in
        if negb ((level =? 55) || (level =? 56)) then Ok None
        else
          let id := att_int (f_attrs f) "SatelliteID" 0 in
          let t := map (fun k => att_int (f_attrs f) k 0) ["Year"; "Month"; "Day"; "Hour"; "Minute"; "Second"] in
          match find_var (f_vars f) (codes "Projection") with
          | None => UB
          | Some pv =>
              let? (lon, gt) := (match get_att (v_attrs pv) "Lop" with
                                 | None => Ok (Some (None, None))
                                 | Some a => let? g := gt_nc24 (v_attrs pv) in Ok (Some (Some (as_float a), Some g))
                                 end) in
              let bands := map (read_band "L1" false) (filter (is_band ["Projection"; "time"]) (f_vars f)) in
              Ok (Some (mk_ncds f (match bands with b :: _ => Some (r_bx b, r_by b) | [] => None end)
                                (if id =? 0 then None else Some (codes (spacecraftName id))) id (time_text t) lon bands, gt))
          end
  end.
(** utils.cpp:156-181. The library converts into the buffer: 32 bit types are read
    as long, 64 bits each, into a buffer of GDAL of 32 bits per pixel. *)
Definition IReadBlock (b : ncband) (x y : Z) : outcome (option (list Z)) :=
  if negb ((x =? 0) && (y =? 0)) then Ok None
  else match r_type b with
       | GUnknown | GComplex => Ok None
       | t =>
           let each := match t with GInt32 | GUInt32 => 8 | t => width t end in
           if width t * (r_bx b * r_by b) <? each * (r_bx b * r_by b) then UB
           else Ok (Some (v_data (r_var b)))
       end.
End Read.
