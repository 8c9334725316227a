(** gdal/grib/utils.h and gdal/grib/grib.cpp: the GRIB driver.

    grib_api is an oracle: a type of messages with get and set operations of which
    nothing is assumed here (the statements say what they need). Pixel values are
    real numbers or NaN (None), arithmetic on them is exact; real numbers bring the
    axioms of the standard library. griberror exceptions, which the driver catches
    everywhere, and failures reported with false are both None; Throw is any other
    exception. Not modelled: the messages of CPLError, the text written to the
    trace file (including the values of uninitialised variables), descriptions,
    units and names of the bands (FactsModel has them). *)
From Coq Require Import ZArith Reals String List QArith.
From Flocq Require Import Core.
From Verif Require Import Base IniModel FactsModel GeoModel ScanModel ToolModel SunModel PixModel.
Import ListNotations.
Open Scope string_scope.
Open Scope list_scope.
Open Scope Z_scope.

Definition num := option R.
Definition num_eq (a b : num) : bool :=
  match a, b with Some x, Some y => if Req_EM_T x y then true else false | _, _ => false end.
(** v * scale + offset *)
Definition scaled (v scale offset : num) : num :=
  match v, scale, offset with Some v, Some s, Some o => Some (v * s + o)%R | _, _, _ => None end.

(** ** grib_api *)
Inductive gres (A : Type) := Got (a : A) | NotFound | OtherErr.
Arguments Got {A} _.
Arguments NotFound {A}.
Arguments OtherErr {A}.
Record glib := mk_glib {
  msg : Type;
  g_long : msg -> string -> gres Z;
  g_double : msg -> string -> gres R;
  g_values : msg -> gres (list num);
  s_long : msg -> string -> Z -> option msg;
  s_double : msg -> string -> num -> option msg;
  s_values : msg -> list num -> option msg;
  sample : string -> option msg
}.

(** utils.h:44-50: the trace is written without checking that its file could be
    opened. *)
Definition traced {A} (trace : bool) (o : outcome A) : outcome A := if trace then o else UB.

Notation "'let?' x := a 'in' b" := (match a with
                                    | Ok (Some x) => b
                                    | Ok None => Ok None
                                    | Throw => Throw
                                    | Terminate => Terminate
                                    | UB => UB
                                    | Loop => Loop
                                    end) (at level 200, x pattern, right associativity).

(** ** Time texts *)
Fixpoint print_from (fuel : nat) (z : Z) (acc : str) : str :=
  match fuel with
  | O => acc
  | S fuel' => let acc' := (48 + z mod 10) :: acc in if z <? 10 then acc' else print_from fuel' (z / 10) acc'
  end.
(** %ld of a number that is not negative: a long has at most 19 digits. *)
Definition print (z : Z) : str := print_from 19 z [].
(** %0<w>ld *)
Definition zpad (w : nat) (z : Z) : str :=
  if z <? 0 then 45 :: repeat 48 (w - 1 - List.length (print (- z))) ++ print (- z)
  else repeat 48 (w - List.length (print z)) ++ print z.

Section Lib.
Variable L : glib.
Variable tr : bool.
Notation M := (msg L).

(** utils.h:168-175 *)
Definition get_long (m : M) (k : string) : outcome (option Z) :=
  traced tr (match g_long L m k with Got v => Ok (Some v) | _ => Ok None end).
(** utils.h:177-187: Some None when there is no such key. *)
Definition get_long_ifexists (m : M) (k : string) : outcome (option (option Z)) :=
  traced tr (match g_long L m k with Got v => Ok (Some (Some v)) | NotFound => Ok (Some None) | OtherErr => Ok None end).
(** utils.h:189-206. The error is that of the last key, or not found without
    keys. *)
Fixpoint long_oneof (m : M) (ks : list string) (err : bool) : outcome (option Z) :=
  match ks with
  | [] => Ok None
  | k :: ks' => traced tr (match g_long L m k with Got v => Ok (Some v) | _ => long_oneof m ks' true end)
  end.
Definition get_long_oneof (m : M) (ks : list string) : outcome (option Z) := long_oneof m ks true.
(** utils.h:231-248 *)
Fixpoint get_double_oneof (m : M) (ks : list string) : outcome (option R) :=
  match ks with
  | [] => Ok None
  | k :: ks' => traced tr (match g_double L m k with Got v => Ok (Some v) | _ => get_double_oneof m ks' end)
  end.
(** utils.h:266-271 *)
Definition set_long (m : M) (k : string) (v : Z) : outcome (option M) := traced tr (Ok (s_long L m k v)).
(** utils.h:290-295 *)
Definition set_long_unchecked (m : M) (k : string) (v : Z) : outcome (option M) :=
  traced tr (Ok (Some (match s_long L m k v with Some m' => m' | None => m end))).
(** utils.h:273-288. When the first key fails the next values, passed as int, are
    read as long, and a value is read after the final NULL: undefined. *)
Definition set_long_oneof (m : M) (k : string) (v : Z) : outcome (option M) :=
  traced tr (match s_long L m k v with Some m' => Ok (Some m') | None => UB end).
(** utils.h:297-302 *)
Definition set_double (m : M) (k : string) (v : num) : outcome (option M) := traced tr (Ok (s_double L m k v)).
(** utils.h:304-311 *)
Definition set_double_array (m : M) (v : list num) : outcome (option M) := traced tr (Ok (s_values L m v)).

(** utils.h:352-380 *)
Definition formatTime (m : M) : outcome (option str) :=
  let? edition := get_long m "editionNumber" in
  let? year := (if edition =? 1 then
                  let? lce := get_long m "centuryOfReferenceTimeOfData" in
                  let? lye := get_long m "yearOfCentury" in
                  Ok (Some ((lce - 1) * 100 + lye))
                else if edition =? 2 then get_long m "year" else Ok None) in
  let? month := get_long m "month" in
  let? day := get_long m "day" in
  let? hour := get_long m "hour" in
  let? min := get_long m "minute" in
  let? sec := get_long m "second" in
  Ok (Some (firstn 19 (zpad 4 year ++ [45] ++ zpad 2 month ++ [45] ++ zpad 2 day ++ [32] ++ zpad 2 hour ++ [58] ++ zpad 2 min ++ [58] ++ zpad 2 sec))).
(** utils.h:383-413. Numbers that do not fit an int are undefined. *)
Definition setTime (m : M) (buf : str) : outcome (option M) :=
  let? edition := get_long m "editionNumber" in
  match scan_free buf with
  | Some [year; month; day; hour; minute; second] =>
      if negb (forallb int_fits [year; month; day; hour; minute; second]) then UB
      else
        let? m := (if edition =? 1 then
                     let? m := set_long m "centuryOfReferenceTimeOfData" (Z.quot year 100 + 1) in
                     set_long m "yearOfCentury" (Z.rem year 100)
                   else if edition =? 2 then set_long m "year" year else Ok None) in
        let? m := set_long m "month" month in
        let? m := set_long m "day" day in
        let? m := set_long m "hour" hour in
        let? m := set_long m "minute" minute in
        set_long_unchecked m "second" second
  | _ => Ok None
  end.

(** ** Reading *)
(** facts.cpp:16-30 and 527-535 *)
Definition defaultScaledMissing (ch : Z) : num :=
  if (0 <=? ch) && (ch <? 13) then Some (if ch =? 1 then (-102691 / 100000)%R else if ch =? 12 then (-163196 / 100000)%R else 0%R) else None.
Record gds := mk_gds { gd_msg : M; gd_xs : Z; gd_ys : Z; gd_time : str; gd_sat : Z; gd_lon : R; gd_chan : Z; gd_missing : num }.
(** grib.cpp:149-188: the channel of the band. *)
Definition band_channel (m : M) (sat : Z) : outcome (option Z) :=
  let? c := get_long_ifexists m "channelNumber" in
  match c with
  | Some ch => Ok (Some ch)
  | None =>
      let? c := get_long_ifexists m "level" in
      match c with
      | Some ch => Ok (Some ch)
      | None =>
          let? scale := get_long m "scaleFactorOfCentralWaveNumber" in
          let? val := get_long m "scaledValueOfCentralWaveNumber" in
          let! ch := channel_from_central_wave_number sat (inject_Z val * Qpower 10 (- scale))%Q in
          Ok (Some ch)
      end
  end.
(** grib.cpp:90-126 *)
Definition init (m : M) : outcome (option gds) :=
  let? xs := get_long m "numberOfPointsAlongXAxis" in
  let? ys := get_long m "numberOfPointsAlongYAxis" in
  let? time := formatTime m in
  let? sat := get_long_oneof m ["satelliteNumber"; "satelliteIdentifier"; "indicatorOfTypeOfLevel"] in
  let? lop := get_double_oneof m ["longitudeOfSubSatellitePointInDegrees"; "geography.lop"] in
  let? ch := band_channel m (to_int sat) in
  let missing := defaultScaledMissing (to_int ch) in
  let? m' := set_double m "missingValue" missing in
  Ok (Some (mk_gds m' (to_int xs) (to_int ys) time (to_int sat) lop ch missing)).
(** grib.cpp:128-155: elements 0, 1, 3 and 5 of the geotransform, 2 and 4 are 0. *)
Definition GetGeoTransform (m : M) : outcome (option (R * R * R * R)) :=
  let? co := get_long_oneof m ["xCoordinateOfSubSatellitePoint"; "XpInGridLengths"] in
  let? lo := get_long_oneof m ["yCoordinateOfSubSatellitePoint"; "YpInGridLengths"] in
  let? x0 := get_long_oneof m ["Xo"; "geography.xo"] in
  let? y0 := get_long_oneof m ["Yo"; "geography.yo"] in
  let? dx := get_long m "geography.dx" in
  let! psx := pixelHSizeFromSeviriDX (to_int dx) in
  let? dy := get_long m "geography.dy" in
  let! psy := pixelHSizeFromSeviriDX (to_int dy) in
  Ok (Some (- (IZR (co - x0)) * psx, psx, IZR (lo - y0) * psy, - psy)%R).
(** grib.cpp:60-76. grib_get_double_array refuses a buffer that is too small; this
    exception is not caught. *)
Definition IReadBlock (d : gds) (x y : Z) : outcome (option (list num)) :=
  if negb ((x =? 0) && (y =? 0)) then Ok None
  else if negb (int_fits (gd_xs d * gd_ys d)) then UB
  else let n := gd_xs d * gd_ys d in
       traced tr (match g_values L (gd_msg d) with
                  | Got l => if n <? Z.of_nat (List.length l) then Throw
                             else if Z.of_nat (List.length l) =? n then Ok (Some l) else Ok None
                  | _ => Throw
                  end).

(** ** Writing *)
Record gsrc := mk_gsrc {
  src_srs : option (bool * R * R);   (** has a PROJECTION; satellite height, central meridian; None: no reference system *)
  src_xs : Z; src_ys : Z;
  src_gt : R * R * R * R * R * R;
  src_time : option str;
  src_sat : option str;
  src_band : option (option str * num * num * num * option (list num))   (** band 1: channel, no data value, offset, scale, the values *)
}.
(** The calls of one section, in order. *)
Inductive act :=
  | AL (k : string) (v : Z)       (** set_long *)
  | AOne (k : string) (v : Z)     (** set_long_oneof *)
  | AD (k : string) (v : num)     (** set_double *)
  | ATime (s : str)               (** setTime *)
  | AV (v : list num)             (** set_double_array "values" *)
  | AFail                         (** return false *)
  | AThrow                        (** an exception that is not griberror *)
  | AUB.
Fixpoint run (l : list act) (m : M) : outcome (option M) :=
  match l with
  | [] => Ok (Some m)
  | a :: l' =>
      let? m := (match a with
                 | AL k v => set_long m k v
                 | AOne k v => set_long_oneof m k v
                 | AD k v => set_double m k v
                 | ATime s => setTime m s
                 | AV v => set_double_array m v
                 | AFail => Ok None
                 | AThrow => Throw
                 | AUB => UB
                 end) in
      run l' m
  end.
Definition with_int (z : outcome Z) (f : Z -> list act) : list act := match z with Ok z => f z | _ => [AUB] end.
(** nearbyint, and the conversion to int. *)
Definition near_int (x : R) : outcome Z := let z := ZnearestE x in if int_fits z then Ok z else UB.

(** grib.cpp:329-344: scaled values, number of missing ones and their value. *)
Definition scale_values (vals : list num) (missing scale offset : num) : list num * Z * num :=
  let gm := scaled missing scale offset in
  (map (fun v => if num_eq v missing then gm else scaled v scale offset) vals,
   Z.of_nat (List.length (filter (fun v => num_eq v missing) vals)), gm).
(** grib.cpp:425-473 and 695-745: the geometry; the offsets of the sub-satellite
    point, or None when refused. *)
Definition far (a b : R) : bool := if Rlt_dec (1 / 10000) (Rabs (a - b)) then true else false.
Definition nonzero (x : R) : bool := if Req_EM_T x 0 then false else true.
Definition grid_offset (gt : R * R * R * R * R * R) : option Z :=
  let '(g0, g1, g2, g3, g4, g5) := gt in
  if nonzero g2 then None
  else if nonzero g4 then None
  else if far g1 PIXELSIZE_HRV then
    if far g1 PIXELSIZE then None else if far g5 (- PIXELSIZE) then None else Some 1856
  else if far g5 (- PIXELSIZE_HRV) then None else Some 5568.
Definition strtol_md (s : str) : Z := to_signed 64 (fst (strtoul s)).

(** grib.cpp:396-418, GRIB2 *)
Definition ident2 (s : gsrc) : list act :=
  [AL "centre" 98; AL "subCentre" 0; AL "tablesVersion" 4; AL "localTablesVersion" 0; AL "significanceOfReferenceTime" 3] ++
  (match src_time s with Some t => [ATime t] | None => [] end) ++
  [AL "productionStatusOfProcessedData" 0; AL "typeOfProcessedData" 0].
(** grib.cpp:420-524 *)
Definition grid2 (s : gsrc) (nvals : Z) (lon : R) : list act :=
  match grid_offset (src_gt s) with
  | None => [AFail]
  | Some off =>
      let '(g0, g1, g2, g3, g4, g5) := src_gt s in
      [AL "sourceOfGridDefinition" 0; AL "numberOfDataPoints" nvals; AL "interpretationOfNumberOfPoints" 0;
       AL "gridDefinitionTemplateNumber" 90; AL "shapeOfTheEarth" 2;
       AL "numberOfPointsAlongXAxis" (src_xs s); AL "numberOfPointsAlongYAxis" (src_ys s);
       AD "latitudeOfSubSatellitePointInDegrees" (Some 0%R); AD "longitudeOfSubSatellitePointInDegrees" (Some lon)] ++
      with_int (seviriDXFromPixelHSize g1) (fun dx => with_int (seviriDXFromPixelHSize (- g5)) (fun dy =>
      [AL "geography.dx" dx; AL "geography.dy" dy] ++
      with_int (near_int (IZR off + g0 / g1)) (fun x0 => with_int (near_int (IZR off - g3 / - g5)) (fun y0 =>
      [AOne "geography.xo" x0; AOne "geography.yo" y0; AL "geography.dx" dx; AL "geography.dy" dy;
       AL "xCoordinateOfSubSatellitePoint" off; AL "yCoordinateOfSubSatellitePoint" off;
       AL "scanningMode" 0; AL "orientationOfTheGridInDegrees" 180; AL "Nr" 6610708; AL "Xo" x0; AL "Yo" y0]))))
  end.
(** grib.cpp:526-584 *)
Definition product2 (s : gsrc) (chan : option str) : list act :=
  [AL "productDefinitionTemplateNumber" 31; AL "parameterCategory" 0; AL "parameterNumber" 0; AL "typeOfGeneratingProcess" 0;
   AL "generatingProcessIdentifier" 254; AL "NB" 1] ++
  (match src_sat s with
   | Some t =>
       let sat := strtol_md t in
       [AL "satelliteSeries" 333; AL "satelliteNumber" sat; AL "instrumentType" 207] ++
       (match chan with
        | Some c => AL "scaleFactorOfCentralWaveNumber" 0 ::
                    match channel_central_wave_number (to_int sat) (to_int (strtol_md c)) with
                    | Ok q => [AL "scaledValueOfCentralWaveNumber" (Qround q)]
                    | _ => [AThrow]
                    end
        | None => []
        end)
   | None => []
   end).
(** grib.cpp:586-597, 348-380 *)
Definition bitmap (count : Z) (gm : num) : list act :=
  if count =? 0 then [AL "bitmapPresent" 0] else [AL "bitmapPresent" 1; AD "missingValue" gm].
Definition data (count : Z) (vals : list num) : list act := if count =? Z.of_nat (List.length vals) then [AFail] else [AV vals].
(** grib.cpp:629-670, GRIB1 *)
Definition ident1 (s : gsrc) (chan : option str) : list act :=
  [AL "centre" 98; AL "generatingProcessIdentifier" 254; AL "gridDefinition" 255; AL "indicatorOfParameter" 127] ++
  (match src_sat s with Some t => [AL "indicatorOfTypeOfLevel" (strtol_md t)] | None => [] end) ++
  (match chan with Some c => [AL "level" (strtol_md c)] | None => [] end) ++
  (match src_time s with Some t => [ATime t] | None => [] end) ++
  [AL "indicatorOfUnitOfTimeRange" 0; AL "timeRangeIndicator" 0; AL "numberIncludedInAverage" 0;
   AL "numberMissingFromAveragesOrAccumulations" 0; AL "subCentre" 0].
(** grib.cpp:798-822, the ECMWF template after the sets of GRIB1. *)
Definition ident_ecmwf (s : gsrc) (chan : option str) : list act :=
  ident1 s chan ++ [AL "localDefinitionNumber" 24] ++
  (match src_sat s with Some t => [AL "satelliteIdentifier" (strtol_md t); AL "instrumentIdentifier" 207] | None => [] end) ++
  (match chan with Some c => [AL "channelNumber" (strtol_md c)] | None => [] end) ++
  [AL "functionCode" 1].
(** grib.cpp:672-775 *)
Definition grid1 (s : gsrc) (lon : R) : list act :=
  match grid_offset (src_gt s) with
  | None => [AFail]
  | Some off =>
      let '(g0, g1, g2, g3, g4, g5) := src_gt s in
      [AL "numberOfVerticalCoordinateValues" 0; AL "pvlLocation" 255; AL "dataRepresentationType" 90;
       AL "numberOfPointsAlongXAxis" (src_xs s); AL "numberOfPointsAlongYAxis" (src_ys s);
       AD "latitudeOfSubSatellitePointInDegrees" (Some 0%R); AD "longitudeOfSubSatellitePointInDegrees" (Some lon);
       AL "resolutionAndComponentFlags" 64] ++
      with_int (seviriDXFromPixelHSize g1) (fun dx => with_int (seviriDXFromPixelHSize (- g5)) (fun dy =>
      [AL "geography.dx" dx; AL "geography.dy" dy; AL "XpInGridLengths" off; AL "YpInGridLengths" off;
       AL "scanningMode" 0; AL "orientationOfTheGridInDegrees" 180; AL "altitude" 6610708] ++
      with_int (near_int (IZR off + g0 / g1)) (fun x0 => with_int (near_int (IZR off - g3 / - g5)) (fun y0 =>
      [AL "Xo" x0; AL "Yo" y0]))))
  end.

Inductive template := WMO | ECMWF | MSAT.
Definition sample_of (t : template) : string := match t with WMO => "GRIB2" | _ => "GRIB1" end.
(** grib.cpp:303-346 and the three create(): the message, when there is one. A
    source without a reference system or without bands is dereferenced. *)
Definition create (t : template) (s : gsrc) : outcome (option M) :=
  match src_srs s, src_band s with
  | None, _ => UB
  | Some (proj, height, lon), band =>
      traced tr (
        if negb proj then Ok None
        else if nonzero (height - 35785831) then Ok None
        else match band with
             | None => UB
             | Some (_, _, _, _, None) => Ok None
             | Some (chan, missing, offset, scale, Some vals) =>
                 let '(vals', count, gm) := scale_values vals missing scale offset in
                 match sample L (sample_of t) with
                 | None => UB
                 | Some m =>
                     run (match t with
                          | WMO => [AL "discipline" 3] ++ ident2 s ++ grid2 s (Z.of_nat (List.length vals)) lon ++ product2 s chan ++
                                   [AL "numberOfValues" (src_xs s * src_ys s - count); AL "dataRepresentationTemplateNumber" 0]
                          | ECMWF => ident_ecmwf s chan ++ grid1 s lon
                          | MSAT => ident1 s chan ++ grid1 s lon
                          end ++ bitmap count gm ++ data count vals') m
                 end
             end)
  end.

(** ** The file *)
(** utils.h:313-345: what the file holds after write(). *)
Inductive wres := Written | NotEncoded | NotOpened | Short (rest : option M).
Definition after_write (old : option M) (m : M) (w : wres) : option M :=
  match w with Written => Some m | NotEncoded | NotOpened => old | Short rest => rest end.
(** grib.cpp:190-223, as far as the header: pabyHeader is read up to its first
    NUL. *)
Fixpoint prefix (p s : str) : bool :=
  match p, s with [], _ => true | c :: p', d :: s' => (c =? d) && prefix p' s' | _, _ => false end.
Fixpoint find_text (p s : str) : bool := prefix p s || match s with [] => false | _ :: s' => find_text p s' end.
Definition recognised (header : list Z) : bool := (4 <=? Z.of_nat (List.length header)) && find_text (codes "GRIB") (match upto_nul header with Some t => t | None => header end).
(** grib.cpp:190-223: [file] is what grib_api makes of the file, None when it
    refuses it. The other drivers of the library, which may accept the file, are not
    modelled. *)
Definition GRIBOpen (file : option M) : outcome (option gds) :=
  traced tr (match file with None => Ok None | Some m => init m end).
(** grib.cpp:834-868: the result of write() is not used. [templ] is the option. *)
Definition template_of (templ : option str) : option template :=
  match templ with
  | None => Some WMO
  | Some t => if str_eqb t (codes "msat/wmo") then Some WMO
              else if str_eqb t (codes "msat/ecmwf") then Some ECMWF
              else if str_eqb t (codes "msat/msat") then Some MSAT else None
  end.
Definition GRIBCreateCopy (old : option M) (w : wres) (templ : option str) (s : gsrc) : outcome (option gds) :=
  match template_of templ with
  | None => Ok None
  | Some t =>
      let? m := create t s in
      GRIBOpen (after_write old m w)
  end.
End Lib.
