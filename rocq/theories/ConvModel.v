(** tools/hrit/XRIT2NetCDF.cpp: HRIT/LRIT products converted to NetCDF, and the
    picture of tools/hrit/XRIT2Image.cpp, with
    msat/hrit/MSG_channel.cpp and msat/hrit/MSG_spacecraft.cpp, which name what is in
    them.

    Input is what read_from() of headers and data fields gave for the files that
    glob(3) found, in its order, and the start of the repeat cycle that the prologue
    has, in seconds. Options and patterns of file names are in
    XritCmdModel.v. Not modelled: the values of the
    calibration table (CalibModel.v), messages, attributes that do not come back,
    memory that cannot be had, sub-satellite longitudes of a million degrees. *)
From Coq Require Import ZArith Reals String List.
From Verif Require Import Base IniModel MachineModel HeaderModel GeoModel GribModel NcModel MsgModel.
Import ListNotations.
Open Scope string_scope.
Open Scope list_scope.
Open Scope Z_scope.

(** ** Names *)
Fixpoint named_in (l : list (Z * string)) (d : string) (k : Z) : string :=
  match l with [] => d | (k', s) :: l' => if k =? k' then s else named_in l' d k end.
(** MSG_spacecraft.cpp:32-137, MSG_spacecraft.h:35-70 *)
Definition MSG_spacecraft_name (id : Z) : str :=
  codes (named_in
    [(0, "Non Spacecraft"); (11, "METOP1"); (12, "METOP2"); (13, "METOP3"); (16, "METEOSAT3"); (19, "METEOSAT4"); (20, "METEOSAT5"); (21, "METEOSAT6");
     (150, "MTP1"); (151, "MTP2"); (321, "MSG1"); (322, "MSG2"); (323, "MSG3"); (324, "MSG4"); (17012, "NOAA12"); (17013, "NOAA13"); (17014, "NOAA14"); (17015, "NOAA15");
     (18007, "GOES7"); (18008, "GOES8"); (18009, "GOES9"); (18010, "GOES10"); (18011, "GOES11"); (18012, "GOES12"); (19001, "GOMS1"); (19002, "GOMS2"); (19003, "GOMS3");
     (20004, "GMS4"); (20005, "GMS5"); (20006, "GMS6"); (21001, "MTSAT1"); (21002, "MTSAT2")] "Unknown" id).
(** MSG_channel.cpp:32-209, MSG_channel.h:37-90 *)
Definition MSG_channel_name (spc ch : Z) : str :=
  let one_of l := existsb (Z.eqb spc) l in
  if one_of [321; 322; 323; 324] then
    (if ch =? 0 then codes "Image data, no"
     else codes "MSG Seviri 1.5 " ++ codes (named_in
       [(1, "Visible 0.6"); (2, "Visible 0.8"); (3, "Infrared 1.6"); (4, "Infrared 3.9"); (5, "Water Vapour 6.2"); (6, "Water Vapour 7.3"); (7, "Infrared 8.7"); (8, "Infrared 9.7");
        (9, "Infrared 10.8"); (10, "Infrared 12.0"); (11, "Infrared 13.4"); (12, "HRV")] "unknown" ch)) ++ codes " channel"
  else if one_of [18007; 18008; 18009; 18010; 18011; 18012] then
    codes "GOES " ++ codes (named_in [(1, "Visible"); (2, "Infrared 3.9"); (3, "Water Vapour 6.8"); (4, "Infrared 10.7"); (5, "Infrared 12.0")] "unknown" ch) ++ codes " channel"
  else if one_of [20004; 20005; 20006; 21001; 21002] then
    codes "GMS/MTSAT " ++ codes (named_in [(1, "Visible"); (2, "Infrared 3.8"); (3, "Water Vapour 6.7"); (4, "Infrared 10.8"); (5, "Infrared 12.0")] "unknown" ch) ++ codes " channel"
  else if one_of [19001; 19002; 19003] then
    codes "GOMS " ++ codes (named_in [(1, "Visible"); (2, "Water Vapour"); (3, "Infrared")] "unknown" ch) ++ codes " channel"
  else if one_of [11; 12; 13; 17012; 17013; 17014; 17015] then
    codes "Polar orbiter single or composite " ++ codes (named_in [(1, "Visible 0.6"); (2, "Visible 0.8"); (3, "Near Infrared 1.6"); (4, "Infrared 3.8"); (5, "Infrared 10.8"); (6, "Infrared 12.0")] "unknown" ch) ++ codes " channel"
  else codes "No channel information".
(** XRIT2NetCDF.cpp:274-281 *)
Definition chname (s : str) : str := map (fun c => if (c =? 32) || (c =? 46) then 95 else c) s.

(** ** The image *)
Section Convert.
Variable h : host.
(** XRIT2NetCDF.cpp:238-245. The array has the data fields themselves in place of
    their numbers. A later file with the number of an earlier one replaces it; a
    number outside of the array is written there. *)
Fixpoint index_segments (idx : list (option mdata)) (files : list (header * mdata)) : outcome (list (option mdata)) :=
  match files with
  | [] => Ok idx
  | (hd, d) :: files' =>
      match h_seg hd with
      | None => UB
      | Some s =>
          let k := si_seq s - 1 in
          if (k <? 0) || (Z.of_nat (List.length idx) <=? k) then UB
          else index_segments (set_nth idx (Z.to_nat k) (Some d)) files'
      end
  end.
(** memcpy of [n] samples from number [i]. *)
Fixpoint read_samples (im : image) (i n : nat) : outcome (list Z) :=
  match n with
  | O => Ok []
  | S n' => let! v := sample h im i in let! r := read_samples im (S i) n' in Ok (v :: r)
  end.
(** XRIT2NetCDF.cpp:328-335 *)
Fixpoint gather (per : nat) (idx : list (option mdata)) : outcome (list Z) :=
  match idx with
  | [] => Ok []
  | o :: idx' =>
      let! part := (match o with
                    | None => Ok (repeat 0 per)
                    | Some d => match m_image d with None => UB | Some im => read_samples im 0 per end
                    end) in
      let! rest := gather per idx' in
      Ok (part ++ rest)
  end.
(** XRIT2NetCDF.cpp:231-249 and 319-337: columns, lines and samples; [None] for a
    product that is not an image. The products of int are undefined when they do not
    fit. *)
Definition assemble (files : list (header * mdata)) : outcome (option (Z * Z * list Z)) :=
  match files with
  | [] => Ok None
  | (hd, _) :: _ =>
      match h_seg hd with
      | None => UB
      | Some s =>
          if si_format s =? 0 then Ok None
          else
            let total := si_last s in
            let! idx := index_segments (repeat None (Z.to_nat total)) files in
            match h_image hd with
            | None => UB
            | Some i =>
                let npix := is_cols i in
                let nlin := is_lines i in
                if negb (int_fits (npix * nlin) && int_fits (nlin * total)) then UB
                else
                  let! px := gather (Z.to_nat (npix * nlin)) idx in
                  Ok (Some (npix, nlin * total, px))
            end
      end
  end.

(** XRIT2Image.cpp:166-232, the same code up to the picture: rows of intensities of 16
    bits, turned by 180 degrees. The steps of Magick on request (normalize, overlay,
    scale) and the file are not modelled. *)
Definition picture (files : list (header * mdata)) : outcome (option (Z * Z * list Z)) :=
  let! a := assemble files in
  match a with
  | None => Ok None
  | Some (npix, nlin, px) => Ok (Some (npix, nlin, rev px))
  end.

(** ** Part of the image, XRIT2NetCDF.cpp:340-375 *)
(** memcpy of [n] rows from number [lin]. *)
Fixpoint cut_rows (npix lin pix an : Z) (px : list Z) (n : nat) : outcome (list Z) :=
  match n with
  | O => Ok []
  | S n' =>
      if negb (int_fits (lin * npix + pix)) then UB
      else
        let! row := bytes_at px (Z.to_nat (lin * npix + pix)) (Z.to_nat an) in
        let! rest := cut_rows npix (lin + 1) pix an px n' in
        Ok (row ++ rest)
  end.
(** Lines 343-345 and 350-352: whether the range is refused. *)
Definition wrong_range (start n size : Z) : outcome bool :=
  if start <? 0 then Ok true
  else if negb (int_fits (size - n)) then UB
  else Ok ((size - n <? start) || (size - start <? n)).
(** The four numbers of option -a: first line, lines, first pixel, pixels; the first
    ones have been decremented in lines 118-119. A bare throw outside of a handler
    ends the program, as does a negative number of elements for new. The result is
    the first pixel, first line, pixels, lines and samples; without the option the
    starts are 1 (line 58). *)
Definition subarea (npix nlin : Z) (px : list Z) (area : option (Z * Z * Z * Z)) : outcome (Z * Z * Z * Z * list Z) :=
  match area with
  | None => Ok (1, 1, npix, nlin, px)
  | Some (lin1, alin, pix1, apix) =>
      let lin := lin1 - 1 in
      let pix := pix1 - 1 in
      if negb (int_fits lin && int_fits pix) then UB
      else
        let! w := wrong_range lin alin nlin in
        if w : bool then Terminate
        else
          let! w := wrong_range pix apix npix in
          if w : bool then Terminate
          else if negb (int_fits (apix * alin)) then UB
          else if apix * alin <? 0 then Terminate
          else
            let! cut := cut_rows npix lin pix apix px (Z.to_nat alin) in
            Ok (pix, lin, apix, alin, cut)
  end.

(** ** The file, XRIT2NetCDF.cpp:377-485 *)
(** gmtime: year, month, day, hour, minute. *)
Definition tm_of (t : Z) : Z * Z * Z * Z * Z :=
  let '(y, m, d) := civil (t / 86400) in
  let s := t mod 86400 in (y, m, d, s / 3600, s / 60 mod 60).
(** Lines 393-396; years of the stamps have four digits. *)
Definition nc_name (channel : str) (t : Z) : str :=
  let '(y, m, d, hr, mi) := tm_of t in
  channel ++ [95] ++ print y ++ zpad 2 m ++ zpad 2 d ++ [95] ++ zpad 2 hr ++ zpad 2 mi ++ codes ".nc".
(** Lines 405-407 *)
Definition nc_time (t : Z) : str :=
  let '(y, m, d, hr, mi) := tm_of t in
  zpad 4 y ++ [45] ++ zpad 2 m ++ [45] ++ zpad 2 d ++ [32] ++ zpad 2 hr ++ [58] ++ zpad 2 mi ++ codes ":00 UTC".
(** A prologue that was not decoded, a record that the header does not have and a
    dimension of no elements are null pointers. A name with a slash is that of a
    file in a directory which is not there. The table of calibrations has 12
    channels, its size is 2 to the bits per pixel in an int. *)
Definition product (files : list (header * mdata)) (start : option Z) (lon : num) (area : option (Z * Z * Z * Z)) : outcome (option (str * ncfile)) :=
  let! a := assemble files in
  match a, files with
  | Some (npix, nlin, px), (hd, _) :: _ =>
      let! (x0, y0, wd, hg, px) := subarea npix nlin px area in
      match start, h_seg hd, h_image hd, h_navig hd with
      | Some t, Some s, Some i, Some n =>
          let chn := si_channel s in
          let channel := chname (MSG_channel_name (si_spacecraft s) chn) in
          if existsb (Z.eqb 47) channel then Terminate
          else if (wd <=? 0) || (hg <=? 0) then UB
          else if 31 <=? is_bpp i then UB
          else if (chn <? 1) || (12 <? chn) then UB
          else
            Ok (Some (nc_name channel t,
                      mk_ncfile
                        [("Satellite", AText (MSG_spacecraft_name (si_spacecraft s))); ("Time", AText (nc_time t)); ("Columns", AInt wd); ("Lines", AInt hg);
                         ("SampleX", ADouble (Some 1%R)); ("SampleY", ADouble (Some 1%R)); ("AreaStartPix", AInt x0); ("AreaStartLin", AInt y0);
                         ("Column_Scale_Factor", AInt (nv_cfac n)); ("Line_Scale_Factor", AInt (nv_lfac n)); ("Column_Offset", AInt (nv_coff n)); ("Line_Offset", AInt (nv_loff n));
                         ("Longitude", AFloat lon); ("Version", ADouble (Some 0%R))]
                        [mk_ncvar (codes "calibration") NcFloat [2 ^ is_bpp i] [] [];
                         time_var (t - 946684800);
                         mk_ncvar channel NcShort [1; hg; wd] [("add_offset", ADouble (Some 0%R)); ("scale_factor", ADouble (Some 1%R)); ("chnum", AInt chn)] px]))
      | _, _, _, _ => UB
      end
  | _, _ => Ok None
  end.
End Convert.
