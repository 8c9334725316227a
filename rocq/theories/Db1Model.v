(** msat/thornsds_db1/thornsds_db1.cpp and .h: channels of a ThornSDS DB1 directory,
    and tools/thornsds_db1/db1_to_netcdf.cpp.

    Texts have no NUL. The file system answers the same during a call. Allocation
    succeeds. Not modelled: messages; the printing operator is in Db1ListModel. *)
From Coq Require Import Reals.
From Verif Require Import Base MachineModel IniModel ScanModel GeoModel PixModel GribModel NcModel.
Open Scope string_scope.
Open Scope list_scope.
Open Scope Z_scope.

(** What the file system has under a path: a file; something that stat(2) finds and
    fopen(3) refuses; something that opens and cannot be read (a directory). The
    number is st_size. *)
Inductive entry := File (b : list Z) | Closed (size : Z) | Unread (size : Z).
Definition fsys := str -> option entry.
Definition st_size (e : entry) : Z := match e with File b => Z.of_nat (List.length b) | Closed n | Unread n => n end.

(** ** iniparser with a null dictionary, iniparser.c:727-729 *)
Definition getstring (d : option dict) (key : str) (def : str) : outcome (option str) :=
  match d with
  | None => Ok (Some def)
  | Some d => let! r := iniparser_getstring d key in Ok (match r with Absent => Some def | Found v => v end)
  end.
Definition getint (d : option dict) (key : str) (def : Z) : outcome Z :=
  match d with None => Ok def | Some d => iniparser_getint d key def end.
Definition getboolean (d : option dict) (key : str) (def : Z) : outcome Z :=
  match d with None => Ok def | Some d => iniparser_getboolean d key def end.
(** iniparser.c:915-927 with the file system: null when the file cannot be opened. *)
Definition ini_file (fs : fsys) (path : str) : outcome (option dict) :=
  match fs path with
  | Some (File b) => let! d := iniparser_new b in Ok (Some d)
  | Some (Unread _) => let! d := iniparser_new [] in Ok (Some d)
  | _ => Ok None
  end.
(** sprintf into an array of PATH_MAX characters. *)
Definition path_of (dir ch ext : str) : outcome str :=
  let p := dir ++ [47] ++ ch ++ ext in if (List.length p <=? 4095)%nat then Ok p else UB.
(** snprintf into the same: cut. *)
Definition path_cut (dir name : str) : str := firstn 4095 (dir ++ [47] ++ name).
(** snprintf into infochuse, INFOCHLEN 32. *)
Definition cut (s : str) : str := firstn 31 s.
(** %d *)
Definition printd (z : Z) : str := if z <? 0 then 45 :: print (- z) else print z.
(** strncmp(a, b, CHLEN) == 0 *)
Definition same6 (a b : str) : bool := str_eqb (firstn 6 a) (firstn 6 b).

Section Db1.
(** Floats of the calibration tables: what atof makes of a text, cut to float. *)
Variable flt : Type.
Variable zero : flt.
Variable atof : str -> flt.
Definition getdouble (d : option dict) (key : str) (def : flt) : outcome flt :=
  match d with
  | None => Ok def
  | Some d => let! r := iniparser_getstring d key in
              match r with Absent => Ok def | Found None => UB | Found (Some v) => Ok (atof v) end
  end.

(** thornsds_db1.h:109-118. [x_size] is chfstat.st_size, None before any stat;
    [x_leaks] counts the pointers overwritten while they own memory and the FILE not
    closed. *)
Record db1 := mk_db1 {
  x_dir : option str; x_aoi : option dict; x_info : option dict; x_cal : option dict;
  x_chnum : Z; x_raw : option (list Z); x_ncal : Z; x_cals : option (list flt);
  x_size : option Z; x_leaks : Z }.
(** thornsds_db1.cpp:36-46 *)
Definition fresh : db1 := mk_db1 None None None None 0 None (-1) None None 0.
(** thornsds_db1.cpp:50-60 *)
Definition close (s : db1) : db1 := mk_db1 None None None None 0 None (-1) None (x_size s) (x_leaks s).
Definition owned {A} (o : option A) : Z := match o with Some _ => 1 | None => 0 end.
(** thornsds_db1.cpp:62-75 *)
Definition open (fs : fsys) (s : db1) (directory : str) : outcome db1 :=
  let! aoi := ini_file fs (path_cut directory (codes "AoI")) in
  let! info := ini_file fs (path_cut directory (codes "INFO.DBI")) in
  Ok (mk_db1 (Some directory) aoi info (x_cal s) (x_chnum s) (x_raw s) (x_ncal s) (x_cals s) (x_size s)
             (x_leaks s + owned (x_dir s) + owned (x_aoi s) + owned (x_info s))).
(** thornsds_db1.cpp:77-89: the answer and the object, whose chfstat is written. *)
Definition has_channel (fs : fsys) (s : db1) (ch : str) : outcome (bool * db1) :=
  match x_dir s with
  | None => Ok (false, s)
  | Some d =>
      let! p := path_of d ch (codes ".RAW") in
      match fs p with
      | Some e => Ok (true, mk_db1 (x_dir s) (x_aoi s) (x_info s) (x_cal s) (x_chnum s) (x_raw s) (x_ncal s) (x_cals s) (Some (st_size e)) (x_leaks s))
      | None => Ok (false, s)
      end
  end.
(** thornsds_db1.cpp:158-163 *)
Definition is_data_ok (s : db1) : bool := 0 <? x_chnum s.
(** The texts "Channel%d:..." *)
Definition chkey (n : Z) (k : str) : str := cut (codes "Channel" ++ printd n ++ [58] ++ k).
(** thornsds_db1.cpp:126-139, from [ich] on. strncmp of a null pointer is undefined. *)
Fixpoint find_channel (info : option dict) (chname : str) (left : nat) (ich : Z) : outcome Z :=
  match left with
  | O => Ok 0
  | S left' =>
      let! v := getstring info (chkey ich (codes "Name")) (codes "Undefined") in
      match v with
      | None => UB
      | Some v => if same6 chname v then Ok ich else find_channel info chname left' (ich + 1)
      end
  end.
Definition get_channel_number (info : option dict) (chname : str) : outcome Z := find_channel info chname 12 1.
(** thornsds_db1.cpp:141-156 *)
Definition ch_names : list string :=
  ["VIS006"; "VIS008"; "IR_016"; "IR_039"; "WV_062"; "WV_073"; "IR_087"; "IR_097"; "IR_108"; "IR_120"; "IR_134"; "HRV"].
Fixpoint index6 (l : list string) (ch : str) (i : Z) : Z :=
  match l with [] => 0 | n :: l' => if same6 ch (codes n) then i else index6 l' ch (i + 1) end.
Definition chname_to_chnum (ch : str) : Z := index6 ch_names ch 1.

(** *** Accessors, thornsds_db1.cpp:165-398. A null result is None. *)
Definition need (o : option Z) : outcome Z := match o with Some v => Ok v | None => UB end.
Definition str_of (s : db1) (d : option dict) (key : str) (def : string) : outcome (option str) :=
  if is_data_ok s then getstring d key (codes def) else Ok None.
Definition int_of_key (s : db1) (d : option dict) (key : str) (def bad : Z) : outcome Z :=
  if is_data_ok s then getint d key def else Ok bad.
(** st_size/sizeof(short), converted to the int argument. *)
Definition half_size (s : db1) : outcome Z := let! n := need (x_size s) in Ok (to_int (n / 2)).
Definition sized (s : db1) (d : option dict) (key : string) (bad : Z) : outcome Z :=
  if is_data_ok s then let! def := half_size s in getint d (codes key) def else Ok bad.
Definition get_AoI_npixels (s : db1) : outcome Z := sized s (x_aoi s) ":nPixels" (-1).
Definition get_AoI_nlines (s : db1) : outcome Z := int_of_key s (x_aoi s) (codes ":nLines") 1 (-1).
Definition get_AoI_name (s : db1) := str_of s (x_aoi s) (codes ":Name") "Undefined".
Definition get_AoI_projection (s : db1) := str_of s (x_aoi s) (codes ":Projection") "GRID".
Definition get_AoI_cfac (s : db1) : outcome Z := int_of_key s (x_aoi s) (codes ":CFAC") 0 0.
Definition get_AoI_lfac (s : db1) : outcome Z := int_of_key s (x_aoi s) (codes ":LFAC") 0 0.
Definition get_AoI_coff (s : db1) : outcome Z := int_of_key s (x_aoi s) (codes ":COFF") 0 0.
Definition get_AoI_loff (s : db1) : outcome Z := int_of_key s (x_aoi s) (codes ":LOFF") 0 0.
Definition get_INFO_station_name (s : db1) := str_of s (x_info s) (codes "Station:Name") "Undefined".
Definition get_INFO_satellite_name (s : db1) := str_of s (x_info s) (codes "Satellite:Name") "Undefined".
Definition get_INFO_schedule_start (s : db1) := str_of s (x_info s) (codes "Schedule:Start") "01/01/2000 00:00:00.000".
Definition get_INFO_schedule_northsouth (s : db1) : outcome Z :=
  if is_data_ok s then getboolean (x_info s) (codes "Schedule:NorthSouth") 0 else Ok 0.
Definition get_INFO_image_pixels (s : db1) : outcome Z := sized s (x_info s) "Image:Pixels" 0.
Definition get_INFO_image_lines (s : db1) : outcome Z := int_of_key s (x_info s) (codes "Image:Lines") 1 0.
Definition get_INFO_image_bitsperpixel (s : db1) : outcome Z := int_of_key s (x_info s) (codes "Image:BitsPerPixel") 10 0.
Definition get_channel_INFO_name (s : db1) := str_of s (x_info s) (chkey (x_chnum s) (codes "Name")) "Undefined".
Definition get_channel_INFO_variable (s : db1) := str_of s (x_info s) (chkey (x_chnum s) (codes "Variable")) "Undefined".
Definition get_channel_INFO_units (s : db1) := str_of s (x_info s) (chkey (x_chnum s) (codes "Units")) "Undefined".
(** thornsds_db1.cpp:346-359 *)
Definition get_channel_INFO_variable_code (s : db1) : outcome (option str) :=
  if is_data_ok s then
    let! v := get_channel_INFO_variable s in
    let! n := get_channel_INFO_name s in
    match n, v with
    | Some n, Some v =>
        let ich := chname_to_chnum n in
        let c := nth 0 v 0 in
        Ok (Some (codes (if c =? 84 then "T" else if c =? 82 then if ich <=? 3 then "V" else "N" else "U")))
    | _, _ => UB
    end
  else Ok None.
(** thornsds_db1.cpp:413-420. No count makes the test of the second line true. *)
Definition value_calibrated (s : db1) (count : Z) : outcome flt :=
  if negb (is_data_ok s) then Ok zero
  else if (count <? 0) && (x_ncal s <=? count) then Ok zero
  else
    let! v := get_channel_INFO_variable s in
    let! c := get_channel_INFO_variable_code s in
    match v, c with
    | Some v, Some c => getdouble (x_cal s) (cut (v ++ [58] ++ c ++ [40] ++ printd count ++ [41])) zero
    | _, _ => UB
    end.
Fixpoint all_of {A B} (f : A -> outcome B) (l : list A) : outcome (list B) :=
  match l with [] => Ok [] | a :: l' => let! b := f a in let! r := all_of f l' in Ok (b :: r) end.
(** (int) pow(2.0, bits) *)
Definition table_size (bits : Z) : outcome Z := if 31 <=? bits then UB else Ok (if bits <? 0 then 0 else 2 ^ bits).
(** thornsds_db1.cpp:91-124. Nothing stops after a channel that is not there; "%s"
    of a null directory is undefined. *)
Definition set_channel (fs : fsys) (s : db1) (chname : str) : outcome db1 :=
  let! (_, s) := has_channel fs s chname in
  match x_dir s with
  | None => UB
  | Some d =>
      let! cp := path_of d chname (codes ".Calibration") in
      let! cal := ini_file fs cp in
      let s := mk_db1 (x_dir s) (x_aoi s) (x_info s) cal (x_chnum s) (x_raw s) (x_ncal s) (x_cals s) (x_size s) (x_leaks s + owned (x_cal s)) in
      let! p := path_of d chname (codes ".RAW") in
      match fs p with
      | None | Some (Closed _) => Ok s
      | Some e =>
          let! size := need (x_size s) in
          let leaks := x_leaks s + owned (x_raw s) in
          match e with
          | File (b :: r) =>
              let! n := get_channel_number (x_info s) chname in
              let s := mk_db1 (x_dir s) (x_aoi s) (x_info s) (x_cal s) n (Some (b :: r)) (x_ncal s) (x_cals s) (x_size s) leaks in
              let! bits := get_INFO_image_bitsperpixel s in
              let! ncal := table_size bits in
              let s := mk_db1 (x_dir s) (x_aoi s) (x_info s) (x_cal s) n (x_raw s) ncal (x_cals s) (x_size s) leaks in
              let! t := all_of (fun i => value_calibrated s (Z.of_nat i)) (seq 0 (Z.to_nat ncal)) in
              Ok (mk_db1 (x_dir s) (x_aoi s) (x_info s) (x_cal s) n (x_raw s) ncal (Some t) (x_size s) (leaks + owned (x_cals s)))
          | _ => (* fread gives 0: the array stays as it is and the file open *)
              Ok (mk_db1 (x_dir s) (x_aoi s) (x_info s) (x_cal s) (x_chnum s) (Some (repeat 0 (Z.to_nat size))) (x_ncal s) (x_cals s) (x_size s) (leaks + 1))
          end
      end
  end.
(** thornsds_db1.cpp:422-450 *)
Definition get_RAW_data (s : db1) : option (list Z) := if is_data_ok s then x_raw s else None.
Definition get_calibration (s : db1) : option (list flt) := if is_data_ok s then x_cals s else None.
Definition get_number_of_calibration (s : db1) : Z := if is_data_ok s then x_ncal s else 0.
Definition get_raw_data_size (s : db1) : outcome Z := if is_data_ok s then let! n := need (x_size s) in Ok (to_int n) else Ok 0.
Definition get_raw_data_nvals (s : db1) : outcome Z := if is_data_ok s then half_size s else Ok 0.

(** ** tools/thornsds_db1/db1_to_netcdf.cpp *)
Variable h : host.
(** Names the library takes for a variable. *)
Variable valid : str -> bool.
(** Seconds since 2000 as mktime counts them: tm_isdst is not set, so the value
    depends on more than the date. *)
Variable clock : list Z -> Z.
Definition text_of (v : option str) : outcome str := match v with Some v => Ok v | None => UB end.
(** db1_to_netcdf.cpp:68-77. %s of a null name is undefined. *)
Definition tidy (c : Z) : Z := if c =? 47 then 45 else if c =? 32 then 95 else if c =? 58 then 45 else c.
Definition out_name (sat name start : str) : str := map tidy (firstn 4095 (sat ++ [95] ++ name ++ [95] ++ start ++ codes ".nc")).
(** "%02d/%02d/%04d %02d:%02d:%02d.000" *)
Definition start_format : list (nat * option Z) := [(2%nat, Some 47); (2%nat, Some 47); (4%nat, Some 32); (2%nat, Some 58); (2%nat, Some 58); (2%nat, None)].
(** The samples in memory, as bit patterns of 16 bits. *)
Fixpoint shorts (n : nat) (b : list Z) : list Z := match n with O => [] | S n' => load_u h (firstn 2 b) :: shorts n' (skipn 2 b) end.
(** db1_to_netcdf.cpp:34-193: None is the exit with an error. The result of sscanf is
    not looked at. A null NcDim or NcVar is used. The calibration variable holds
    floats, which are not modelled here: it is empty. Attributes that the driver does
    not read are left out. *)
Definition db1_to_netcdf (fs : fsys) (dir ch : str) : outcome (option (str * ncfile)) :=
  let! s := open fs fresh dir in
  let! (there, s) := has_channel fs s ch in
  if negb there then Ok None
  else
    let! s := set_channel fs s ch in
    if negb (is_data_ok s) then Ok None
    else
      let! sat := get_INFO_satellite_name s in let! sat := text_of sat in
      let! name := get_channel_INFO_name s in let! name := text_of name in
      let! start := get_INFO_schedule_start s in let! start := text_of start in
      let! wd := get_INFO_image_pixels s in
      let! hg := get_INFO_image_lines s in
      let ncal := get_number_of_calibration s in
      let! cfac := get_AoI_cfac s in
      let! lfac := get_AoI_lfac s in
      let! loff := get_AoI_coff s in
      let! coff := get_AoI_loff s in
      match scan_fields start_format start with
      | Some [day; month; year; hour; minute; second] =>
          let reftime := zpad 4 year ++ [45] ++ zpad 2 month ++ [45] ++ zpad 2 day ++ [32] ++ zpad 2 hour ++ [58] ++ zpad 2 minute ++ [58] ++ zpad 2 second ++ codes " UTC" in
          let! station := get_INFO_station_name s in let! _ := text_of station in
          let! area := get_AoI_name s in let! _ := text_of area in
          let! proj := get_AoI_projection s in let! _ := text_of proj in
          let! _ := get_INFO_schedule_northsouth s in
          if (hg <=? 0) || (wd <=? 0) || (ncal <=? 0) then UB
          else
            let! var := get_channel_INFO_variable s in let! _ := text_of var in
            let! units := get_channel_INFO_units s in let! _ := text_of units in
            if negb (valid name) || str_eqb name (codes "calibration") || str_eqb name (codes "time") then UB
            else match get_RAW_data s with
                 | None => UB
                 | Some raw =>
                     if Z.of_nat (List.length raw) <? 2 * (hg * wd) then UB
                     else
                       Ok (Some (out_name sat name start,
                         mk_ncfile
                           [("Satellite", AText sat); ("Time", AText reftime); ("Columns", AInt wd); ("Lines", AInt hg);
                            ("SampleX", ADouble (Some 1%R)); ("SampleY", ADouble (Some 1%R)); ("AreaStartPix", AInt 1); ("AreaStartLin", AInt 1);
                            ("Column_Scale_Factor", AInt cfac); ("Line_Scale_Factor", AInt lfac); ("Column_Offset", AInt coff); ("Line_Offset", AInt loff);
                            ("Longitude", AFloat (Some 0%R)); ("Version", ADouble (Some 0%R))]
                           [mk_ncvar (codes "calibration") NcFloat [ncal] [] [];
                            time_var (clock [year; month; day; hour; minute; second]);
                            mk_ncvar name NcShort [1; hg; wd]
                              [("add_offset", ADouble (Some 0%R)); ("scale_factor", ADouble (Some 1%R)); ("chnum", AInt (chname_to_chnum ch))]
                              (shorts (Z.to_nat (hg * wd)) raw)]))
                 end
      | _ => UB
      end.
End Db1.
