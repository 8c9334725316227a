(** msat/thornsds_db1/thornsds_db1.cpp:444-498, the operator << that lists a ThornSDS DB1
    directory and its channel, and the accessors that only it uses.

    Inserting a null pointer to characters sets badbit (std::operator<< for C strings);
    a stream that is not good takes nothing more. The accessors are called all the same. *)
From Verif Require Import Base MachineModel IniModel GribModel Db1Model.
Open Scope string_scope.
Open Scope list_scope.
Open Scope Z_scope.

Section Listing.
(** Floats as in Db1Model: zero, the default of the elevation (90.0), the text that the
    stream makes of a float. *)
Variable flt : Type.
Variable zero ninety : flt.
Variable atof : str -> flt.
Variable show : flt -> str.
Notation db := (db1 flt).

(** thornsds_db1.cpp:229-245 *)
Definition get_INFO_satellite_id (s : db) : outcome Z := int_of_key flt s (x_info flt s) (codes "Satellite:ID") 0 0.
Definition get_INFO_satellite_orbit (s : db) : outcome Z := int_of_key flt s (x_info flt s) (codes "Satellite:Orbit") 0 0.
(** thornsds_db1.cpp:247-251 *)
Definition get_INFO_schedule_end (s : db) := str_of flt s (x_info flt s) (codes "Schedule:End") "01/01/2000 00:00:00.000".
(** A float under a key. *)
Definition float_of_key (s : db) (d : option dict) (key : string) (def : flt) : outcome flt := if is_data_ok flt s then getdouble flt atof d (codes key) def else Ok zero.
(** thornsds_db1.cpp:253-257 *)
Definition get_INFO_schedule_elevation (s : db) : outcome flt := float_of_key s (x_info flt s) "Schedule:Elevation" ninety.
(** A bool under a key. *)
Definition bool_of_key (s : db) (key : str) (def : Z) : outcome Z := if is_data_ok flt s then getboolean (x_info flt s) key def else Ok 0.
(** thornsds_db1.cpp:265-287 *)
Definition get_INFO_schedule_location (s : db) := str_of flt s (x_info flt s) (codes "Schedule:Location") "OH".
Definition get_INFO_schedule_day (s : db) : outcome Z := bool_of_key s (codes "Schedule:Day") 1.
Definition get_INFO_schedule_slot (s : db) := str_of flt s (x_info flt s) (codes "Schedule:Slot") "HRIT".
Definition get_INFO_image_sensor (s : db) := str_of flt s (x_info flt s) (codes "Image:Sensor") "Seviri".
(** thornsds_db1.cpp:307-323 *)
Definition get_INFO_image_protected (s : db) : outcome Z := bool_of_key s (codes "Image:Protected") 0.
Definition get_INFO_image_nchannels (s : db) : outcome Z := int_of_key flt s (x_info flt s) (codes "Image:nChannels") 10 0.
Definition get_INFO_image_nproducts (s : db) : outcome Z := int_of_key flt s (x_info flt s) (codes "Image:nProducts") 10 0.
(** thornsds_db1.cpp:359-371 *)
Definition get_channel_INFO_bitsperpixel (s : db) : outcome Z := int_of_key flt s (x_info flt s) (chkey (x_chnum flt s) (codes "BitsPerPixel")) 10 0.
Definition get_channel_INFO_table (s : db) : outcome Z := bool_of_key s (chkey (x_chnum flt s) (codes "Table")) 0.
(** thornsds_db1.cpp:373-402 *)
Definition get_channel_Calibration (s : db) (key : string) : outcome flt := float_of_key s (x_cal flt s) key zero.

(** A name, what is printed after it, and the end of the line. *)
Definition entry : Type := str * outcome (option str).
Definition txt (n : string) (v : outcome (option str)) : entry := (codes n, v).
Definition int (n : string) (v : outcome Z) : entry := (codes n, let! z := v in Ok (Some (printd z))).
Definition flag (n : string) (v : outcome Z) : entry := (codes n, let! z := v in Ok (Some (if z =? 0 then [48] else [49]))).
Definition float (n : string) (v : outcome flt) : entry := (codes n, let! z := v in Ok (Some (show z))).
Definition head (t : string) : entry := (repeat 45 54 ++ [10] ++ codes t ++ [10] ++ repeat 45 54, Ok (Some [])).
Definition db1_entries (s : db) : list entry := [
  head "-           MSG DATA SATELLITE DB1 AoI               -";
  txt "AoI Name         : " (get_AoI_name flt s); int "AoI nPixels      : " (get_AoI_npixels flt s); int "AoI nLines       : " (get_AoI_nlines flt s); txt "AoI Projection   : " (get_AoI_projection flt s);
  int "AoI CFAC         : " (get_AoI_cfac flt s); int "AoI LFAC         : " (get_AoI_lfac flt s); int "AoI COFF         : " (get_AoI_coff flt s); int "AoI LOFF         : " (get_AoI_loff flt s);
  head "-           MSG DATA SATELLITE DB1 INFO              -";
  txt "Station Name     : " (get_INFO_station_name flt s); txt "Satellite Name   : " (get_INFO_satellite_name flt s); int "Satellite ID     : " (get_INFO_satellite_id s); int "Satellite Orbit  : " (get_INFO_satellite_orbit s);
  txt "Schedule Start   : " (get_INFO_schedule_start flt s); txt "Schedule End     : " (get_INFO_schedule_end s); float "Elevation        : " (get_INFO_schedule_elevation s); flag "NorthSouth       : " (get_INFO_schedule_northsouth flt s);
  txt "Location         : " (get_INFO_schedule_location s); flag "Day              : " (get_INFO_schedule_day s); txt "Slot             : " (get_INFO_schedule_slot s); txt "Image Sensor     : " (get_INFO_image_sensor s);
  int "Image Pixels     : " (get_INFO_image_pixels flt s); int "Image Lines      : " (get_INFO_image_lines flt s); int "Bits per Pixel   : " (get_INFO_image_bitsperpixel flt s); flag "Image Protected  : " (get_INFO_image_protected s);
  int "Image Channels   : " (get_INFO_image_nchannels s); int "Image Products   : " (get_INFO_image_nproducts s);
  head "-           MSG DATA CHANNEL DB1 INFO                -";
  txt "Channel Name     : " (get_channel_INFO_name flt s); txt "Channel Variable : " (get_channel_INFO_variable flt s); txt "Channel Units    : " (get_channel_INFO_units flt s);
  int "Channel BPP      : " (get_channel_INFO_bitsperpixel s); flag "Channel Table    : " (get_channel_INFO_table s);
  head "-           MSG DATA CHANNEL CALIBRATION             -";
  float "Slope            : " (get_channel_Calibration s "Calibration:Slope"); float "Target Count     : " (get_channel_Calibration s "Calibration:TargetCount"); float "Vc               : " (get_channel_Calibration s "Calibration:Vc");
  float "A                : " (get_channel_Calibration s "Calibration:A"); float "B                : " (get_channel_Calibration s "Calibration:B")].
(** What reaches the stream, and whether the stream is good afterwards. *)
Fixpoint put (good : bool) (l : list entry) : outcome (str * bool) :=
  match l with
  | [] => Ok ([], good)
  | (n, v) :: l' =>
      let! v := v in
      let! r := put (good && match v with Some _ => true | None => false end) l' in
      Ok ((if good then n ++ match v with Some v => v ++ [10] | None => [] end else []) ++ fst r, snd r)
  end.
Definition db1_listing (s : db) : outcome (str * bool) := put true (db1_entries s).
End Listing.
