(** msat/hrit/MSG_*.cpp: the functions that give the text of a coded value in the dumps of
    HRIT and native files, one for each enumeration. The enumerators are those of the
    headers of the same names. A code outside of the range of an enumeration is compared
    like any other number, as compilers do. *)
From Verif Require Import Base IniModel.
Open Scope string_scope.
Open Scope list_scope.
Open Scope Z_scope.

(** A switch: codes, texts and the text of default. *)
Record table := mk_table { tb_cases : list (Z * string); tb_default : string }.
Fixpoint switch (l : list (Z * string)) (d : string) (c : Z) : string :=
  match l with [] => d | (k, s) :: l' => if c =? k then s else switch l' d c end.
Definition text_of (t : table) (c : Z) : string := switch (tb_cases t) (tb_default t) c.

(** msat/hrit/MSG_compression.cpp:32-51 *)
Definition MSG_image_compression : table := mk_table
  [(0, "MSG No Compression"); (1, "MSG Lossless Compression"); (2, "MSG Lossy Compression")]
  "MSG Compression flag unknown.".

(** msat/hrit/MSG_data_CelestialEvents.cpp:107-126 *)
Definition MSG_Eclypse : table := mk_table
  [(0, "None"); (1, "Sun"); (2, "Moon")]
  "Unknown".

(** msat/hrit/MSG_data_CelestialEvents.cpp:128-150 *)
Definition MSG_Body : table := mk_table
  [(0, "None"); (1, "Sun"); (2, "Moon"); (3, "Sun and Moon")]
  "Unknown".

(** msat/hrit/MSG_data_CelestialEvents.cpp:152-171 *)
Definition MSG_quality_impact : table := mk_table
  [(0, "None"); (1, "Radiometric"); (2, "Geometric")]
  "Unknown".

(** msat/hrit/MSG_data_GeometricProc.cpp:35-48 *)
Definition MSG_type_of_earth_model : table := mk_table
  [(1, "Ellipsoid with RPN RPS REQ")]
  "Unknown".

(** msat/hrit/MSG_data_GeometricProc.cpp:50-69 *)
Definition MSG_resampling_function : table := mk_table
  [(1, "Windowed Shannon"); (2, "Bicubic Splines"); (3, "Nearest neighbour")]
  "Unknown".

(** msat/hrit/MSG_data_GeometricQuality.cpp:34-56 *)
Definition MSG_quality_info_validity : table := mk_table
  [(0, "Not Derived"); (1, "Derived and Valid"); (2, "Derived and Invalid"); (3, "Estimated")]
  "Unknown".

(** msat/hrit/MSG_data_IMPFConfiguration.cpp:35-132 *)
Definition MSG_SU_Instance : table := mk_table
  [(1, "SW Instance M&C"); (2, "Accept Data Seviri"); (3, "Accept Data HKTM"); (4, "Accept Data GERB"); (5, "Accept Data FTP Server"); (6, "Rcal/Gcal"); (7, "RQA"); (8, "GQA"); (9, "Requantize/Resample Visible Channel 0.6"); (10, "Requantize/Resample Visible Channel 0.8"); (11, "Requantize/Resample Infrared Channel 1.6"); (12, "Requantize/Resample Infrared Channel 3.8"); (13, "Requantize/Resample Water Vapour Channel 6.2"); (14, "Requantize/Resample Water Vapour Channel 7.3"); (15, "Requantize/Resample Infrared Channel 8.7"); (16, "Requantize/Resample Infrared Channel 9.7"); (17, "Requantize/Resample Infrared Channel 10.8"); (18, "Requantize/Resample Infrared Channel 12.0"); (19, "Requantize/Resample Infrared Channel 13.4"); (20, "Requantize/Resample HRV Channel"); (21, "Produce Quicklook Data"); (22, "Send Seviri Data LPT0"); (23, "Send Seviri Data LPT5"); (24, "Send Data HKTM"); (25, "Send Data Raw GERB"); (26, "Send Data Validated GERB"); (27, "Send Data Generated FD"); (28, "Send Data FTP Client PUT"); (29, "Object Store Server")]
  "Unknown".

(** msat/hrit/MSG_data_IMPFConfiguration.cpp:153-175 *)
Definition MSG_SUMode : table := mk_table
  [(0, "Off"); (1, "Non Processing"); (2, "On - Real Time Processing"); (3, "On - Analysis Mode")]
  "Unknown".

(** msat/hrit/MSG_data_IMPFConfiguration.cpp:177-196 *)
Definition MSG_SUState : table := mk_table
  [(0, "Error"); (1, "Nominal"); (2, "Degraded")]
  "Unknown".

(** msat/hrit/MSG_data_ImageAcquisition.cpp:272-288 *)
Definition MSG_boolean_status : table := mk_table
  [(0, "Off"); (1, "On")]
  "Unknown".

(** msat/hrit/MSG_data_ImageAcquisition.cpp:290-309 *)
Definition MSG_DHS_Sync : table := mk_table
  [(0, "Sun"); (1, "Earth/North"); (2, "Earth/South")]
  "Unknown".

(** msat/hrit/MSG_data_ImageAcquisition.cpp:311-334 *)
Definition MSG_DeepSpace_Window_Position : table := mk_table
  [(0, "No Delay"); (1, "Predefined Delay 1"); (2, "Predefined Delay 2"); (3, "Predefined delay 3")]
  "Unknown".

(** msat/hrit/MSG_data_ImageAcquisition.cpp:336-352 *)
Definition MSG_Refocusing_Direction : table := mk_table
  [(0, "Up"); (1, "Down")]
  "Unknown".

(** msat/hrit/MSG_data_ImageAcquisition.cpp:354-373 *)
Definition MSG_BB_Calibration : table := mk_table
  [(0, "Hot"); (1, "Ambient"); (2, "Indeterminate")]
  "Unknown".

(** msat/hrit/MSG_data_ImageDescription.cpp:35-48 *)
Definition MSG_projection_type : table := mk_table
  [(1, "Geostationary, Earth Centered in grid")]
  "Unknown".

(** msat/hrit/MSG_data_ImageDescription.cpp:50-72 *)
Definition MSG_grid_origin : table := mk_table
  [(0, "Grid corner North-West"); (1, "Grid corner South-West"); (2, "Grid corner South-East"); (3, "Grid corner North-East")]
  "Unknown".

(** msat/hrit/MSG_data_ImageDescription.cpp:74-90 *)
Definition MSG_direction_line : table := mk_table
  [(0, "Direction North-South"); (1, "Direction South-North")]
  "Unknown".

(** msat/hrit/MSG_data_ImageDescription.cpp:92-108 *)
Definition MSG_direction_column : table := mk_table
  [(0, "Direction East-West"); (1, "Direction West-East")]
  "Unknown".

(** msat/hrit/MSG_data_NavigExtrResult.cpp:34-56 *)
Definition MSG_horizon_id : table := mk_table
  [(0, "South"); (1, "North"); (2, "East"); (3, "West")]
  "Unknown".

(** msat/hrit/MSG_data_RadiometricProc.cpp:37-56 *)
Definition MSG_image_quality_flag : table := mk_table
  [(0, "IMPF Calibration OK"); (1, "IMPF Calibration Dubious"); (2, "Use MPEF calibration")]
  "Unknown".

(** msat/hrit/MSG_data_RadiometricProc.cpp:58-80 *)
Definition MSG_reference_data_flag : table := mk_table
  [(0, "Not calculated"); (1, "Meteorological data"); (2, "Foreign satellite data"); (3, "Both meteo and foreign satellite")]
  "Unknown".

(** msat/hrit/MSG_data_RadiometricProc.cpp:82-108 *)
Definition MSG_absolute_calibration_method : table := mk_table
  [(0, "Not changed"); (1, "External"); (2, "Vicarious"); (3, "Cross satellite"); (4, "Mixed vicarious and cross satellite")]
  "Unknown".

(** msat/hrit/MSG_data_SatelliteStatus.cpp:266-297 *)
Definition MSG_satellite_status : table := mk_table
  [(1, "Operational"); (2, "Standby"); (3, "Commissioning or test"); (4, "Manouvre"); (5, "Decontamination"); (6, "Safe Mode"); (7, "Dissemination Only")]
  "Unknown".

(** msat/hrit/MSG_data_SatelliteStatus.cpp:299-327 *)
Definition MSG_satellite_manouvre : table := mk_table
  [(0, "Spin Up"); (1, "Spin Down"); (2, "Attitude Slew"); (3, "N/S Station Keeping"); (4, "E/W Station Keeping"); (5, "Station Relocation")]
  "Unknown".

(** msat/hrit/MSG_data_format.cpp:32-54 *)
Definition MSG_data_format : table := mk_table
  [(0, "MSG unformatted data field"); (1, "MSG JPEG formatted data field"); (2, "MSG T.4 coded data field"); (3, "MSG Wavelet coded data field")]
  "MSG undefined format for data field".

(** msat/hrit/MSG_filetype.cpp:33-68 The name of the specification, which follows the last
    text, is left out. *)
Definition MSG_filetype : table := mk_table
  [(0, "MSG Image Data File"); (1, "MSG GTS Message File"); (2, "MSG Alphanumeric Text File"); (3, "MSG Encryption Key Message File"); (128, "MSG Repeat Cycle Prologue"); (129, "MSG Repeat Cycle Epilogue"); (130, "MSG DCP Message (unprocessed)"); (144, "MSG Binary File Message")]
  "MSG Mission Unknown file typecode as of ".

(** msat/hrit/MSG_quality.cpp:32-57 *)
Definition MSG_segment_validity : table := mk_table
  [(0, "Not derived"); (1, "Nominal"); (2, "Based on missing data"); (3, "Based on corrupted data"); (4, "Based on missing or interpolated data")]
  "Validity not defined".

(** msat/hrit/MSG_quality.cpp:59-85 *)
Definition MSG_segment_radiometric_quality : table := mk_table
  [(0, "Not derived"); (1, "Nominal"); (2, "Usable"); (3, "Suspect"); (4, "Do not use")]
  "Radiometric quality undefined".

(** msat/hrit/MSG_quality.cpp:87-113 *)
Definition MSG_segment_geometric_quality : table := mk_table
  [(0, "Not derived"); (1, "Nominal"); (2, "Usable"); (3, "Suspect"); (4, "Do not use")]
  "Geometric quality undefined".
