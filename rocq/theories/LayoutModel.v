From Coq Require Import ZArith List Lia Bool String.
From Verif Require Import Base.
Import ListNotations.
Open Scope Z_scope.

(* The read_from functions of the level 1.5 prologue, native header and
   trailer records, as the list of the reads they perform on the buffer.

   A read (path, offset, width) says that the field named by path is decoded
   from the width bytes at offset.  Paths are written innermost name first.
   The decoding of the bytes to numbers is get_ui and friends (MachineModel).
   Simplified: the "present" flags of the orbit and attitude coefficients are
   not fields of the file, they look again at the first two bytes of
   StartTime; the sscanf of the generalized time is the read of its 15
   characters; the padding of enumerations and bit fields in memory is not
   modelled. *)
Inductive seg := N (s : string) | I (i : Z).
Definition path := list seg.
Definition acc := (path * Z * Z)%type.

(* buff, at an absolute offset of the whole buffer -> reads, returned length *)
Definition reader := path -> Z -> list acc * Z.
(* one statement: path, buff, position -> reads, position *)
Definition stm := path -> Z -> Z -> list acc * Z.

Fixpoint run (l : list stm) (p : path) (b pos : Z) : list acc * Z :=
  match l with
  | [] => ([], pos)
  | s :: l' => let (a, q) := s p b pos in
               let (a', q') := run l' p b q in (a ++ a', q')
  end.
(* size_t position = 0; ...; return position *)
Definition fn (l : list stm) : reader := fun p b => run l p b 0.

Definition idx (n : Z) : list Z := map Z.of_nat (seq 0 (Z.to_nat n)).

(* nm = get(buff + position + o), w bytes *)
Definition get (nm : string) (o w : Z) : stm := fun p b pos => ([(N nm :: p, b + pos + o, w)], pos).
(* nm[i] = get(buff + position + o) *)
Definition geti (nm : string) (i o w : Z) : stm := fun p b pos => ([(I i :: N nm :: p, b + pos + o, w)], pos).
(* nm = get(buff + o) *)
Definition getb (nm : string) (o w : Z) : stm := fun p b pos => ([(N nm :: p, b + o, w)], pos).
(* position += k *)
Definition adv (k : Z) : stm := fun p b pos => ([], pos + k).
(* nm = get(buff + position); position += w *)
Definition fld (nm : string) (w : Z) : stm := fun p b pos => ([(N nm :: p, b + pos, w)], pos + w).
(* return k *)
Definition ret (k : Z) : stm := fun p b pos => ([], k).
(* position += nm.read_from(buff + position) *)
Definition call (nm : string) (f : reader) : stm :=
  fun p b pos => let (a, k) := f (N nm :: p) (b + pos) in (a, pos + k).
(* nm.read_from(buff + position), result dropped *)
Definition callp (nm : string) (f : reader) : stm :=
  fun p b pos => (fst (f (N nm :: p) (b + pos)), pos).
(* nm.read_from(buff + o), result dropped *)
Definition callb (nm : string) (o : Z) (f : reader) : stm :=
  fun p b pos => (fst (f (N nm :: p) (b + o)), pos).
(* position += nm.read_from(buff + o) *)
Definition calla (nm : string) (o : Z) (f : reader) : stm :=
  fun p b pos => let (a, k) := f (N nm :: p) (b + o) in (a, pos + k).
(* for (i = i0; n more times; i ++) position += nm[i].read_from(buff + position) *)
Fixpoint calls_from (n : nat) (i : Z) (f : reader) (p : path) (b pos : Z) : list acc * Z :=
  match n with
  | O => ([], pos)
  | S m => let (a, k) := f (I i :: p) (b + pos) in
           let (a', q) := calls_from m (i + 1) f p b (pos + k) in (a ++ a', q)
  end.
Definition calls (nm : string) (n : Z) (f : reader) : stm :=
  fun p b pos => calls_from (Z.to_nat n) 0 f (N nm :: p) b pos.
(* for (i < n) nm[i] = get(buff + position + o(i)), and for two and three indices *)
Definition for1 (nm : string) (n : Z) (o : Z -> Z) (w : Z) : stm :=
  fun p b pos => (flat_map (fun i => [(I i :: N nm :: p, b + pos + o i, w)]) (idx n), pos).
Definition for1b (nm : string) (n : Z) (o : Z -> Z) (w : Z) : stm :=
  fun p b pos => (flat_map (fun i => [(I i :: N nm :: p, b + o i, w)]) (idx n), pos).
Definition for2 (nm : string) (n m : Z) (o : Z -> Z -> Z) (w : Z) : stm :=
  fun p b pos => (flat_map (fun i => flat_map (fun j =>
    [(I j :: I i :: N nm :: p, b + pos + o i j, w)]) (idx m)) (idx n), pos).
Definition for3 (nm : string) (n m l : Z) (o : Z -> Z -> Z -> Z) (w : Z) : stm :=
  fun p b pos => (flat_map (fun i => flat_map (fun j => flat_map (fun k =>
    [(I k :: I j :: I i :: N nm :: p, b + pos + o i j k, w)]) (idx l)) (idx m)) (idx n), pos).
(* for (i < n) { statements with offsets from buff }: the fields x[i] of the
   n-th row are named [i].x *)
Definition rows (n : Z) (body : Z -> list stm) : stm :=
  fun p b pos => (flat_map (fun i => fst (run (body i) (I i :: p) b pos)) (idx n), pos).

(* MSG_time_cds.cpp:54-69 *)
Definition cds_short_read : reader := fn
  [ getb "day_from_epoch" 0 2; getb "msec_in_day" 2 4; ret 6 ].
(* MSG_time_cds.cpp:208-214 *)
Definition cds_expanded_read : reader := fn
  [ getb "day_from_epoch" 0 2; getb "msec_in_day" 2 4;
    getb "microsecs" 6 2; getb "nanosecs" 8 2; ret 10 ].
(* MSG_time_cds.cpp:277-282 *)
Definition cds_read : reader := fn
  [ getb "day_from_epoch" 0 2; getb "msec_in_day" 2 4; getb "microsecs" 6 2; ret 8 ].
(* MSG_time_cds.cpp:152-160 *)
Definition cuc_read : reader := fn [ getb "cuctime" 0 7; ret 7 ].
(* MSG_time_cds.cpp:339-348 *)
Definition generalized_read : reader := fn [ getb "text" 0 15; ret 15 ].

(* MSG_data_SatelliteStatus.cpp:329-339 *)
Definition MSG_SatelliteDefinition_read : reader := fn
  [ fld "SatelliteId" 2;
    fld "NominalLongitude" 4;
    fld "SatelliteStatus" 1 ].

(* MSG_data_SatelliteStatus.cpp:351-367 *)
Definition MSG_SatelliteOperations_read : reader := fn
  [ fld "LastManoeuvreFlag" 1;
    call "LastManouvreStartTime" cds_short_read;
    call "LastManouvreEndTime" cds_short_read;
    fld "LastManouvreType" 1;
    fld "NextManoeuvreFlag" 1;
    call "NextManouvreStartTime" cds_short_read;
    call "NextManouvreEndTime" cds_short_read;
    fld "NextManouvreType" 1 ].

(* MSG_data_SatelliteStatus.cpp:90-116 *)
Definition MSG_orbit_coefficient_read : reader := fn
  [ call "StartTime" cds_short_read;
    call "EndTime" cds_short_read;
    for1 "X" 8 (fun i => i * 8) 8;
    adv 64;
    for1 "Y" 8 (fun i => i * 8) 8;
    adv 64;
    for1 "Z" 8 (fun i => i * 8) 8;
    adv 64;
    for1 "VX" 8 (fun i => i * 8) 8;
    adv 64;
    for1 "VY" 8 (fun i => i * 8) 8;
    adv 64;
    for1 "VZ" 8 (fun i => i * 8) 8;
    adv 64 ].

(* MSG_data_SatelliteStatus.cpp:128-136 *)
Definition MSG_Orbit_read : reader := fn
  [ call "PeriodStartTime" cds_short_read;
    call "PeriodEndTime" cds_short_read;
    calls "OrbitPoliniomal" 100 MSG_orbit_coefficient_read ].

(* MSG_data_SatelliteStatus.cpp:71-88 *)
Definition MSG_AttitudeCoeff_read : reader := fn
  [ call "StartTime" cds_short_read;
    call "EndTime" cds_short_read;
    for1 "XOfSpinAxis" 8 (fun i => i * 8) 8;
    adv 64;
    for1 "YOfSpinAxis" 8 (fun i => i * 8) 8;
    adv 64;
    for1 "ZOfSpinAxis" 8 (fun i => i * 8) 8;
    adv 64 ].

(* MSG_data_SatelliteStatus.cpp:138-148 *)
Definition MSG_Attitude_read : reader := fn
  [ call "PeriodStartTime" cds_short_read;
    call "PeriodEndTime" cds_short_read;
    fld "PrincipalAxisOffsetAngle" 8;
    calls "AttitudePolynomial" 100 MSG_AttitudeCoeff_read ].

(* MSG_data_SatelliteStatus.cpp:150-168 *)
Definition MSG_UTCCorrelation_read : reader := fn
  [ call "PeriodStartTime" cds_short_read;
    call "PeriodEndTime" cds_short_read;
    callp "OnBoardTimeStart" cuc_read;
    adv 7;
    fld "VarOnBoardTimeStart" 8;
    fld "A1" 8;
    fld "VarA1" 8;
    fld "A2" 8;
    fld "VarA2" 8 ].

(* MSG_data_SatelliteStatus.cpp:48-59 *)
Definition MSG_data_SatelliteStatus_read : reader := fn
  [ call "SatelliteDefinition" MSG_SatelliteDefinition_read;
    call "SatelliteOperations" MSG_SatelliteOperations_read;
    call "Orbit" MSG_Orbit_read;
    call "Attitude" MSG_Attitude_read;
    fld "SpinRateatRCStart" 8;
    call "UTCCorrelation" MSG_UTCCorrelation_read ].

(* MSG_data_ImageAcquisition.cpp:35-41 *)
Definition MSG_PlannedAquisitionTime_read : reader := fn
  [ callb "TrueRepeatCycleStart" 0 cds_expanded_read;
    callb "PlannedForwardScanEnd" 10 cds_expanded_read;
    callb "PlannedRepeatCycleEnd" 20 cds_expanded_read;
    ret 30 ].

(* MSG_data_ImageAcquisition.cpp:54-61 *)
Definition MSG_RadiometerStatus_read : reader := fn
  [ for1b "ChannelStatus" 12 (fun i => i) 1;
    for1b "DetectorStatus" 42 (fun i => 12 + i) 1;
    ret 54 ].

(* MSG_data_ImageAcquisition.cpp:78-147 *)
Definition MSG_RadiometerSettings_read : reader := fn
  [ for1 "MDUSamplingDelays" 42 (fun i => i * 2) 2;
    adv 84;
    fld "MDUNomHRVDelay1" 2;
    fld "MDUNomHRVDelay2" 2;
    adv 2;
    fld "MDUNomHRVBreakline" 2;
    fld "DHSSyncSelection" 1;
    for1 "MDUOutGain" 42 (fun i => i * 2) 2;
    adv 84;
    fld "MDUCoarseGain" 42;
    for1 "MDUFineGain" 42 (fun i => i * 2) 2;
    adv 84;
    for1 "MDUNumericalOffset" 42 (fun i => i * 2) 2;
    adv 84;
    for1 "PUGain" 42 (fun i => i * 2) 2;
    adv 84;
    for1 "PUOffset" 27 (fun i => i * 2) 2;
    adv 54;
    for1 "PUBias" 15 (fun i => i * 2) 2;
    adv 30;
    fld "L0_LineCounter" 2;
    fld "K1_RetraceLines" 2;
    fld "K2_PauseDeciseconds" 2;
    fld "K3_RetraceLines" 2;
    fld "K4_PauseDeciseconds" 2;
    fld "K5_RetraceLines" 2;
    fld "X_DeepSpaceWindowPosition" 1;
    fld "RefocusingLines" 2;
    fld "RefocusingDirection" 1;
    fld "RefocusingPosition" 2;
    fld "ScanRefPosFlag" 1;
    fld "ScanRefPosNumber" 2;
    fld "ScanRefPotVal" 4;
    fld "ScanFirstLine" 2;
    fld "ScanLastLine" 2;
    fld "RetraceStartLine" 2 ].

(* MSG_data_ImageAcquisition.cpp:205-228 *)
Definition MSG_RadiometerOperations_read : reader := fn
  [ fld "LastGainChangeFlag" 1;
    call "LastGainChangeTime" cds_short_read;
    fld "DecontaminationNow" 1;
    call "DecontaminationStart" cds_short_read;
    call "DecontaminationEnd" cds_short_read;
    fld "BBCalScheduled" 1;
    fld "BBCalibrationType" 1;
    fld "BBFirstLine" 2;
    fld "BBLastLine" 2;
    fld "ColdFocalPlaneOpTemp" 2;
    fld "WarmFocalPlaneOpTemp" 2 ].

(* MSG_data_ImageAcquisition.cpp:260-270 *)
Definition MSG_data_ImageAcquisition_read : reader := fn
  [ call "PlannedAquisitionTime" MSG_PlannedAquisitionTime_read;
    call "RadiometerStatus" MSG_RadiometerStatus_read;
    call "RadiometerSettings" MSG_RadiometerSettings_read;
    call "RadiometerOperations" MSG_RadiometerOperations_read ].

(* MSG_data_CelestialEvents.cpp:211-220 *)
Definition MSG_Earth_Moon_Sun_Coefficient_read : reader := fn
  [ callb "StartTime" 0 cds_short_read;
    callb "EndTime" 6 cds_short_read;
    for1b "AlphaCoef" 8 (fun i => 12 + i * 8) 8;
    for1b "BetaCoef" 8 (fun i => 76 + i * 8) 8;
    ret 140 ].

(* MSG_data_CelestialEvents.cpp:173-186 *)
Definition MSG_Star_Coefficient_read : reader := fn
  [ rows 20 (fun i =>
      [ getb "StarId" (142 * i) 2;
        callb "StartTime" (142 * i + 2) cds_short_read;
        callb "EndTime" (142 * i + 8) cds_short_read;
        for1b "AlphaCoef" 8 (fun j => 142 * i + 14 + j * 8) 8;
        for1b "BetaCoef" 8 (fun j => 142 * i + 78 + j * 8) 8 ]);
    ret 2840 ].

(* MSG_data_CelestialEvents.cpp:239-258 *)
Definition MSG_Ephemeris_read : reader := fn
  [ callb "PeriodStartTime" 0 cds_short_read;
    adv 6;
    callb "PeriodEndTime" 6 cds_short_read;
    adv 6;
    calla "RelatedOrbitFileTime" 12 generalized_read;
    calla "RelatedAttitudeFileTime" 27 generalized_read;
    calls "EarthEphemeris" 100 MSG_Earth_Moon_Sun_Coefficient_read;
    calls "MoonEphemeris" 100 MSG_Earth_Moon_Sun_Coefficient_read;
    calls "SunEphemeris" 100 MSG_Earth_Moon_Sun_Coefficient_read;
    calls "StarEphemeris" 100 MSG_Star_Coefficient_read ].

(* MSG_data_CelestialEvents.cpp:35-38 *)
Definition MSG_CelestialBodiesPosition_read : reader := fn
  [ call "Ephemeris" MSG_Ephemeris_read ].

(* MSG_data_CelestialEvents.cpp:46-62 *)
Definition MSG_RelationToImage_read : reader := fn
  [ fld "TypeofEclypse" 1;
    callp "EclipseStartTime" cds_short_read;
    adv 6;
    callp "EclipseEndTime" cds_short_read;
    adv 6;
    fld "VisibleBodiesInImage" 1;
    fld "BodiesClosesttoFOV" 1;
    fld "ImpactOnImageQuality" 1 ].

(* MSG_data_CelestialEvents.cpp:89-95 *)
Definition MSG_data_CelestialEvents_read : reader := fn
  [ call "CelestialBodiesPosition" MSG_CelestialBodiesPosition_read;
    call "RelationToImage" MSG_RelationToImage_read ].

(* MSG_data_ImageDescription.cpp:110-118 *)
Definition MSG_grid_read : reader := fn
  [ getb "NumberofLines" 0 4;
    getb "NumberofColumns" 4 4;
    getb "LineDirGridStep" 8 4;
    getb "ColumnDirGridStep" 12 4;
    getb "GridOrigin" 16 1;
    ret 17 ].

(* MSG_data_ImageDescription.cpp:130-137 *)
Definition MSG_coverage_IR_read : reader := fn
  [ getb "SouthernLinePlanned" 0 4;
    getb "NorthernLinePlanned" 4 4;
    getb "EasternColumnPlanned" 8 4;
    getb "WesternColumnPlanned" 12 4;
    ret 16 ].

(* MSG_data_ImageDescription.cpp:148-159 *)
Definition MSG_coverage_HRV_read : reader := fn
  [ getb "LowerSouthLinePlanned" 0 4;
    getb "LowerNorthLinePlanned" 4 4;
    getb "LowerEastColumnPlanned" 8 4;
    getb "LowerWestColumnPlanned" 12 4;
    getb "UpperSouthLinePlanned" 16 4;
    getb "UpperNorthLinePlanned" 20 4;
    getb "UpperEastColumnPlanned" 24 4;
    getb "UpperWestColumnPlanned" 28 4;
    ret 32 ].

(* MSG_data_ImageDescription.cpp:174-179 *)
Definition MSG_ProjectionDescription_read : reader := fn
  [ getb "TypeOfProjection" 0 1;
    getb "LongitudeOfSSP" 1 4;
    ret 5 ].

(* MSG_data_ImageDescription.cpp:189-196 *)
Definition MSG_Level1_5ImageProduction_read : reader := fn
  [ getb "ImageProcDirection" 0 1;
    getb "PixelGenDirection" 1 1;
    for1b "PlannedChanProcessing" 12 (fun i => 2 + i) 1;
    ret 14 ].

(* MSG_data_ImageDescription.cpp:222-232 *)
Definition MSG_data_ImageDescription_read : reader := fn
  [ call "ProjectionDescription" MSG_ProjectionDescription_read;
    call "ReferenceGridVIS_IR" MSG_grid_read;
    call "ReferenceGridHRV" MSG_grid_read;
    call "PlannedCoverageVIS_IR" MSG_coverage_IR_read;
    call "PlannedCoverageHRV" MSG_coverage_HRV_read;
    call "Level1_5ImageProduction" MSG_Level1_5ImageProduction_read ].

(* MSG_data_RadiometricProc.cpp:110-115 *)
Definition MSG_Image_Calibration_read : reader := fn
  [ getb "Cal_Slope" 0 8;
    getb "Cal_Offset" 8 8;
    ret 16 ].

(* MSG_data_RadiometricProc.cpp:124-134 *)
Definition MSG_ExtractedBBData_read : reader := fn
  [ getb "NumberOfPixelsUsed" 0 4;
    getb "MeanCount" 4 4;
    getb "RMS" 8 4;
    getb "MaxCount" 12 2;
    getb "MinCount" 14 2;
    getb "BB_Processing_Slope" 16 8;
    getb "BB_Processing_Offset" 24 8;
    ret 32 ].

(* MSG_data_RadiometricProc.cpp:148-162 *)
Definition MSG_IMPF_CAL_Data_read : reader := fn
  [ getb "ImageQualityFlag" 0 1;
    getb "ReferenceDataFlag" 1 1;
    getb "AbsCalMethod" 2 1;
    getb "AbsCalWeightVic" 4 4;
    getb "AbsCalWeightXsat" 8 4;
    getb "AbsCalCoeff" 12 4;
    getb "AbsCalError" 16 4;
    getb "CalMonBias" 20 4;
    getb "CalMonRms" 24 4;
    getb "OffsetCount" 28 4;
    ret 32 ].

(* MSG_data_RadiometricProc.cpp:164-179 *)
Definition MSG_RPSummary_read : reader := fn
  [ for1b "RadianceLinearization" 12 (fun i => i) 1;
    for1b "DetectorEqualization" 12 (fun i => 12 + i) 1;
    for1b "OnboardCalibrationResult" 12 (fun i => 24 + i) 1;
    for1b "MPEFCalFeedBack" 12 (fun i => 36 + i) 1;
    for1b "MTFAdaptation" 12 (fun i => 48 + i) 1;
    for1b "StraylightCorrectionFlag" 12 (fun i => 60 + i) 1;
    ret 72 ].

(* MSG_data_RadiometricProc.cpp:209-229 *)
Definition MSG_RadProcMTFAdaptation_read : reader := fn
  [ for2 "VIS_IRMTFCorrectionE_W" 33 16 (fun i j => i * 64 + j * 4) 4;
    adv 2112;
    for2 "VIS_IRMTFCorrectionN_S" 33 16 (fun i j => i * 64 + j * 4) 4;
    adv 2112;
    for2 "HRVIRMTFCorrectionE_W" 9 16 (fun i j => i * 64 + j * 4) 4;
    adv 576;
    for2 "HRVIRMTFCorrectionN_S" 9 16 (fun i j => i * 64 + j * 4) 4;
    adv 576 ].

(* MSG_data_RadiometricProc.cpp:304-310 *)
Definition MSG_MPEFCalFeedback_read : reader := fn
  [ calls "IMPF_CAL_Data" 12 MSG_IMPF_CAL_Data_read ].

(* MSG_data_RadiometricProc.cpp:338-416 *)
Definition MSG_BlackBodyDataUsed_read : reader := fn
  [ call "BBObservationUTC" cds_expanded_read;
    call "OnBoardBBTime" cuc_read;
    for1 "MDUOutGain" 42 (fun i => i * 2) 2;
    adv 84;
    for1 "MDUCoarseGain" 42 (fun i => i) 1;
    adv 42;
    for1 "MDUFineGain" 42 (fun i => i * 2) 2;
    adv 84;
    for1 "MDUNumerical_Offset" 42 (fun i => i * 2) 2;
    adv 84;
    for1 "PUGain" 42 (fun i => i * 2) 2;
    adv 84;
    for1 "PUOffset" 27 (fun i => i * 2) 2;
    adv 54;
    for1 "PUBias" 15 (fun i => i * 2) 2;
    adv 30;
    getb "DCRValues" 0 63; (* memcpy(DCRValues, buff, 63): from the start of the record *)
    adv 63;
    fld "XDeepSpaceWindowPosition" 1;
    fld "FCUNominalColdFocalPlaneTemp" 2;
    fld "FCURedundantColdFocalPlaneTemp" 2;
    fld "FCUNominalWarmFocalPlaneVHROTemp" 2;
    fld "FCURedundantWarmFocalPlaneVHROTemp" 2;
    fld "FCUNominalScanMirrorSensor1Temp" 2;
    fld "FCURedundantScanMirrorSensor1Temp" 2;
    fld "FCUNominalScanMirrorSensor2Temp" 2;
    fld "FCURedundantScanMirrorSensor2Temp" 2;
    fld "FCUNominalM1MirrorSensor1Temp" 2;
    fld "FCURedundantM1MirrorSensor1Temp" 2;
    fld "FCUNominalM1MirrorSensor2Temp" 2;
    fld "FCURedundantM1MirrorSensor2Temp" 2;
    fld "FCUNominalM23AssemblySensor1Temp" 1;
    fld "FCURedundantM23AssemblySensor1Temp" 1;
    fld "FCUNominalM23AssemblySensor2Temp" 1;
    fld "FCURedundantM23AssemblySensor2Temp" 1;
    fld "FCUNominalM1BaffleTemp" 2;
    fld "FCURedundantM1BaffleTemp" 2;
    fld "FCUNominalBlackBodySensorTemp" 2;
    fld "FCURedundantBlackBodySensorTemp" 2;
    fld "FCUNominalSMMStatus" 2;
    fld "FCURedundantSMMStatus" 2;
    calls "ExtractedBBData" 12 MSG_ExtractedBBData_read ].

(* MSG_data_RadiometricProc.cpp:506-525 *)
Definition MSG_data_RadiometricProc_read : reader := fn
  [ call "RPSummary" MSG_RPSummary_read;
    calls "ImageCalibration" 12 MSG_Image_Calibration_read;
    call "BlackBodyDataUsed" MSG_BlackBodyDataUsed_read;
    call "MPEFCalFeedback" MSG_MPEFCalFeedback_read;
    for2 "RadTransform" 42 64 (fun i j => i * 256 + j * 4) 4;
    adv 10752;
    call "RadProcMTFAdaptation" MSG_RadProcMTFAdaptation_read;
    for3 "StraylightCorrection" 12 8 8 (fun i j k => i * 256 + j * 32 + k * 4) 4;
    adv 3072 ].

(* MSG_data_GeometricProc.cpp:71-78 *)
Definition MSG_OptAxisDistances_read : reader := fn
  [ for1b "E_W_FocalPlane" 42 (fun i => i * 4) 4;
    for1b "N_S_FocalPlane" 42 (fun i => 168 + i * 4) 4;
    ret 336 ].

(* MSG_data_GeometricProc.cpp:91-98 *)
Definition MSG_EarthModel_read : reader := fn
  [ getb "TypeofEarthModel" 0 1;
    getb "EquatorialRadius" 1 8;
    getb "NorthPolarRadius" 9 8;
    getb "SouthPolarRadius" 17 8;
    ret 25 ].

(* MSG_data_GeometricProc.cpp:119-132 *)
Definition MSG_data_GeometricProc_read : reader := fn
  [ call "OptAxisDistances" MSG_OptAxisDistances_read;
    call "EarthModel" MSG_EarthModel_read;
    for2 "AtmosphericModel" 12 360 (fun i j => (i * 360 + j) * 4) 4;
    adv 17280;
    for1 "ResamplingFunction" 12 (fun _ => 0) 1;
    adv 12 ].

(* MSG_data_IMPFConfiguration.cpp:198-203 *)
Definition MSG_GPConfigItemVersion_read : reader := fn
  [ getb "Issue" 0 2;
    getb "Revision" 2 2;
    ret 4 ].

(* MSG_data_IMPFConfiguration.cpp:212-218 *)
Definition MSG_MirrorParameters_read : reader := fn
  [ getb "MaxFeedbackVoltage" 0 8;
    getb "MinFeedbackVoltage" 8 8;
    getb "MirrorSlipEstimate" 16 8;
    ret 24 ].

(* MSG_data_IMPFConfiguration.cpp:228-243 *)
Definition MSG_HKTMParameters_read : reader := fn
  [ callb "TimeS0Packet" 0 cds_short_read;
    callb "TimeS1Packet" 6 cds_short_read;
    callb "TimeS2Packet" 12 cds_short_read;
    callb "TimeS3Packet" 18 cds_short_read;
    callb "TimeS4Packet" 24 cds_short_read;
    callb "TimeS5Packet" 30 cds_short_read;
    callb "TimeS6Packet" 36 cds_short_read;
    callb "TimeS7Packet" 42 cds_short_read;
    callb "TimeS8Packet" 48 cds_short_read;
    callb "TimeS9Packet" 54 cds_short_read;
    callb "TimeSYPacket" 60 cds_short_read;
    callb "TimePSPacket" 66 cds_short_read;
    ret 3480 ].

(* MSG_data_IMPFConfiguration.cpp:263-270 *)
Definition MSG_SUConfiguration_read : reader := fn
  [ call "SWVersion" MSG_GPConfigItemVersion_read;
    calls "InfoBaseVersion" 10 MSG_GPConfigItemVersion_read ].

(* MSG_data_IMPFConfiguration.cpp:282-289 *)
Definition MSG_SUDetail_read : reader := fn
  [ getb "SoftwareUnitId" 0 4;
    getb "SUIdInstance" 4 1;
    getb "SUMode" 5 1;
    getb "SUState" 6 1;
    adv 7;
    call "SUConfiguration" MSG_SUConfiguration_read ].

(* MSG_data_IMPFConfiguration.cpp:303-309 *)
Definition MSG_EqualisationParms_read : reader := fn
  [ getb "ConstCoef" 0 4;
    getb "LinearCoef" 4 4;
    getb "QuadraticCoef" 8 4;
    ret 12 ].

(* MSG_data_IMPFConfiguration.cpp:319-371 *)
Definition MSG_BlackBodyDataWarmStart_read : reader := fn
  [ for1 "GTotalForMethod1" 12 (fun i => i * 8) 8;
    adv 96;
    for1 "GTotalForMethod2" 12 (fun i => i * 8) 8;
    adv 96;
    for1 "GTotalForMethod3" 12 (fun i => i * 8) 8;
    adv 96;
    for1 "GBackForMethod1" 12 (fun i => i * 8) 8;
    adv 96;
    for1 "GBackForMethod2" 12 (fun i => i * 8) 8;
    adv 96;
    for1 "GBackForMethod3" 12 (fun i => i * 8) 8;
    adv 96;
    for1 "RatioGTotalToGBack" 12 (fun i => i * 8) 8;
    adv 96;
    for1 "GainInFrontOpticsCont" 12 (fun i => i * 8) 8;
    adv 96;
    for1 "CalibrationConstants" 12 (fun i => i * 8) 4;
    adv 48;
    fld "TimeOfColdObsSeconds" 8;
    fld "TimeOfColdObsNanoSecs" 8;
    for1 "IncidentRadiance" 12 (fun i => i * 8) 8;
    adv 96;
    fld "TempCal" 8;
    fld "TempM1" 8;
    fld "TempScan" 8;
    fld "TempM1Baf" 8;
    fld "TempCalSurround" 8;
    call "MirrorParameters" MSG_MirrorParameters_read;
    fld "LastSpinPeriod" 8;
    call "HKTMParameters" MSG_HKTMParameters_read ].

(* MSG_data_IMPFConfiguration.cpp:464-480 *)
Definition MSG_WarmStartParms_read : reader := fn
  [ for1 "ScanningLaw" 1527 (fun i => i * 8) 8;
    adv 12216;
    for1 "RadFramesAlignment" 3 (fun i => i * 8) 8;
    adv 24;
    geti "ScanningLawVariation" 0 0 4;
    geti "ScanningLawVariation" 1 4 4;
    adv 8;
    calls "EqualisationParms" 42 MSG_EqualisationParms_read;
    call "BlackBodyDataWarmStart" MSG_BlackBodyDataWarmStart_read ].

(* MSG_data_IMPFConfiguration.cpp:516-524 *)
Definition MSG_data_IMPFConfiguration_read : reader := fn
  [ call "GPConfigItemVersion" MSG_GPConfigItemVersion_read;
    calls "SuDetails" 50 MSG_SUDetail_read;
    call "WarmStartParms" MSG_WarmStartParms_read ].

(* MSG_data_ImageProdStats.cpp:35-42 *)
Definition MSG_ActualScanningSummary_read : reader := fn
  [ getb "NominalImageScanning" 0 1;
    getb "ReducedScan" 1 1;
    callb "ForwardScanStart" 2 cds_short_read;
    callb "ForwardScanEnd" 8 cds_short_read;
    ret 14 ].

(* MSG_data_ImageProdStats.cpp:55-70 *)
Definition MSG_RadiometerBehaviour_read : reader := fn
  [ getb "NominalBehaviour" 0 1;
    getb "RadScanIrregularity" 1 1;
    getb "RadStoppage" 2 1;
    getb "RepeatCycleNotCompleted" 3 1;
    getb "GainChangeTookPlace" 4 1;
    getb "DecontaminationTookPlace" 5 1;
    getb "NoBBCalibrationAchieved" 6 1;
    getb "IncorrectTemperature" 7 1;
    getb "InvalidBBData" 8 1;
    getb "InvalidAuxOrHKTMData" 9 1;
    getb "RefocusingMechanismActuated" 10 1;
    getb "MirrorBackToReferencePos" 11 1;
    ret 12 ].

(* MSG_data_ImageProdStats.cpp:94-105 *)
Definition MSG_ReceptionSummaryStats_read : reader := fn
  [ for1b "PlannedNumberOfL10Lines" 12 (fun i => i * 4) 4;
    for1b "NumberOfMissingL10Lines" 12 (fun i => 48 + i * 4) 4;
    for1b "NumberOfCorruptedL10Lines" 12 (fun i => 96 + i * 4) 4;
    for1b "NumberOfReplacedL10Lines" 12 (fun i => 144 + i * 4) 4;
    ret 192 ].

(* MSG_data_ImageProdStats.cpp:121-130 *)
Definition MSG_L15ImageValidity_read : reader := fn
  [ getb "NominalImage" 0 1;
    getb "NonNominalBecauseIncomplete" 1 1;
    getb "NonNominalRadiometricQuality" 2 1;
    getb "NonNominalGeometricQuality" 3 1;
    getb "NonNominalTimeliness" 4 1;
    getb "IncompleteL15" 5 1;
    ret 6 ].

(* MSG_data_ImageProdStats.cpp:145-152 *)
Definition MSG_ActualL15CoverageVIS_IR_read : reader := fn
  [ getb "SouthernLineActual" 0 4;
    getb "NorthernLineActual" 4 4;
    getb "EasternColumnActual" 8 4;
    getb "WesternColumnActual" 12 4;
    ret 16 ].

(* MSG_data_ImageProdStats.cpp:163-174 *)
Definition MSG_ActualL15CoverageHRV_read : reader := fn
  [ getb "LowerSouthLineActual" 0 4;
    getb "LowerNorthLineActual" 4 4;
    getb "LowerEastColumnActual" 8 4;
    getb "LowerWestColumnActual" 12 4;
    getb "UpperSouthLineActual" 16 4;
    getb "UpperNorthLineActual" 20 4;
    getb "UpperEastColumnActual" 24 4;
    getb "UpperWestColumnActual" 28 4;
    ret 32 ].

(* MSG_data_ImageProdStats.cpp:198-211 *)
Definition MSG_data_ImageProdStats_read : reader := fn
  [ getb "SatelliteId" 0 2;
    adv 2;
    call "ActualScanningSummary" MSG_ActualScanningSummary_read;
    call "RadiometerBehaviour" MSG_RadiometerBehaviour_read;
    call "ReceptionSummaryStats" MSG_ReceptionSummaryStats_read;
    calls "L15ImageValidity" 12 MSG_L15ImageValidity_read;
    call "ActualL15CoverageVIS_IR" MSG_ActualL15CoverageVIS_IR_read;
    call "ActualL15CoverageHRV" MSG_ActualL15CoverageHRV_read ].

(* MSG_data_NavigExtrResult.cpp:58-70 *)
Definition MSG_HorizonObservation_read : reader := fn
  [ getb "HorizonId" 0 1;
    getb "Alpha" 1 8;
    getb "AlphaConfidence" 9 8;
    getb "Beta" 17 8;
    getb "BetaConfidence" 25 8;
    callb "ObservationTime" 33 cds_read;
    getb "SpinRate" 41 8;
    getb "AlphaDeviation" 49 8;
    getb "BetaDeviation" 57 8;
    ret 65 ].

(* MSG_data_NavigExtrResult.cpp:87-99 *)
Definition MSG_StarObservation_read : reader := fn
  [ getb "StarId" 0 2;
    getb "Alpha" 2 8;
    getb "AlphaConfidence" 10 8;
    getb "Beta" 18 8;
    getb "BetaConfidence" 26 8;
    callb "ObservationTime" 34 cds_read;
    getb "SpinRate" 42 8;
    getb "AlphaDeviation" 50 8;
    getb "BetaDeviation" 58 8;
    ret 66 ].

(* MSG_data_NavigExtrResult.cpp:117-131 *)
Definition MSG_LandmarkObservation_read : reader := fn
  [ getb "LandmarkId" 0 2;
    getb "LandmarkLongitude" 2 8;
    getb "LandmarkLatitude" 10 8;
    getb "Alpha" 18 8;
    getb "AlphaConfidence" 26 8;
    getb "Beta" 34 8;
    getb "BetaConfidence" 42 8;
    callb "ObservationTime" 50 cds_read;
    getb "SpinRate" 60 8;
    getb "AlphaDeviation" 66 8;
    getb "BetaDeviation" 74 8;
    ret 82 ].

(* MSG_data_NavigExtrResult.cpp:160-171 *)
Definition MSG_data_NavigExtrResult_read : reader := fn
  [ calls "ExtractedHorizons" 4 MSG_HorizonObservation_read;
    calls "ExtractedStars" 20 MSG_StarObservation_read;
    calls "ExtractedLandmarks" 50 MSG_LandmarkObservation_read ].

(* MSG_data_RadiometricQuality.cpp:35-144 *)
Definition MSG_L10RadQuality_read : reader := fn
  [ fld "FullImageMinimumCount" 2;
    fld "FullImageMaximumCount" 2;
    fld "EarthDiskMinimumCount" 2;
    fld "EarthDiskMaximumCount" 2;
    fld "MoonMinimumCount" 2;
    fld "MoonMaximumCount" 2;
    fld "FullImageMeanCount" 4;
    fld "FullImageStandardDeviation" 4;
    fld "EarthDiskMeanCount" 4;
    fld "EarthDiskStandardDeviation" 4;
    fld "MoonMeanCount" 4;
    fld "MoonStandardDeviation" 4;
    fld "SpaceMeanCount" 4;
    fld "SpaceStandardDeviation" 4;
    fld "SESpaceCornerMeanCount" 4;
    fld "SESpaceCornerStandardDeviation" 4;
    fld "SWSpaceCornerMeanCount" 4;
    fld "SWSpaceCornerStandardDeviation" 4;
    fld "NESpaceCornerMeanCount" 4;
    fld "NESpaceCornerStandardDeviation" 4;
    fld "NWSpaceCornerMeanCount" 4;
    fld "NWSpaceCornerStandardDeviation" 4;
    fld "FourSpaceCornersMeanCount" 4;
    fld "FourSpaceCornersStandardDeviation" 4;
    for1 "FullImageIstogram" 256 (fun i => i * 4) 4;
    adv 1024;
    for1 "EarthDiskIstogram" 256 (fun i => i * 4) 4;
    adv 1024;
    for1 "ImageCentreSquareIstogram" 256 (fun i => i * 4) 4;
    adv 1024;
    for1 "SESpaceCornerIstogram" 128 (fun i => i * 4) 4;
    adv 512;
    for1 "SWSpaceCornerIstogram" 128 (fun i => i * 4) 4;
    adv 512;
    for1 "NESpaceCornerIstogram" 128 (fun i => i * 4) 4;
    adv 512;
    for1 "NWSpaceCornerIstogram" 128 (fun i => i * 4) 4;
    adv 512;
    for1 "FullImageEntropy" 3 (fun i => i * 4) 4;
    adv 12;
    for1 "EarthDiskEntropy" 3 (fun i => i * 4) 4;
    adv 12;
    for1 "ImageCentreSquareEntropy" 3 (fun i => i * 4) 4;
    adv 12;
    for1 "SESpaceCornerEntropy" 3 (fun i => i * 4) 4;
    adv 12;
    for1 "SWSpaceCornerEntropy" 3 (fun i => i * 4) 4;
    adv 12;
    for1 "NESpaceCornerEntropy" 3 (fun i => i * 4) 4;
    adv 12;
    for1 "NWSpaceCornerEntropy" 3 (fun i => i * 4) 4;
    adv 12;
    for1 "FourSpaceCornersEntropy" 3 (fun i => i * 4) 4;
    adv 12;
    for1 "ImageCentreSquarePSD_EW" 128 (fun i => i * 4) 4;
    adv 512;
    for1 "FullImagePSD_EW" 128 (fun i => i * 4) 4;
    adv 512;
    for1 "ImageCentreSquarePSD_NS" 128 (fun i => i * 4) 4;
    adv 512;
    for1 "FullImagePSD_NS" 128 (fun i => i * 4) 4;
    adv 512 ].

(* MSG_data_RadiometricQuality.cpp:312-382 *)
Definition MSG_L15RadQuality_read : reader := fn
  [ fld "FullImageMinimumCount" 2;
    fld "FullImageMaximumCount" 2;
    fld "EarthDiskMinimumCount" 2;
    fld "EarthDiskMaximumCount" 2;
    fld "FullImageMeanCount" 4;
    fld "FullImageStandardDeviation" 4;
    fld "EarthDiskMeanCount" 4;
    fld "EarthDiskStandardDeviation" 4;
    fld "SpaceMeanCount" 4;
    fld "SpaceStandardDeviation" 4;
    for1 "FullImageIstogram" 256 (fun i => i * 4) 4;
    adv 1024;
    for1 "EarthDiskIstogram" 256 (fun i => i * 4) 4;
    adv 1024;
    for1 "ImageCentreSquareIstogram" 256 (fun i => i * 4) 4;
    adv 1024;
    for1 "FullImageEntropy" 3 (fun i => i * 4) 4;
    adv 12;
    for1 "EarthDiskEntropy" 3 (fun i => i * 4) 4;
    adv 12;
    for1 "ImageCentreSquareEntropy" 3 (fun i => i * 4) 4;
    adv 12;
    for1 "ImageCentreSquarePSD_EW" 128 (fun i => i * 4) 4;
    adv 512;
    for1 "FullImagePSD_EW" 128 (fun i => i * 4) 4;
    adv 512;
    for1 "ImageCentreSquarePSD_NS" 128 (fun i => i * 4) 4;
    adv 512;
    for1 "FullImagePSD_NS" 128 (fun i => i * 4) 4;
    adv 512;
    fld "SESpaceCornerL15_RMS" 4;
    fld "SESpaceCornerL15_Mean" 4;
    fld "SWSpaceCornerL15_RMS" 4;
    fld "SWSpaceCornerL15_Mean" 4;
    fld "NESpaceCornerL15_RMS" 4;
    fld "NESpaceCornerL15_Mean" 4;
    fld "NWSpaceCornerL15_RMS" 4;
    fld "NWSpaceCornerL15_Mean" 4 ].

(* MSG_data_RadiometricQuality.cpp:488-496 *)
Definition MSG_data_RadiometricQuality_read : reader := fn
  [ calls "L10RadQuality" 42 MSG_L10RadQuality_read;
    calls "L15RadQuality" 12 MSG_L15RadQuality_read ].

(* MSG_data_GeometricQuality.cpp:58-74 *)
Definition MSG_Accuracy_read : reader := fn
  [ getb "QualityInfoValidity" 0 1;
    getb "EastWestAccuracyRMS" 1 4;
    getb "NorthSouthAccuracyRMS" 5 4;
    getb "MagnitudeRMS" 9 4;
    getb "EastWestUncertaintyRMS" 13 4;
    getb "NorthSouthUncertaintyRMS" 17 4;
    getb "MagnitudeUncertaintyRMS" 21 4;
    getb "EastWestMaxDeviation" 25 4;
    getb "NorthSouthMaxDeviation" 29 4;
    getb "MagnitudeMaxDeviation" 33 4;
    getb "EastWestUncertaintyMax" 37 4;
    getb "NorthSouthUncertaintyMax" 41 4;
    getb "MagnitudeUncertaintyMax" 45 4;
    ret 49 ].

(* MSG_data_GeometricQuality.cpp:96-110 *)
Definition MSG_Residuals_read : reader := fn
  [ getb "QualityInfoValidity" 0 1;
    getb "EastWestResiduals" 1 4;
    getb "NorthSouthResiduals" 5 4;
    getb "EastWestUncertainty" 9 4;
    getb "NorthSouthUncertainty" 13 4;
    getb "EastWestRMS" 17 4;
    getb "NorthSouthRMS" 21 4;
    getb "EastWestMagnitude" 25 4;
    getb "NorthSouthMagnitude" 29 4;
    getb "EastWestMagnitudeUncertainty" 33 4;
    getb "NorthSouthMagnitudeUncertainty" 37 4;
    ret 41 ].

(* MSG_data_GeometricQuality.cpp:132-141 *)
Definition MSG_GeometricQualityStatus_read : reader := fn
  [ getb "QualityNominal" 0 1;
    getb "NominalAbsolute" 1 1;
    getb "NominalRelativeToPreviousImage" 2 1;
    getb "NominalForREL500" 3 1;
    getb "NominalForREL16" 4 1;
    getb "NominalForResMisreg" 5 1;
    ret 6 ].

(* MSG_data_GeometricQuality.cpp:165-182 *)
Definition MSG_data_GeometricQuality_read : reader := fn
  [ calls "AbsoluteAccuracy" 12 MSG_Accuracy_read;
    calls "RelativeAccuracy" 12 MSG_Accuracy_read;
    calls "N500PixelsRelativeAccuracy" 12 MSG_Accuracy_read;
    calls "N16PixelsRelativeAccuracy" 12 MSG_Accuracy_read;
    calls "MisregistrationResiduals" 12 MSG_Residuals_read;
    calls "GeometricQualityStatus" 12 MSG_GeometricQualityStatus_read ].

(* MSG_data_TimelinComple.cpp:34-40 *)
Definition MSG_Timeliness_read : reader := fn
  [ getb "MaxDelay" 0 4;
    getb "MinDelay" 4 4;
    getb "MeanDelay" 8 4;
    ret 12 ].

(* MSG_data_TimelinComple.cpp:50-58 *)
Definition MSG_Completeness_read : reader := fn
  [ getb "PlannedL15ImageLines" 0 2;
    getb "GeneratedL15ImageLines" 2 2;
    getb "ValidL15ImageLines" 4 2;
    getb "DummyL15ImageLines" 6 2;
    getb "CorruptedL15ImageLines" 8 2;
    ret 10 ].

(* MSG_data_TimelinComple.cpp:79-86 *)
Definition MSG_data_TimelinComple_read : reader := fn
  [ call "Timeliness" MSG_Timeliness_read;
    calls "Completeness" 12 MSG_Completeness_read ].

(* MSG_data.cpp:193-206: the prologue file, dpnt += dpos after each record *)
Definition prologue_read : reader := fn
  [ call "sat_status" MSG_data_SatelliteStatus_read;
    call "image_acquisition" MSG_data_ImageAcquisition_read;
    call "celestial_events" MSG_data_CelestialEvents_read;
    call "image_description" MSG_data_ImageDescription_read;
    call "radiometric_proc" MSG_data_RadiometricProc_read;
    call "geometric_proc" MSG_data_GeometricProc_read ].
(* MSG_data.cpp:245-260: the epilogue file, dpnt = dbuff + 1 *)
Definition epilogue_read : reader := fn
  [ adv 1;
    call "product_stats" MSG_data_ImageProdStats_read;
    call "navig_result" MSG_data_NavigExtrResult_read;
    call "radiometric_qlty" MSG_data_RadiometricQuality_read;
    call "geometric_qlty" MSG_data_GeometricQuality_read;
    call "timelin_comple" MSG_data_TimelinComple_read ].
(* MSG_native_header.cpp:117-132: p advances by the lengths of the headers *)
Definition native_header_read : reader := fn
  [ adv 1;
    callp "sat_status" MSG_data_SatelliteStatus_read; adv 60134;
    callp "image_acquisition" MSG_data_ImageAcquisition_read; adv 700;
    callp "celestial_events" MSG_data_CelestialEvents_read; adv 326058;
    callp "image_description" MSG_data_ImageDescription_read; adv 101;
    callp "radiometric_proc" MSG_data_RadiometricProc_read; adv 20815;
    callp "geometric_proc" MSG_data_GeometricProc_read; adv 17653;
    callp "IMPF_config" MSG_data_IMPFConfiguration_read; adv 19786 ].
(* MSG_native_trailer.cpp:54-65 *)
Definition native_trailer_read : reader := fn
  [ adv 1;
    callp "product_stats" MSG_data_ImageProdStats_read; adv 340;
    callp "navig_result" MSG_data_NavigExtrResult_read; adv 5680;
    callp "radiometric_qlty" MSG_data_RadiometricQuality_read; adv 371256;
    callp "geometric_qlty" MSG_data_GeometricQuality_read; adv 2916;
    callp "timelin_comple" MSG_data_TimelinComple_read; adv 132 ].

(* The reads on a buffer: bytes of each field; outside the buffer is UB. *)
Definition inside (buf : list Z) (a : acc) : bool :=
  let '(_, o, w) := a in (0 <=? o) && (o + w <=? Z.of_nat (List.length buf)).
Definition bytes_of (buf : list Z) (o w : Z) : list Z :=
  firstn (Z.to_nat w) (skipn (Z.to_nat o) buf).
Definition fetch (buf : list Z) (l : list acc) : outcome (list (path * list Z)) :=
  if forallb (inside buf) l
  then Ok (map (fun '(p, o, w) => (p, bytes_of buf o w)) l) else UB.

(* MSG_data.cpp:177-206, 234-260: in.read of data_field_length / 8 bytes into
   dbuff, a short file executes throw without an exception and terminates *)
Definition read_hrit (f : reader) (data_field_length : Z) (file : list Z) : outcome (list (path * list Z)) :=
  let dsize := data_field_length / 8 in
  if Z.of_nat (List.length file) <? dsize then Terminate
  else fetch (firstn (Z.to_nat dsize) file) (fst (f [] 0)).

(* MSG_native_header.cpp:105-138, MSG_native_trailer.cpp:40-71; PacketLength
   is an unsigned int and so is the subtraction *)
Definition read_l15 (f : reader) (l15_len packet_length : Z) (file : list Z) : outcome (list (path * list Z) * list Z) :=
  if negb (l15_len =? (packet_length - 15) mod 2 ^ 32) then Terminate
  else if Z.of_nat (List.length file) <? l15_len then Terminate
  else
    let! vs := fetch (firstn (Z.to_nat l15_len) file) (fst (f [] 0)) in
    if negb (snd (f [] 0) mod 2 ^ 32 =? l15_len) then Terminate
    else Ok (vs, skipn (Z.to_nat l15_len) file).
Definition header_len : Z := 445248. (* MSG_native_header.h:44 *)
Definition trailer_len : Z := 380325. (* MSG_native_trailer.h:35 *)
