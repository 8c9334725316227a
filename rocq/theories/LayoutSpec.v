From Coq Require Import ZArith List Lia Bool String.
From Verif Require Import Base LayoutModel.
Import ListNotations.
Open Scope Z_scope.

(* The published layout: every record is the sequence of its fields, in the
   order and with the types of the class declarations (the headers in
   msat/hrit), one directly after the other.  Enumerations and flags take one
   byte, the satellite id two, a CDS time 6, 8 or 10, a CUC time 7, a
   generalized time 15, the 42 values of 12 bits of DCRValues 63.  Gap is a
   spare part of the file, which no field of the classes holds.  The twenty
   stars of MSG_Star_Coefficient are stored one after the other. *)
Inductive fmt :=
| Leaf (w : Z)
| Gap (w : Z)
| Empty
| Cons (nm : string) (f rest : fmt)
| Arr (n : Z) (f : fmt).
Definition rec (l : list (string * fmt)) : fmt :=
  fold_right (fun x r => Cons (fst x) (snd x) r) Empty l.

Fixpoint size (f : fmt) : Z :=
  match f with
  | Leaf w | Gap w => w
  | Empty => 0
  | Cons _ f r => size f + size r
  | Arr n f => n * size f
  end.
(* the slots of the fields of a record that starts at b *)
Fixpoint slots (f : fmt) (p : path) (b : Z) : list acc :=
  match f with
  | Leaf w | Gap w => [(p, b, w)]
  | Empty => []
  | Cons nm f r => slots f (N nm :: p) b ++ slots r p (b + size f)
  | Arr n f => flat_map (fun i => slots f (I i :: p) (b + i * size f)) (idx n)
  end.
(* the same without the spare parts *)
Fixpoint fields (f : fmt) (p : path) (b : Z) : list acc :=
  match f with
  | Leaf w => [(p, b, w)]
  | Gap _ | Empty => []
  | Cons nm f r => fields f (N nm :: p) b ++ fields r p (b + size f)
  | Arr n f => flat_map (fun i => fields f (I i :: p) (b + i * size f)) (idx n)
  end.

Definition u1 := Leaf 1. Definition u2 := Leaf 2. Definition u4 := Leaf 4.
Definition i4 := Leaf 4. Definition r4 := Leaf 4. Definition r8 := Leaf 8.
Definition cds_short_fmt := rec [ ("day_from_epoch", u2); ("msec_in_day", u4) ]%string.
Definition cds_fmt := rec [ ("day_from_epoch", u2); ("msec_in_day", u4); ("microsecs", u2) ]%string.
Definition cds_expanded_fmt :=
  rec [ ("day_from_epoch", u2); ("msec_in_day", u4); ("microsecs", u2); ("nanosecs", u2) ]%string.
Definition cuc_fmt := rec [ ("cuctime", Leaf 7) ]%string.
Definition generalized_fmt := rec [ ("text", Leaf 15) ]%string.

(* class MSG_orbit_coefficient, MSG_data_SatelliteStatus.h *)
Definition MSG_orbit_coefficient_fmt : fmt := rec
  [ ("StartTime", cds_short_fmt);
    ("EndTime", cds_short_fmt);
    ("X", (Arr 8 r8));
    ("Y", (Arr 8 r8));
    ("Z", (Arr 8 r8));
    ("VX", (Arr 8 r8));
    ("VY", (Arr 8 r8));
    ("VZ", (Arr 8 r8)) ]%string.

(* class MSG_Orbit, MSG_data_SatelliteStatus.h *)
Definition MSG_Orbit_fmt : fmt := rec
  [ ("PeriodStartTime", cds_short_fmt);
    ("PeriodEndTime", cds_short_fmt);
    ("OrbitPoliniomal", (Arr 100 MSG_orbit_coefficient_fmt)) ]%string.

(* class MSG_AttitudeCoeff, MSG_data_SatelliteStatus.h *)
Definition MSG_AttitudeCoeff_fmt : fmt := rec
  [ ("StartTime", cds_short_fmt);
    ("EndTime", cds_short_fmt);
    ("XOfSpinAxis", (Arr 8 r8));
    ("YOfSpinAxis", (Arr 8 r8));
    ("ZOfSpinAxis", (Arr 8 r8)) ]%string.

(* class MSG_Attitude, MSG_data_SatelliteStatus.h *)
Definition MSG_Attitude_fmt : fmt := rec
  [ ("PeriodStartTime", cds_short_fmt);
    ("PeriodEndTime", cds_short_fmt);
    ("PrincipalAxisOffsetAngle", r8);
    ("AttitudePolynomial", (Arr 100 MSG_AttitudeCoeff_fmt)) ]%string.

(* class MSG_UTCCorrelation, MSG_data_SatelliteStatus.h *)
Definition MSG_UTCCorrelation_fmt : fmt := rec
  [ ("PeriodStartTime", cds_short_fmt);
    ("PeriodEndTime", cds_short_fmt);
    ("OnBoardTimeStart", cuc_fmt);
    ("VarOnBoardTimeStart", r8);
    ("A1", r8);
    ("VarA1", r8);
    ("A2", r8);
    ("VarA2", r8) ]%string.

(* class MSG_SatelliteDefinition, MSG_data_SatelliteStatus.h *)
Definition MSG_SatelliteDefinition_fmt : fmt := rec
  [ ("SatelliteId", u2);
    ("NominalLongitude", r4);
    ("SatelliteStatus", u1) ]%string.

(* class MSG_SatelliteOperations, MSG_data_SatelliteStatus.h *)
Definition MSG_SatelliteOperations_fmt : fmt := rec
  [ ("LastManoeuvreFlag", u1);
    ("LastManouvreStartTime", cds_short_fmt);
    ("LastManouvreEndTime", cds_short_fmt);
    ("LastManouvreType", u1);
    ("NextManoeuvreFlag", u1);
    ("NextManouvreStartTime", cds_short_fmt);
    ("NextManouvreEndTime", cds_short_fmt);
    ("NextManouvreType", u1) ]%string.

(* class MSG_data_SatelliteStatus, MSG_data_SatelliteStatus.h *)
Definition MSG_data_SatelliteStatus_fmt : fmt := rec
  [ ("SatelliteDefinition", MSG_SatelliteDefinition_fmt);
    ("SatelliteOperations", MSG_SatelliteOperations_fmt);
    ("Orbit", MSG_Orbit_fmt);
    ("Attitude", MSG_Attitude_fmt);
    ("SpinRateatRCStart", r8);
    ("UTCCorrelation", MSG_UTCCorrelation_fmt) ]%string.

(* class MSG_PlannedAquisitionTime, MSG_data_ImageAcquisition.h *)
Definition MSG_PlannedAquisitionTime_fmt : fmt := rec
  [ ("TrueRepeatCycleStart", cds_expanded_fmt);
    ("PlannedForwardScanEnd", cds_expanded_fmt);
    ("PlannedRepeatCycleEnd", cds_expanded_fmt) ]%string.

(* class MSG_RadiometerStatus, MSG_data_ImageAcquisition.h *)
Definition MSG_RadiometerStatus_fmt : fmt := rec
  [ ("ChannelStatus", (Arr 12 u1));
    ("DetectorStatus", (Arr 42 u1)) ]%string.

(* class MSG_RadiometerSettings, MSG_data_ImageAcquisition.h *)
Definition MSG_RadiometerSettings_fmt : fmt := rec
  [ ("MDUSamplingDelays", (Arr 42 u2));
    ("MDUNomHRVDelay1", u2);
    ("MDUNomHRVDelay2", u2);
    ("spare", Gap 2);
    ("MDUNomHRVBreakline", u2);
    ("DHSSyncSelection", u1);
    ("MDUOutGain", (Arr 42 u2));
    ("MDUCoarseGain", Leaf 42);
    ("MDUFineGain", (Arr 42 u2));
    ("MDUNumericalOffset", (Arr 42 u2));
    ("PUGain", (Arr 42 u2));
    ("PUOffset", (Arr 27 u2));
    ("PUBias", (Arr 15 u2));
    ("L0_LineCounter", u2);
    ("K1_RetraceLines", u2);
    ("K2_PauseDeciseconds", u2);
    ("K3_RetraceLines", u2);
    ("K4_PauseDeciseconds", u2);
    ("K5_RetraceLines", u2);
    ("X_DeepSpaceWindowPosition", u1);
    ("RefocusingLines", u2);
    ("RefocusingDirection", u1);
    ("RefocusingPosition", u2);
    ("ScanRefPosFlag", u1);
    ("ScanRefPosNumber", u2);
    ("ScanRefPotVal", r4);
    ("ScanFirstLine", u2);
    ("ScanLastLine", u2);
    ("RetraceStartLine", u2) ]%string.

(* class MSG_RadiometerOperations, MSG_data_ImageAcquisition.h *)
Definition MSG_RadiometerOperations_fmt : fmt := rec
  [ ("LastGainChangeFlag", u1);
    ("LastGainChangeTime", cds_short_fmt);
    ("DecontaminationNow", u1);
    ("DecontaminationStart", cds_short_fmt);
    ("DecontaminationEnd", cds_short_fmt);
    ("BBCalScheduled", u1);
    ("BBCalibrationType", u1);
    ("BBFirstLine", u2);
    ("BBLastLine", u2);
    ("ColdFocalPlaneOpTemp", u2);
    ("WarmFocalPlaneOpTemp", u2) ]%string.

(* class MSG_data_ImageAcquisition, MSG_data_ImageAcquisition.h *)
Definition MSG_data_ImageAcquisition_fmt : fmt := rec
  [ ("PlannedAquisitionTime", MSG_PlannedAquisitionTime_fmt);
    ("RadiometerStatus", MSG_RadiometerStatus_fmt);
    ("RadiometerSettings", MSG_RadiometerSettings_fmt);
    ("RadiometerOperations", MSG_RadiometerOperations_fmt) ]%string.

(* class MSG_Star_Coefficient, MSG_data_CelestialEvents.h *)
Definition MSG_Star_Coefficient_fmt : fmt := Arr 20 (rec
  [ ("StarId", u2);
    ("StartTime", cds_short_fmt);
    ("EndTime", cds_short_fmt);
    ("AlphaCoef", (Arr 8 r8));
    ("BetaCoef", (Arr 8 r8)) ]%string).

(* class MSG_Earth_Moon_Sun_Coefficient, MSG_data_CelestialEvents.h *)
Definition MSG_Earth_Moon_Sun_Coefficient_fmt : fmt := rec
  [ ("StartTime", cds_short_fmt);
    ("EndTime", cds_short_fmt);
    ("AlphaCoef", (Arr 8 r8));
    ("BetaCoef", (Arr 8 r8)) ]%string.

(* class MSG_Ephemeris, MSG_data_CelestialEvents.h *)
Definition MSG_Ephemeris_fmt : fmt := rec
  [ ("PeriodStartTime", cds_short_fmt);
    ("PeriodEndTime", cds_short_fmt);
    ("RelatedOrbitFileTime", generalized_fmt);
    ("RelatedAttitudeFileTime", generalized_fmt);
    ("EarthEphemeris", (Arr 100 MSG_Earth_Moon_Sun_Coefficient_fmt));
    ("MoonEphemeris", (Arr 100 MSG_Earth_Moon_Sun_Coefficient_fmt));
    ("SunEphemeris", (Arr 100 MSG_Earth_Moon_Sun_Coefficient_fmt));
    ("StarEphemeris", (Arr 100 MSG_Star_Coefficient_fmt)) ]%string.

(* class MSG_CelestialBodiesPosition, MSG_data_CelestialEvents.h *)
Definition MSG_CelestialBodiesPosition_fmt : fmt := rec
  [ ("Ephemeris", MSG_Ephemeris_fmt) ]%string.

(* class MSG_RelationToImage, MSG_data_CelestialEvents.h *)
Definition MSG_RelationToImage_fmt : fmt := rec
  [ ("TypeofEclypse", u1);
    ("EclipseStartTime", cds_short_fmt);
    ("EclipseEndTime", cds_short_fmt);
    ("VisibleBodiesInImage", u1);
    ("BodiesClosesttoFOV", u1);
    ("ImpactOnImageQuality", u1) ]%string.

(* class MSG_data_CelestialEvents, MSG_data_CelestialEvents.h *)
Definition MSG_data_CelestialEvents_fmt : fmt := rec
  [ ("CelestialBodiesPosition", MSG_CelestialBodiesPosition_fmt);
    ("RelationToImage", MSG_RelationToImage_fmt) ]%string.

(* class MSG_grid, MSG_data_ImageDescription.h *)
Definition MSG_grid_fmt : fmt := rec
  [ ("NumberofLines", i4);
    ("NumberofColumns", i4);
    ("LineDirGridStep", r4);
    ("ColumnDirGridStep", r4);
    ("GridOrigin", u1) ]%string.

(* class MSG_coverage_IR, MSG_data_ImageDescription.h *)
Definition MSG_coverage_IR_fmt : fmt := rec
  [ ("SouthernLinePlanned", i4);
    ("NorthernLinePlanned", i4);
    ("EasternColumnPlanned", i4);
    ("WesternColumnPlanned", i4) ]%string.

(* class MSG_coverage_HRV, MSG_data_ImageDescription.h *)
Definition MSG_coverage_HRV_fmt : fmt := rec
  [ ("LowerSouthLinePlanned", i4);
    ("LowerNorthLinePlanned", i4);
    ("LowerEastColumnPlanned", i4);
    ("LowerWestColumnPlanned", i4);
    ("UpperSouthLinePlanned", i4);
    ("UpperNorthLinePlanned", i4);
    ("UpperEastColumnPlanned", i4);
    ("UpperWestColumnPlanned", i4) ]%string.

(* class MSG_ProjectionDescription, MSG_data_ImageDescription.h *)
Definition MSG_ProjectionDescription_fmt : fmt := rec
  [ ("TypeOfProjection", u1);
    ("LongitudeOfSSP", r4) ]%string.

(* class MSG_Level1_5ImageProduction, MSG_data_ImageDescription.h *)
Definition MSG_Level1_5ImageProduction_fmt : fmt := rec
  [ ("ImageProcDirection", u1);
    ("PixelGenDirection", u1);
    ("PlannedChanProcessing", (Arr 12 u1)) ]%string.

(* class MSG_data_ImageDescription, MSG_data_ImageDescription.h *)
Definition MSG_data_ImageDescription_fmt : fmt := rec
  [ ("ProjectionDescription", MSG_ProjectionDescription_fmt);
    ("ReferenceGridVIS_IR", MSG_grid_fmt);
    ("ReferenceGridHRV", MSG_grid_fmt);
    ("PlannedCoverageVIS_IR", MSG_coverage_IR_fmt);
    ("PlannedCoverageHRV", MSG_coverage_HRV_fmt);
    ("Level1_5ImageProduction", MSG_Level1_5ImageProduction_fmt) ]%string.

(* class MSG_Image_Calibration, MSG_data_RadiometricProc.h *)
Definition MSG_Image_Calibration_fmt : fmt := rec
  [ ("Cal_Slope", r8);
    ("Cal_Offset", r8) ]%string.

(* class MSG_ExtractedBBData, MSG_data_RadiometricProc.h *)
Definition MSG_ExtractedBBData_fmt : fmt := rec
  [ ("NumberOfPixelsUsed", u4);
    ("MeanCount", r4);
    ("RMS", r4);
    ("MaxCount", u2);
    ("MinCount", u2);
    ("BB_Processing_Slope", r8);
    ("BB_Processing_Offset", r8) ]%string.

(* class MSG_IMPF_CAL_Data, MSG_data_RadiometricProc.h *)
Definition MSG_IMPF_CAL_Data_fmt : fmt := rec
  [ ("ImageQualityFlag", u1);
    ("ReferenceDataFlag", u1);
    ("AbsCalMethod", u1);
    ("spare", Gap 1);
    ("AbsCalWeightVic", r4);
    ("AbsCalWeightXsat", r4);
    ("AbsCalCoeff", r4);
    ("AbsCalError", r4);
    ("CalMonBias", r4);
    ("CalMonRms", r4);
    ("OffsetCount", r4) ]%string.

(* class MSG_BlackBodyDataUsed, MSG_data_RadiometricProc.h *)
Definition MSG_BlackBodyDataUsed_fmt : fmt := rec
  [ ("BBObservationUTC", cds_expanded_fmt);
    ("OnBoardBBTime", cuc_fmt);
    ("MDUOutGain", (Arr 42 u2));
    ("MDUCoarseGain", (Arr 42 u1));
    ("MDUFineGain", (Arr 42 u2));
    ("MDUNumerical_Offset", (Arr 42 u2));
    ("PUGain", (Arr 42 u2));
    ("PUOffset", (Arr 27 u2));
    ("PUBias", (Arr 15 u2));
    ("DCRValues", Leaf 63);
    ("XDeepSpaceWindowPosition", u1);
    ("FCUNominalColdFocalPlaneTemp", u2);
    ("FCURedundantColdFocalPlaneTemp", u2);
    ("FCUNominalWarmFocalPlaneVHROTemp", u2);
    ("FCURedundantWarmFocalPlaneVHROTemp", u2);
    ("FCUNominalScanMirrorSensor1Temp", u2);
    ("FCURedundantScanMirrorSensor1Temp", u2);
    ("FCUNominalScanMirrorSensor2Temp", u2);
    ("FCURedundantScanMirrorSensor2Temp", u2);
    ("FCUNominalM1MirrorSensor1Temp", u2);
    ("FCURedundantM1MirrorSensor1Temp", u2);
    ("FCUNominalM1MirrorSensor2Temp", u2);
    ("FCURedundantM1MirrorSensor2Temp", u2);
    ("FCUNominalM23AssemblySensor1Temp", u1);
    ("FCURedundantM23AssemblySensor1Temp", u1);
    ("FCUNominalM23AssemblySensor2Temp", u1);
    ("FCURedundantM23AssemblySensor2Temp", u1);
    ("FCUNominalM1BaffleTemp", u2);
    ("FCURedundantM1BaffleTemp", u2);
    ("FCUNominalBlackBodySensorTemp", u2);
    ("FCURedundantBlackBodySensorTemp", u2);
    ("FCUNominalSMMStatus", u2);
    ("FCURedundantSMMStatus", u2);
    ("ExtractedBBData", (Arr 12 MSG_ExtractedBBData_fmt)) ]%string.

(* class MSG_RadProcMTFAdaptation, MSG_data_RadiometricProc.h *)
Definition MSG_RadProcMTFAdaptation_fmt : fmt := rec
  [ ("VIS_IRMTFCorrectionE_W", (Arr 33 (Arr 16 r4)));
    ("VIS_IRMTFCorrectionN_S", (Arr 33 (Arr 16 r4)));
    ("HRVIRMTFCorrectionE_W", (Arr 9 (Arr 16 r4)));
    ("HRVIRMTFCorrectionN_S", (Arr 9 (Arr 16 r4))) ]%string.

(* class MSG_MPEFCalFeedback, MSG_data_RadiometricProc.h *)
Definition MSG_MPEFCalFeedback_fmt : fmt := rec
  [ ("IMPF_CAL_Data", (Arr 12 MSG_IMPF_CAL_Data_fmt)) ]%string.

(* class MSG_RPSummary, MSG_data_RadiometricProc.h *)
Definition MSG_RPSummary_fmt : fmt := rec
  [ ("RadianceLinearization", (Arr 12 u1));
    ("DetectorEqualization", (Arr 12 u1));
    ("OnboardCalibrationResult", (Arr 12 u1));
    ("MPEFCalFeedBack", (Arr 12 u1));
    ("MTFAdaptation", (Arr 12 u1));
    ("StraylightCorrectionFlag", (Arr 12 u1)) ]%string.

(* class MSG_data_RadiometricProc, MSG_data_RadiometricProc.h *)
Definition MSG_data_RadiometricProc_fmt : fmt := rec
  [ ("RPSummary", MSG_RPSummary_fmt);
    ("ImageCalibration", (Arr 12 MSG_Image_Calibration_fmt));
    ("BlackBodyDataUsed", MSG_BlackBodyDataUsed_fmt);
    ("MPEFCalFeedback", MSG_MPEFCalFeedback_fmt);
    ("RadTransform", (Arr 42 (Arr 64 r4)));
    ("RadProcMTFAdaptation", MSG_RadProcMTFAdaptation_fmt);
    ("StraylightCorrection", (Arr 12 (Arr 8 (Arr 8 r4)))) ]%string.

(* class MSG_OptAxisDistances, MSG_data_GeometricProc.h *)
Definition MSG_OptAxisDistances_fmt : fmt := rec
  [ ("E_W_FocalPlane", (Arr 42 r4));
    ("N_S_FocalPlane", (Arr 42 r4)) ]%string.

(* class MSG_EarthModel, MSG_data_GeometricProc.h *)
Definition MSG_EarthModel_fmt : fmt := rec
  [ ("TypeofEarthModel", u1);
    ("EquatorialRadius", r8);
    ("NorthPolarRadius", r8);
    ("SouthPolarRadius", r8) ]%string.

(* class MSG_data_GeometricProc, MSG_data_GeometricProc.h *)
Definition MSG_data_GeometricProc_fmt : fmt := rec
  [ ("OptAxisDistances", MSG_OptAxisDistances_fmt);
    ("EarthModel", MSG_EarthModel_fmt);
    ("AtmosphericModel", (Arr 12 (Arr 360 r4)));
    ("ResamplingFunction", (Arr 12 u1)) ]%string.

(* class MSG_GPConfigItemVersion, MSG_data_IMPFConfiguration.h *)
Definition MSG_GPConfigItemVersion_fmt : fmt := rec
  [ ("Issue", u2);
    ("Revision", u2) ]%string.

(* class MSG_MirrorParameters, MSG_data_IMPFConfiguration.h *)
Definition MSG_MirrorParameters_fmt : fmt := rec
  [ ("MaxFeedbackVoltage", r8);
    ("MinFeedbackVoltage", r8);
    ("MirrorSlipEstimate", r8) ]%string.

(* class MSG_HKTMParameters, MSG_data_IMPFConfiguration.h *)
Definition MSG_HKTMParameters_fmt : fmt := rec
  [ ("TimeS0Packet", cds_short_fmt);
    ("TimeS1Packet", cds_short_fmt);
    ("TimeS2Packet", cds_short_fmt);
    ("TimeS3Packet", cds_short_fmt);
    ("TimeS4Packet", cds_short_fmt);
    ("TimeS5Packet", cds_short_fmt);
    ("TimeS6Packet", cds_short_fmt);
    ("TimeS7Packet", cds_short_fmt);
    ("TimeS8Packet", cds_short_fmt);
    ("TimeS9Packet", cds_short_fmt);
    ("TimeSYPacket", cds_short_fmt);
    ("TimePSPacket", cds_short_fmt);
    ("WSPReserved", Gap 3408) ]%string.

(* class MSG_SUConfiguration, MSG_data_IMPFConfiguration.h *)
Definition MSG_SUConfiguration_fmt : fmt := rec
  [ ("SWVersion", MSG_GPConfigItemVersion_fmt);
    ("InfoBaseVersion", (Arr 10 MSG_GPConfigItemVersion_fmt)) ]%string.

(* class MSG_SUDetail, MSG_data_IMPFConfiguration.h *)
Definition MSG_SUDetail_fmt : fmt := rec
  [ ("SoftwareUnitId", u4);
    ("SUIdInstance", u1);
    ("SUMode", u1);
    ("SUState", u1);
    ("SUConfiguration", MSG_SUConfiguration_fmt) ]%string.

(* class MSG_EqualisationParms, MSG_data_IMPFConfiguration.h *)
Definition MSG_EqualisationParms_fmt : fmt := rec
  [ ("ConstCoef", r4);
    ("LinearCoef", r4);
    ("QuadraticCoef", r4) ]%string.

(* class MSG_BlackBodyDataWarmStart, MSG_data_IMPFConfiguration.h *)
Definition MSG_BlackBodyDataWarmStart_fmt : fmt := rec
  [ ("GTotalForMethod1", (Arr 12 r8));
    ("GTotalForMethod2", (Arr 12 r8));
    ("GTotalForMethod3", (Arr 12 r8));
    ("GBackForMethod1", (Arr 12 r8));
    ("GBackForMethod2", (Arr 12 r8));
    ("GBackForMethod3", (Arr 12 r8));
    ("RatioGTotalToGBack", (Arr 12 r8));
    ("GainInFrontOpticsCont", (Arr 12 r8));
    ("CalibrationConstants", (Arr 12 r4));
    ("TimeOfColdObsSeconds", r8);
    ("TimeOfColdObsNanoSecs", r8);
    ("IncidentRadiance", (Arr 12 r8));
    ("TempCal", r8);
    ("TempM1", r8);
    ("TempScan", r8);
    ("TempM1Baf", r8);
    ("TempCalSurround", r8);
    ("MirrorParameters", MSG_MirrorParameters_fmt);
    ("LastSpinPeriod", r8);
    ("HKTMParameters", MSG_HKTMParameters_fmt) ]%string.

(* class MSG_WarmStartParms, MSG_data_IMPFConfiguration.h *)
Definition MSG_WarmStartParms_fmt : fmt := rec
  [ ("ScanningLaw", (Arr 1527 r8));
    ("RadFramesAlignment", (Arr 3 r8));
    ("ScanningLawVariation", (Arr 2 r4));
    ("EqualisationParms", (Arr 42 MSG_EqualisationParms_fmt));
    ("BlackBodyDataWarmStart", MSG_BlackBodyDataWarmStart_fmt) ]%string.

(* class MSG_data_IMPFConfiguration, MSG_data_IMPFConfiguration.h *)
Definition MSG_data_IMPFConfiguration_fmt : fmt := rec
  [ ("GPConfigItemVersion", MSG_GPConfigItemVersion_fmt);
    ("SuDetails", (Arr 50 MSG_SUDetail_fmt));
    ("WarmStartParms", MSG_WarmStartParms_fmt) ]%string.

(* class MSG_ActualScanningSummary, MSG_data_ImageProdStats.h *)
Definition MSG_ActualScanningSummary_fmt : fmt := rec
  [ ("NominalImageScanning", u1);
    ("ReducedScan", u1);
    ("ForwardScanStart", cds_short_fmt);
    ("ForwardScanEnd", cds_short_fmt) ]%string.

(* class MSG_RadiometerBehaviour, MSG_data_ImageProdStats.h *)
Definition MSG_RadiometerBehaviour_fmt : fmt := rec
  [ ("NominalBehaviour", u1);
    ("RadScanIrregularity", u1);
    ("RadStoppage", u1);
    ("RepeatCycleNotCompleted", u1);
    ("GainChangeTookPlace", u1);
    ("DecontaminationTookPlace", u1);
    ("NoBBCalibrationAchieved", u1);
    ("IncorrectTemperature", u1);
    ("InvalidBBData", u1);
    ("InvalidAuxOrHKTMData", u1);
    ("RefocusingMechanismActuated", u1);
    ("MirrorBackToReferencePos", u1) ]%string.

(* class MSG_ReceptionSummaryStats, MSG_data_ImageProdStats.h *)
Definition MSG_ReceptionSummaryStats_fmt : fmt := rec
  [ ("PlannedNumberOfL10Lines", (Arr 12 u4));
    ("NumberOfMissingL10Lines", (Arr 12 u4));
    ("NumberOfCorruptedL10Lines", (Arr 12 u4));
    ("NumberOfReplacedL10Lines", (Arr 12 u4)) ]%string.

(* class MSG_L15ImageValidity, MSG_data_ImageProdStats.h *)
Definition MSG_L15ImageValidity_fmt : fmt := rec
  [ ("NominalImage", u1);
    ("NonNominalBecauseIncomplete", u1);
    ("NonNominalRadiometricQuality", u1);
    ("NonNominalGeometricQuality", u1);
    ("NonNominalTimeliness", u1);
    ("IncompleteL15", u1) ]%string.

(* class MSG_ActualL15CoverageVIS_IR, MSG_data_ImageProdStats.h *)
Definition MSG_ActualL15CoverageVIS_IR_fmt : fmt := rec
  [ ("SouthernLineActual", i4);
    ("NorthernLineActual", i4);
    ("EasternColumnActual", i4);
    ("WesternColumnActual", i4) ]%string.

(* class MSG_ActualL15CoverageHRV, MSG_data_ImageProdStats.h *)
Definition MSG_ActualL15CoverageHRV_fmt : fmt := rec
  [ ("LowerSouthLineActual", i4);
    ("LowerNorthLineActual", i4);
    ("LowerEastColumnActual", i4);
    ("LowerWestColumnActual", i4);
    ("UpperSouthLineActual", i4);
    ("UpperNorthLineActual", i4);
    ("UpperEastColumnActual", i4);
    ("UpperWestColumnActual", i4) ]%string.

(* class MSG_data_ImageProdStats, MSG_data_ImageProdStats.h *)
Definition MSG_data_ImageProdStats_fmt : fmt := rec
  [ ("SatelliteId", u2);
    ("ActualScanningSummary", MSG_ActualScanningSummary_fmt);
    ("RadiometerBehaviour", MSG_RadiometerBehaviour_fmt);
    ("ReceptionSummaryStats", MSG_ReceptionSummaryStats_fmt);
    ("L15ImageValidity", (Arr 12 MSG_L15ImageValidity_fmt));
    ("ActualL15CoverageVIS_IR", MSG_ActualL15CoverageVIS_IR_fmt);
    ("ActualL15CoverageHRV", MSG_ActualL15CoverageHRV_fmt) ]%string.

(* class MSG_HorizonObservation, MSG_data_NavigExtrResult.h *)
Definition MSG_HorizonObservation_fmt : fmt := rec
  [ ("HorizonId", u1);
    ("Alpha", r8);
    ("AlphaConfidence", r8);
    ("Beta", r8);
    ("BetaConfidence", r8);
    ("ObservationTime", cds_fmt);
    ("SpinRate", r8);
    ("AlphaDeviation", r8);
    ("BetaDeviation", r8) ]%string.

(* class MSG_StarObservation, MSG_data_NavigExtrResult.h *)
Definition MSG_StarObservation_fmt : fmt := rec
  [ ("StarId", u2);
    ("Alpha", r8);
    ("AlphaConfidence", r8);
    ("Beta", r8);
    ("BetaConfidence", r8);
    ("ObservationTime", cds_fmt);
    ("SpinRate", r8);
    ("AlphaDeviation", r8);
    ("BetaDeviation", r8) ]%string.

(* class MSG_LandmarkObservation, MSG_data_NavigExtrResult.h *)
Definition MSG_LandmarkObservation_fmt : fmt := rec
  [ ("LandmarkId", u2);
    ("LandmarkLongitude", r8);
    ("LandmarkLatitude", r8);
    ("Alpha", r8);
    ("AlphaConfidence", r8);
    ("Beta", r8);
    ("BetaConfidence", r8);
    ("ObservationTime", cds_fmt);
    ("SpinRate", r8);
    ("AlphaDeviation", r8);
    ("BetaDeviation", r8) ]%string.

(* class MSG_data_NavigExtrResult, MSG_data_NavigExtrResult.h *)
Definition MSG_data_NavigExtrResult_fmt : fmt := rec
  [ ("ExtractedHorizons", (Arr 4 MSG_HorizonObservation_fmt));
    ("ExtractedStars", (Arr 20 MSG_StarObservation_fmt));
    ("ExtractedLandmarks", (Arr 50 MSG_LandmarkObservation_fmt)) ]%string.

(* class MSG_L10RadQuality, MSG_data_RadiometricQuality.h *)
Definition MSG_L10RadQuality_fmt : fmt := rec
  [ ("FullImageMinimumCount", u2);
    ("FullImageMaximumCount", u2);
    ("EarthDiskMinimumCount", u2);
    ("EarthDiskMaximumCount", u2);
    ("MoonMinimumCount", u2);
    ("MoonMaximumCount", u2);
    ("FullImageMeanCount", r4);
    ("FullImageStandardDeviation", r4);
    ("EarthDiskMeanCount", r4);
    ("EarthDiskStandardDeviation", r4);
    ("MoonMeanCount", r4);
    ("MoonStandardDeviation", r4);
    ("SpaceMeanCount", r4);
    ("SpaceStandardDeviation", r4);
    ("SESpaceCornerMeanCount", r4);
    ("SESpaceCornerStandardDeviation", r4);
    ("SWSpaceCornerMeanCount", r4);
    ("SWSpaceCornerStandardDeviation", r4);
    ("NESpaceCornerMeanCount", r4);
    ("NESpaceCornerStandardDeviation", r4);
    ("NWSpaceCornerMeanCount", r4);
    ("NWSpaceCornerStandardDeviation", r4);
    ("FourSpaceCornersMeanCount", r4);
    ("FourSpaceCornersStandardDeviation", r4);
    ("FullImageIstogram", (Arr 256 u4));
    ("EarthDiskIstogram", (Arr 256 u4));
    ("ImageCentreSquareIstogram", (Arr 256 u4));
    ("SESpaceCornerIstogram", (Arr 128 u4));
    ("SWSpaceCornerIstogram", (Arr 128 u4));
    ("NESpaceCornerIstogram", (Arr 128 u4));
    ("NWSpaceCornerIstogram", (Arr 128 u4));
    ("FullImageEntropy", (Arr 3 r4));
    ("EarthDiskEntropy", (Arr 3 r4));
    ("ImageCentreSquareEntropy", (Arr 3 r4));
    ("SESpaceCornerEntropy", (Arr 3 r4));
    ("SWSpaceCornerEntropy", (Arr 3 r4));
    ("NESpaceCornerEntropy", (Arr 3 r4));
    ("NWSpaceCornerEntropy", (Arr 3 r4));
    ("FourSpaceCornersEntropy", (Arr 3 r4));
    ("ImageCentreSquarePSD_EW", (Arr 128 r4));
    ("FullImagePSD_EW", (Arr 128 r4));
    ("ImageCentreSquarePSD_NS", (Arr 128 r4));
    ("FullImagePSD_NS", (Arr 128 r4)) ]%string.

(* class MSG_L15RadQuality, MSG_data_RadiometricQuality.h *)
Definition MSG_L15RadQuality_fmt : fmt := rec
  [ ("FullImageMinimumCount", u2);
    ("FullImageMaximumCount", u2);
    ("EarthDiskMinimumCount", u2);
    ("EarthDiskMaximumCount", u2);
    ("FullImageMeanCount", r4);
    ("FullImageStandardDeviation", r4);
    ("EarthDiskMeanCount", r4);
    ("EarthDiskStandardDeviation", r4);
    ("SpaceMeanCount", r4);
    ("SpaceStandardDeviation", r4);
    ("FullImageIstogram", (Arr 256 u4));
    ("EarthDiskIstogram", (Arr 256 u4));
    ("ImageCentreSquareIstogram", (Arr 256 u4));
    ("FullImageEntropy", (Arr 3 r4));
    ("EarthDiskEntropy", (Arr 3 r4));
    ("ImageCentreSquareEntropy", (Arr 3 r4));
    ("ImageCentreSquarePSD_EW", (Arr 128 r4));
    ("FullImagePSD_EW", (Arr 128 r4));
    ("ImageCentreSquarePSD_NS", (Arr 128 r4));
    ("FullImagePSD_NS", (Arr 128 r4));
    ("SESpaceCornerL15_RMS", r4);
    ("SESpaceCornerL15_Mean", r4);
    ("SWSpaceCornerL15_RMS", r4);
    ("SWSpaceCornerL15_Mean", r4);
    ("NESpaceCornerL15_RMS", r4);
    ("NESpaceCornerL15_Mean", r4);
    ("NWSpaceCornerL15_RMS", r4);
    ("NWSpaceCornerL15_Mean", r4) ]%string.

(* class MSG_data_RadiometricQuality, MSG_data_RadiometricQuality.h *)
Definition MSG_data_RadiometricQuality_fmt : fmt := rec
  [ ("L10RadQuality", (Arr 42 MSG_L10RadQuality_fmt));
    ("L15RadQuality", (Arr 12 MSG_L15RadQuality_fmt)) ]%string.

(* class MSG_Accuracy, MSG_data_GeometricQuality.h *)
Definition MSG_Accuracy_fmt : fmt := rec
  [ ("QualityInfoValidity", u1);
    ("EastWestAccuracyRMS", r4);
    ("NorthSouthAccuracyRMS", r4);
    ("MagnitudeRMS", r4);
    ("EastWestUncertaintyRMS", r4);
    ("NorthSouthUncertaintyRMS", r4);
    ("MagnitudeUncertaintyRMS", r4);
    ("EastWestMaxDeviation", r4);
    ("NorthSouthMaxDeviation", r4);
    ("MagnitudeMaxDeviation", r4);
    ("EastWestUncertaintyMax", r4);
    ("NorthSouthUncertaintyMax", r4);
    ("MagnitudeUncertaintyMax", r4) ]%string.

(* class MSG_Residuals, MSG_data_GeometricQuality.h *)
Definition MSG_Residuals_fmt : fmt := rec
  [ ("QualityInfoValidity", u1);
    ("EastWestResiduals", r4);
    ("NorthSouthResiduals", r4);
    ("EastWestUncertainty", r4);
    ("NorthSouthUncertainty", r4);
    ("EastWestRMS", r4);
    ("NorthSouthRMS", r4);
    ("EastWestMagnitude", r4);
    ("NorthSouthMagnitude", r4);
    ("EastWestMagnitudeUncertainty", r4);
    ("NorthSouthMagnitudeUncertainty", r4) ]%string.

(* class MSG_GeometricQualityStatus, MSG_data_GeometricQuality.h *)
Definition MSG_GeometricQualityStatus_fmt : fmt := rec
  [ ("QualityNominal", u1);
    ("NominalAbsolute", u1);
    ("NominalRelativeToPreviousImage", u1);
    ("NominalForREL500", u1);
    ("NominalForREL16", u1);
    ("NominalForResMisreg", u1) ]%string.

(* class MSG_data_GeometricQuality, MSG_data_GeometricQuality.h *)
Definition MSG_data_GeometricQuality_fmt : fmt := rec
  [ ("AbsoluteAccuracy", (Arr 12 MSG_Accuracy_fmt));
    ("RelativeAccuracy", (Arr 12 MSG_Accuracy_fmt));
    ("N500PixelsRelativeAccuracy", (Arr 12 MSG_Accuracy_fmt));
    ("N16PixelsRelativeAccuracy", (Arr 12 MSG_Accuracy_fmt));
    ("MisregistrationResiduals", (Arr 12 MSG_Residuals_fmt));
    ("GeometricQualityStatus", (Arr 12 MSG_GeometricQualityStatus_fmt)) ]%string.

(* class MSG_Timeliness, MSG_data_TimelinComple.h *)
Definition MSG_Timeliness_fmt : fmt := rec
  [ ("MaxDelay", r4);
    ("MinDelay", r4);
    ("MeanDelay", r4) ]%string.

(* class MSG_Completeness, MSG_data_TimelinComple.h *)
Definition MSG_Completeness_fmt : fmt := rec
  [ ("PlannedL15ImageLines", u2);
    ("GeneratedL15ImageLines", u2);
    ("ValidL15ImageLines", u2);
    ("DummyL15ImageLines", u2);
    ("CorruptedL15ImageLines", u2) ]%string.

(* class MSG_data_TimelinComple, MSG_data_TimelinComple.h *)
Definition MSG_data_TimelinComple_fmt : fmt := rec
  [ ("Timeliness", MSG_Timeliness_fmt);
    ("Completeness", (Arr 12 MSG_Completeness_fmt)) ]%string.

Definition prologue_records : list (string * fmt) :=
  [ ("sat_status", MSG_data_SatelliteStatus_fmt);
    ("image_acquisition", MSG_data_ImageAcquisition_fmt);
    ("celestial_events", MSG_data_CelestialEvents_fmt);
    ("image_description", MSG_data_ImageDescription_fmt);
    ("radiometric_proc", MSG_data_RadiometricProc_fmt);
    ("geometric_proc", MSG_data_GeometricProc_fmt) ]%string.
Definition trailer_records : list (string * fmt) :=
  [ ("product_stats", MSG_data_ImageProdStats_fmt);
    ("navig_result", MSG_data_NavigExtrResult_fmt);
    ("radiometric_qlty", MSG_data_RadiometricQuality_fmt);
    ("geometric_qlty", MSG_data_GeometricQuality_fmt);
    ("timelin_comple", MSG_data_TimelinComple_fmt) ]%string.
Definition prologue_fmt : fmt := rec prologue_records.
(* one version byte first *)
Definition header_fmt : fmt :=
  rec (("spare", Gap 1) :: prologue_records ++ [("IMPF_config", MSG_data_IMPFConfiguration_fmt)])%string.
Definition trailer_fmt : fmt := rec (("spare", Gap 1) :: trailer_records)%string.

(* The bytes that hold x *)
Definition holds (x : Z) (a : acc) : bool := let '(_, o, w) := a in (o <=? x) && (x <? o + w).

(* How far from its slot each field is read: the four families of fields that
   the code decodes from other bytes. *)
Definition moved (p : path) : Z :=
  match p with
  | I i :: N s :: _ =>
      if String.eqb s "ResamplingFunction" then - i
      else if String.eqb s "CalibrationConstants" then 4 * i else 0
  | N s :: q =>
      if String.eqb s "DCRValues" then -479
      else if String.eqb s "SpinRate" then
        match q with
        | I _ :: N t :: _ => if String.eqb t "ExtractedLandmarks" then 2 else 0
        | _ => 0
        end
      else 0
  | _ => 0
  end.
Definition displace (a : acc) : acc := let '(p, o, w) := a in (p, o + moved p, w).
