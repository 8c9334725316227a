(** C112: what is read from a GRIB copy of an image. *)
From Coq Require Import ZArith QArith Reals String List Lia Lra.
From Flocq Require Import Core.
From Verif Require Import Base BaseFacts IniModel FactsModel GeoModel GeoProps ScanModel ToolModel ToolRunProps SunModel PixModel PixProps GribHrv GribModel GribProps.
Import ListNotations.
Open Scope string_scope.
Open Scope list_scope.
Open Scope Z_scope.

(** ** Keys after a sequence of sets *)
Definition time_keys : list string := ["centuryOfReferenceTimeOfData"; "yearOfCentury"; "year"; "month"; "day"; "hour"; "minute"; "second"].
Definition act_touches (a : act) (k : string) : bool :=
  match a with
  | AL k0 _ | AOne k0 _ | AD k0 _ => touches k0 k
  | ATime _ => existsb (fun k0 => touches k0 k) time_keys
  | AV _ => touches "values" k
  | _ => false
  end.
Fixpoint known (k : string) (l : list act) (cur : option Z) : option Z :=
  match l with
  | [] => cur
  | a :: l' => known k l' (match a with
                           | AL k0 v | AOne k0 v => if String.eqb k0 k then Some v else if touches k0 k then None else cur
                           | _ => if act_touches a k then None else cur
                           end)
  end.
Fixpoint known_d (k : string) (l : list act) (cur : option R) : option R :=
  match l with
  | [] => cur
  | a :: l' => known_d k l' (match a with
                             | AD k0 v => if String.eqb k0 k then v else if touches k0 k then None else cur
                             | _ => if act_touches a k then None else cur
                             end)
  end.
Section Runs.
Variable L : glib.
Hypothesis F : faithful L.
Lemma setTime_keeps m t m' k : setTime L true m t = Ok (Some m') -> existsb (fun k0 => touches k0 k) time_keys = false -> g_long L m' k = g_long L m k /\ g_double L m' k = g_double L m k.
Proof.
  intros E N. cbn in N. repeat rewrite Bool.orb_false_iff in N. destruct N as (N1 & N2 & N3 & N4 & N5 & N6 & N7 & N8 & _).
  assert (T : forall m0 k0 v m1, set_long L true m0 k0 v = Ok (Some m1) -> touches k0 k = false -> g_long L m1 k = g_long L m0 k /\ g_double L m1 k = g_double L m0 k) by (intros m0 k0 v m1 E0 T0; apply set_long_ok in E0; exact (f_long_keeps _ F _ _ _ _ k E0 T0)).
  unfold setTime in E. destruct (get_long L true m "editionNumber") as [[ed|]| | | |]; try discriminate. destruct (scan_free t) as [[|y [|mo [|d [|h [|mi [|s [|]]]]]]]|]; try discriminate. destruct (negb _); try discriminate.
  match type of E with match ?a with _ => _ end = _ => assert (A : forall m1, a = Ok (Some m1) -> g_long L m1 k = g_long L m k /\ g_double L m1 k = g_double L m k) end.
  { intros m1 A. destruct (ed =? 1).
    - destruct (set_long L true m "centuryOfReferenceTimeOfData" _) as [[m2|]| | | |] eqn:S1; try discriminate. destruct (T _ _ _ _ S1 N1), (T _ _ _ _ A N2). split; congruence.
    - destruct (ed =? 2); [|discriminate]. exact (T _ _ _ _ A N3). }
  match type of E with match ?a with _ => _ end = _ => destruct a as [[m1|]| | | |]; try discriminate end. destruct (A m1 eq_refl) as [A1 A2].
  destruct (set_long L true m1 "month" mo) as [[m2|]| | | |] eqn:S2; try discriminate. destruct (set_long L true m2 "day" d) as [[m3|]| | | |] eqn:S3; try discriminate. destruct (set_long L true m3 "hour" h) as [[m4|]| | | |] eqn:S4; try discriminate. destruct (set_long L true m4 "minute" mi) as [[m5|]| | | |] eqn:S5; try discriminate.
  destruct (T _ _ _ _ S2 N4), (T _ _ _ _ S3 N5), (T _ _ _ _ S4 N6), (T _ _ _ _ S5 N7). unfold set_long_unchecked, traced in E. injection E as <-. destruct (s_long L m5 "second" s) eqn:S6; [destruct (f_long_keeps _ F _ _ _ _ k S6 N8); split; congruence|split; congruence].
Qed.
Lemma act_keeps a m m' k : run L true [a] m = Ok (Some m') -> act_touches a k = false -> g_long L m' k = g_long L m k /\ g_double L m' k = g_double L m k.
Proof.
  intros E N. cbn [run] in E. destruct a as [k0 v|k0 v|k0 v|t|v| | |]; cbn [act_touches] in N; try discriminate.
  - unfold set_long, traced in E. destruct (s_long L m k0 v) eqn:S1; [|discriminate]. injection E as <-. exact (f_long_keeps _ F _ _ _ _ k S1 N).
  - unfold set_long_oneof, traced in E. destruct (s_long L m k0 v) eqn:S1; [|discriminate]. injection E as <-. exact (f_long_keeps _ F _ _ _ _ k S1 N).
  - unfold set_double, traced in E. destruct (s_double L m k0 v) eqn:S1; [|discriminate]. injection E as <-. exact (f_double_keeps _ F _ _ _ _ k S1 N).
  - destruct (setTime L true m t) as [[m1|]| | | |] eqn:S1; try discriminate. injection E as <-. exact (setTime_keeps _ _ _ _ S1 N).
  - unfold set_double_array, traced in E. destruct (s_values L m v) eqn:S1; [|discriminate]. injection E as <-. exact (f_values_keeps _ F _ _ _ k S1 N).
Qed.
Lemma run_cons a l m m' : run L true (a :: l) m = Ok (Some m') -> exists m1, run L true [a] m = Ok (Some m1) /\ run L true l m1 = Ok (Some m').
Proof. cbn [run]. destruct (match a with AL _ _ => _ | _ => _ end) as [[m1|]| | | |]; try discriminate. eauto. Qed.
Lemma run_app l1 l2 m m' : run L true (l1 ++ l2) m = Ok (Some m') -> exists m1, run L true l1 m = Ok (Some m1) /\ run L true l2 m1 = Ok (Some m').
Proof.
  revert m. induction l1 as [|a l1 IH]; intros m E; [exists m; auto|]. cbn [app] in E. apply run_cons in E. destruct E as (m1 & E1 & E2). destruct (IH _ E2) as (m2 & E3 & E4). exists m2. split; [|exact E4]. cbn [run] in E1 |- *. destruct (match a with AL _ _ => _ | _ => _ end) as [[x|]| | | |]; try discriminate. injection E1 as ->. exact E3.
Qed.
Lemma run_known k v l : forall m m' cur, run L true l m = Ok (Some m') -> (forall c, cur = Some c -> g_long L m k = Got c) -> known k l cur = Some v -> g_long L m' k = Got v.
Proof.
  induction l as [|a l IH]; intros m m' cur E C K; [injection E as <-; now apply C|]. apply run_cons in E. destruct E as (m1 & E1 & E2). cbn [known] in K. eapply IH; [exact E2| |exact K]. intros c H. clear K IH.
  assert (KEEP : act_touches a k = false -> cur = Some c -> g_long L m1 k = Got c) by (intros T X; rewrite (proj1 (act_keeps _ _ _ _ E1 T)); now apply C).
  destruct a as [k0 v0|k0 v0|k0 v0|t|v0| | |].
  - destruct (String.eqb_spec k0 k) as [->|N]; [|destruct (touches k0 k) eqn:T; [discriminate|now apply KEEP]]. injection H as <-. cbn [run] in E1. unfold set_long, traced in E1. destruct (s_long L m k v0) eqn:S1; [|discriminate]. injection E1 as <-. apply (f_long _ F _ _ _ _ S1).
  - destruct (String.eqb_spec k0 k) as [->|N]; [|destruct (touches k0 k) eqn:T; [discriminate|now apply KEEP]]. injection H as <-. cbn [run] in E1. unfold set_long_oneof, traced in E1. destruct (s_long L m k v0) eqn:S1; [|discriminate]. injection E1 as <-. apply (f_long _ F _ _ _ _ S1).
  - destruct (act_touches (AD k0 v0) k) eqn:T; [discriminate|now apply KEEP].
  - destruct (act_touches (ATime t) k) eqn:T; [discriminate|now apply KEEP].
  - destruct (act_touches (AV v0) k) eqn:T; [discriminate|now apply KEEP].
  - now apply KEEP.
  - now apply KEEP.
  - now apply KEEP.
Qed.
Lemma run_known_d k v l : forall m m' cur, run L true l m = Ok (Some m') -> (forall c, cur = Some c -> g_double L m k = Got c) -> known_d k l cur = Some v -> g_double L m' k = Got v.
Proof.
  induction l as [|a l IH]; intros m m' cur E C K; [injection E as <-; now apply C|]. apply run_cons in E. destruct E as (m1 & E1 & E2). cbn [known_d] in K. eapply IH; [exact E2| |exact K]. intros c H. clear K IH.
  assert (KEEP : act_touches a k = false -> cur = Some c -> g_double L m1 k = Got c) by (intros T X; rewrite (proj2 (act_keeps _ _ _ _ E1 T)); now apply C).
  destruct a as [k0 v0|k0 v0|k0 v0|t|v0| | |].
  - destruct (act_touches (AL k0 v0) k) eqn:T; [discriminate|now apply KEEP].
  - destruct (act_touches (AOne k0 v0) k) eqn:T; [discriminate|now apply KEEP].
  - destruct (String.eqb_spec k0 k) as [->|N]; [|destruct (touches k0 k) eqn:T; [discriminate|now apply KEEP]]. subst v0. cbn [run] in E1. unfold set_double, traced in E1. destruct (s_double L m k (Some c)) eqn:S1; [|discriminate]. injection E1 as <-. apply (f_double _ F _ _ _ _ S1).
  - destruct (act_touches (ATime t) k) eqn:T; [discriminate|now apply KEEP].
  - destruct (act_touches (AV v0) k) eqn:T; [discriminate|now apply KEEP].
  - now apply KEEP.
  - now apply KEEP.
  - now apply KEEP.
Qed.
Lemma run_keeps k l : forall m m', run L true l m = Ok (Some m') -> forallb (fun a => negb (act_touches a k)) l = true -> g_long L m' k = g_long L m k.
Proof.
  induction l as [|a l IH]; intros m m' E N; [injection E as <-; reflexivity|]. apply run_cons in E. destruct E as (m1 & E1 & E2). cbn [forallb] in N. apply andb_prop in N. destruct N as [N1 N2]. rewrite (IH _ _ E2 N2). apply (proj1 (act_keeps _ _ _ k E1 ltac:(now apply Bool.negb_true_iff))).
Qed.
(** The time of a message after the rest of the sets. *)
Lemma run_time l1 l2 y mo d h mi s m m' : (forall m0 v, s_long L m0 "second" v <> None) -> 0 <= y <= 9999 -> two mo -> two d -> two h -> two mi -> two s ->
  forallb (fun k => forallb (fun a => negb (act_touches a k)) l2) ("editionNumber" :: time_keys) = true ->
  run L true (l1 ++ ATime (iso_text y mo d h mi s) :: l2) m = Ok (Some m') -> formatTime L true m' = Ok (Some (iso_text y mo d h mi s)).
Proof.
  intros A Y M D H MI S0 N E. apply run_app in E. destruct E as (m1 & _ & E). apply run_cons in E. destruct E as (m2 & E1 & E2). cbn [run] in E1. destruct (setTime L true m1 _) as [[m3|]| | | |] eqn:ST; try discriminate. injection E1 as ->.
  destruct (setTime_holds _ _ _ _ _ _ _ _ _ F Y M D H MI S0 ST) as (HH & m0 & E0 & _). rewrite forallb_forall in N.
  assert (K : forall k, In k ("editionNumber" :: time_keys) -> g_long L m' k = g_long L m2 k) by (intros k I; apply (run_keeps k l2 _ _ E2); now apply N).
  unfold holds in HH. apply formatTime_text; try assumption.
  - unfold holds. rewrite !K by (cbn; tauto). exact HH.
  - rewrite K by (cbn; tauto). specialize (A m0 s). destruct (s_long L m0 "second" s) as [x|] eqn:X; [|contradiction]. subst x. apply (f_long _ F _ _ _ _ X).
Qed.
End Runs.

(** ** Reading back a copy *)
Lemma run_no_fail L l : forall m m', run L true l m = Ok (Some m') -> forall a, In a l -> a <> AFail /\ a <> AThrow /\ a <> AUB.
Proof.
  induction l as [|a l IH]; intros m m' E b []; [subst b; apply run_cons in E; destruct E as (m1 & E1 & _); cbn [run] in E1; destruct a; repeat split; try discriminate|apply run_cons in E; destruct E as (m1 & _ & E2); now apply (IH _ _ E2)].
Qed.
Lemma ZnearestE_IZR z : ZnearestE (IZR z) = z.
Proof. apply Znearest_imp. replace (IZR z - IZR z)%R with 0%R by ring. rewrite Rabs_R0. lra. Qed.
Lemma near_int_IZR z x : near_int (IZR z) = Ok x -> x = z.
Proof. unfold near_int. rewrite ZnearestE_IZR. destruct (int_fits z); congruence. Qed.
Lemma near_int_half x z : near_int x = Ok z -> (Rabs (x - IZR z) <= 1 / 2)%R.
Proof. unfold near_int. destruct (int_fits _); [|discriminate]. intros E. injection E as <-. pose proof (Generic_fmt.Znearest_half (fun z => negb (Z.even z)) x). lra. Qed.
Lemma half_eq a b : (Rabs (IZR a - IZR b) <= 1 / 2)%R -> a = b.
Proof. intros H. apply Rabs_le_inv in H. rewrite <- minus_IZR in H. assert (A : (IZR (a - b) < IZR 1)%R) by lra. assert (B : (IZR (-1) < IZR (a - b))%R) by lra. apply lt_IZR in A, B. lia. Qed.
Lemma strtol_decimal s : all_digits s -> decimal s < 2 ^ 63 -> strtol_md s = decimal s.
Proof. intros A B. unfold strtol_md. rewrite strtoul_digits by exact A. cbn [fst]. pose proof (decimal_nonneg _ (proj2 A)). replace (2 ^ 64 <=? decimal s) with false by lia. unfold to_signed. now replace (decimal s <? 2 ^ (64 - 1)) with true by lia. Qed.
(** The satellites and channels of SEVIRI. *)
Definition msg_sat (i : Z) : Prop := i = 55 \/ i = 56 \/ i = 57 \/ i = 70.
Lemma wave_number_back sat ch : msg_sat sat -> 1 <= ch <= 12 -> exists q, channel_central_wave_number sat ch = Ok q /\ channel_from_central_wave_number sat (inject_Z (Qround q) * Qpower 10 (- 0))%Q = Ok ch.
Proof.
  intros S C. assert (CH : ch = 1 \/ ch = 2 \/ ch = 3 \/ ch = 4 \/ ch = 5 \/ ch = 6 \/ ch = 7 \/ ch = 8 \/ ch = 9 \/ ch = 10 \/ ch = 11 \/ ch = 12) by lia. clear C.
  destruct S as [->|[->|[->| ->]]]; destruct CH as [->|[->|[->|[->|[->|[->|[->|[->|[->|[->|[->| ->]]]]]]]]]]]; (eexists; split; [reflexivity|vm_compute; reflexivity]).
Qed.
Lemma far_false a b : far a b = false -> (Rabs (a - b) <= 1 / 10000)%R.
Proof. unfold far. destruct (Rlt_dec _ _); [discriminate|intros _; lra]. Qed.
Lemma near_within a b : (Rabs (a - b) <= 1 / 10000)%R -> within a b = true.
Proof. intros H. unfold within. destruct (Rlt_dec _ _) as [|N]; [reflexivity|exfalso; apply N; lra]. Qed.
Lemma far_within a b c : (Rabs (a - b) <= 1 / 10000)%R -> (1 < Rabs (b - c))%R -> within a c = false.
Proof. intros H D. unfold within. destruct (Rlt_dec _ _) as [N|]; [|reflexivity]. exfalso. assert (Rabs (b - c) <= Rabs (a - b) + Rabs (a - c))%R by (rewrite <- (Rabs_Ropp (a - b)); replace (b - c)%R with (- (a - b) + (a - c))%R by ring; apply Rabs_triang). lra. Qed.
(** Pixel sizes after writing and reading. *)
Definition read_size (p p' : R) : Prop :=
  (Rabs (p - PIXELSIZE) <= 1 / 10000 /\ p' = PIXELSIZE)%R \/ (Rabs (p - PIXELSIZE_HRV) <= 1 / 10000 /\ 1000.12 < p' < 1000.13)%R.
Lemma size_back p dx : ((Rabs (p - PIXELSIZE) <= 1 / 10000) \/ (Rabs (p - PIXELSIZE_HRV) <= 1 / 10000))%R -> seviriDXFromPixelHSize p = Ok dx ->
  (dx = 3622 \/ dx = 10867) /\ exists p', pixelHSizeFromSeviriDX dx = Ok p' /\ read_size p p'.
Proof.
  intros [H|H] E; unfold seviriDXFromPixelHSize in E.
  - rewrite near_within in E by exact H. injection E as <-. split; [now left|]. exists PIXELSIZE. split; [reflexivity|now left].
  - rewrite (far_within _ _ _ H) in E by (unfold PIXELSIZE, PIXELSIZE_HRV; rewrite Rabs_left; lra). unfold CFACFromPixelHSize in E. rewrite (far_within _ _ PIXELSIZE H), (far_within _ _ (- PIXELSIZE) H), (near_within _ _ H) in E by (unfold PIXELSIZE, PIXELSIZE_HRV; (rewrite Rabs_left by lra) || (rewrite Rabs_right by lra); lra).
    rewrite hrv_dx in E. injection E as <-. split; [now right|]. destruct hrv_size as (r & R1 & R2). exists r. split; [exact R1|right; split; [exact H|exact R2]].
Qed.

Section Copy.
Variable L : glib.
Definition unread (m : msg L) (k : string) : Prop := forall v, g_long L m k <> Got v.
(** How messages of the two editions name their keys: what of a message that has
    been written with a template must hold for it to be read right. *)
Definition names_ok (t : template) (m : msg L) : Prop :=
  match t with
  | WMO => g_long L m "channelNumber" = NotFound /\ g_long L m "level" = NotFound
  | _ => unread m "satelliteNumber" /\
         (unread m "xCoordinateOfSubSatellitePoint" \/ g_long L m "xCoordinateOfSubSatellitePoint" = g_long L m "XpInGridLengths") /\
         (unread m "yCoordinateOfSubSatellitePoint" \/ g_long L m "yCoordinateOfSubSatellitePoint" = g_long L m "YpInGridLengths") /\
         (t = MSAT -> unread m "satelliteIdentifier" /\ g_long L m "channelNumber" = NotFound)
  end.
(** A source image: whole pixels between its corner and the sub-satellite point. *)
Record source_at (s : gsrc) (st ct : str) (y mo d h mi sec : Z) (p q a b : R) : Prop := {
  so_xs : int_fits (src_xs s) = true; so_ys : int_fits (src_ys s) = true;
  so_time : src_time s = Some (iso_text y mo d h mi sec);
  so_year : 0 <= y <= 9999; so_mo : two mo; so_d : two d; so_h : two h; so_mi : two mi; so_sec : two sec;
  so_sat : src_sat s = Some st /\ all_digits st /\ msg_sat (decimal st);
  so_chan : (exists nd o sc v, src_band s = Some (Some ct, nd, o, sc, v)) /\ all_digits ct /\ 1 <= decimal ct <= 12;
  so_gt : src_gt s = (a * p, p, 0, b * q, 0, - q)%R
}.
(** The corner is at a whole number of pixels from the sub-satellite point. *)
Definition source (s : gsrc) (st ct : str) (y mo d h mi sec : Z) (p q : R) (kx ky : Z) : Prop := source_at s st ct y mo d h mi sec p q (IZR kx) (IZR ky).
Lemma oneof_first m k ks v : g_long L m k = Got v -> get_long_oneof L true m (k :: ks) = Ok (Some v).
Proof. intros G. unfold get_long_oneof. cbn [long_oneof traced]. now rewrite G. Qed.
Lemma oneof_skip m k ks : unread m k -> get_long_oneof L true m (k :: ks) = get_long_oneof L true m ks.
Proof. intros U. unfold get_long_oneof. cbn [long_oneof traced]. destruct (g_long L m k) eqn:G; [exfalso; now apply (U a)|reflexivity|reflexivity]. Qed.
Lemma oneof_alias m k k' v : g_long L m k' = Got v -> unread m k \/ g_long L m k = g_long L m k' -> get_long_oneof L true m [k; k'] = Ok (Some v).
Proof. intros G [U|E]; [rewrite oneof_skip by exact U; now apply oneof_first|apply oneof_first; congruence]. Qed.

Lemma grid2_ok s n lon g0 g1 g2 g3 g4 g5 : src_gt s = (g0, g1, g2, g3, g4, g5) -> (forall a, In a (grid2 s n lon) -> a <> AFail /\ a <> AThrow /\ a <> AUB) ->
  exists off dx dy x0 y0, grid_offset (src_gt s) = Some off /\ seviriDXFromPixelHSize g1 = Ok dx /\ seviriDXFromPixelHSize (- g5) = Ok dy /\ near_int (IZR off + g0 / g1) = Ok x0 /\ near_int (IZR off - g3 / - g5) = Ok y0 /\
  grid2 s n lon = [AL "sourceOfGridDefinition" 0; AL "numberOfDataPoints" n; AL "interpretationOfNumberOfPoints" 0;
       AL "gridDefinitionTemplateNumber" 90; AL "shapeOfTheEarth" 2;
       AL "numberOfPointsAlongXAxis" (src_xs s); AL "numberOfPointsAlongYAxis" (src_ys s);
       AD "latitudeOfSubSatellitePointInDegrees" (Some 0%R); AD "longitudeOfSubSatellitePointInDegrees" (Some lon);
       AL "geography.dx" dx; AL "geography.dy" dy; AOne "geography.xo" x0; AOne "geography.yo" y0; AL "geography.dx" dx; AL "geography.dy" dy;
       AL "xCoordinateOfSubSatellitePoint" off; AL "yCoordinateOfSubSatellitePoint" off;
       AL "scanningMode" 0; AL "orientationOfTheGridInDegrees" 180; AL "Nr" 6610708; AL "Xo" x0; AL "Yo" y0].
Proof.
  intros G N. unfold grid2 in *. rewrite G in *. destruct (grid_offset _) as [off|] eqn:GO; [|exfalso; now destruct (N AFail ltac:(now left))].
  assert (U : ~ In AUB (with_int (seviriDXFromPixelHSize g1) (fun dx => with_int (seviriDXFromPixelHSize (- g5)) (fun dy =>
      [AL "geography.dx" dx; AL "geography.dy" dy] ++
      with_int (near_int (IZR off + g0 / g1)) (fun x0 => with_int (near_int (IZR off - g3 / - g5)) (fun y0 =>
      [AOne "geography.xo" x0; AOne "geography.yo" y0; AL "geography.dx" dx; AL "geography.dy" dy;
       AL "xCoordinateOfSubSatellitePoint" off; AL "yCoordinateOfSubSatellitePoint" off;
       AL "scanningMode" 0; AL "orientationOfTheGridInDegrees" 180; AL "Nr" 6610708; AL "Xo" x0; AL "Yo" y0])))))).
  { intros I. destruct (N AUB) as (_ & _ & X); [|now apply X]. apply in_or_app. now right. }
  clear N. unfold with_int in U |- *.
  destruct (seviriDXFromPixelHSize g1) as [dx| | | |]; try (exfalso; apply U; now left). destruct (seviriDXFromPixelHSize (- g5)) as [dy| | | |]; try (exfalso; apply U; now left).
  destruct (near_int (IZR off + g0 / g1)) as [x0| | | |] eqn:NX; try (exfalso; apply U; apply in_or_app; right; now left). destruct (near_int (IZR off - g3 / - g5)) as [y0| | | |] eqn:NY; try (exfalso; apply U; apply in_or_app; right; now left).
  exists off, dx, dy, x0, y0. repeat (split; [first [reflexivity|assumption]|]). reflexivity.
Qed.
Lemma grid1_ok s lon g0 g1 g2 g3 g4 g5 : src_gt s = (g0, g1, g2, g3, g4, g5) -> (forall a, In a (grid1 s lon) -> a <> AFail /\ a <> AThrow /\ a <> AUB) ->
  exists off dx dy x0 y0, grid_offset (src_gt s) = Some off /\ seviriDXFromPixelHSize g1 = Ok dx /\ seviriDXFromPixelHSize (- g5) = Ok dy /\ near_int (IZR off + g0 / g1) = Ok x0 /\ near_int (IZR off - g3 / - g5) = Ok y0 /\
  grid1 s lon = [AL "numberOfVerticalCoordinateValues" 0; AL "pvlLocation" 255; AL "dataRepresentationType" 90;
       AL "numberOfPointsAlongXAxis" (src_xs s); AL "numberOfPointsAlongYAxis" (src_ys s);
       AD "latitudeOfSubSatellitePointInDegrees" (Some 0%R); AD "longitudeOfSubSatellitePointInDegrees" (Some lon);
       AL "resolutionAndComponentFlags" 64; AL "geography.dx" dx; AL "geography.dy" dy; AL "XpInGridLengths" off; AL "YpInGridLengths" off;
       AL "scanningMode" 0; AL "orientationOfTheGridInDegrees" 180; AL "altitude" 6610708; AL "Xo" x0; AL "Yo" y0].
Proof.
  intros G N. unfold grid1 in *. rewrite G in *. destruct (grid_offset _) as [off|] eqn:GO; [|exfalso; now destruct (N AFail ltac:(now left))].
  assert (U : ~ In AUB (with_int (seviriDXFromPixelHSize g1) (fun dx => with_int (seviriDXFromPixelHSize (- g5)) (fun dy =>
      [AL "geography.dx" dx; AL "geography.dy" dy; AL "XpInGridLengths" off; AL "YpInGridLengths" off;
       AL "scanningMode" 0; AL "orientationOfTheGridInDegrees" 180; AL "altitude" 6610708] ++
      with_int (near_int (IZR off + g0 / g1)) (fun x0 => with_int (near_int (IZR off - g3 / - g5)) (fun y0 =>
      [AL "Xo" x0; AL "Yo" y0])))))).
  { intros I. destruct (N AUB) as (_ & _ & X); [|now apply X]. apply in_or_app. now right. }
  clear N. unfold with_int in U |- *.
  destruct (seviriDXFromPixelHSize g1) as [dx| | | |]; try (exfalso; apply U; now left). destruct (seviriDXFromPixelHSize (- g5)) as [dy| | | |]; try (exfalso; apply U; now left).
  destruct (near_int (IZR off + g0 / g1)) as [x0| | | |] eqn:NX; try (exfalso; apply U; apply in_or_app; right; now left). destruct (near_int (IZR off - g3 / - g5)) as [y0| | | |] eqn:NY; try (exfalso; apply U; apply in_or_app; right; now left).
  exists off, dx, dy, x0, y0. repeat (split; [first [reflexivity|assumption]|]). reflexivity.
Qed.
Lemma grid_offset_sizes g0 g1 g2 g3 g4 g5 off : grid_offset (g0, g1, g2, g3, g4, g5) = Some off ->
  (off = 1856%Z /\ Rabs (g1 - PIXELSIZE) <= 1 / 10000 /\ Rabs (- g5 - PIXELSIZE) <= 1 / 10000 \/ off = 5568%Z /\ Rabs (g1 - PIXELSIZE_HRV) <= 1 / 10000 /\ Rabs (- g5 - PIXELSIZE_HRV) <= 1 / 10000)%R.
Proof.
  unfold grid_offset. destruct (nonzero g2); [discriminate|]. destruct (nonzero g4); [discriminate|]. assert (K : forall a b, Rabs (- a - b) = Rabs (a - - b)) by (intros a b; rewrite <- Rabs_Ropp; f_equal; ring). rewrite !K. destruct (far g1 PIXELSIZE_HRV) eqn:F1; [destruct (far g1 PIXELSIZE) eqn:F2; [discriminate|]; destruct (far g5 _) eqn:F3; [discriminate|]|destruct (far g5 _) eqn:F3; [discriminate|]]; intros X; injection X as <-; [left|right]; repeat split; now apply far_false.
Qed.
(** What is in the message. *)
Definition written (m : msg L) (t : template) (s : gsrc) (sat ch : Z) (lon : R) (text : str) (off dx dy x0 y0 : Z) : Prop :=
  g_long L m "numberOfPointsAlongXAxis" = Got (src_xs s) /\ g_long L m "numberOfPointsAlongYAxis" = Got (src_ys s) /\ formatTime L true m = Ok (Some text) /\
  g_double L m "longitudeOfSubSatellitePointInDegrees" = Got lon /\ g_long L m "geography.dx" = Got dx /\ g_long L m "geography.dy" = Got dy /\ g_long L m "Xo" = Got x0 /\ g_long L m "Yo" = Got y0 /\
  match t with
  | WMO => g_long L m "satelliteNumber" = Got sat /\ g_long L m "scaleFactorOfCentralWaveNumber" = Got 0 /\ (exists q, channel_central_wave_number (to_int sat) (to_int ch) = Ok q /\ g_long L m "scaledValueOfCentralWaveNumber" = Got (Qround q)) /\
           g_long L m "xCoordinateOfSubSatellitePoint" = Got off /\ g_long L m "yCoordinateOfSubSatellitePoint" = Got off
  | ECMWF => g_long L m "satelliteIdentifier" = Got sat /\ g_long L m "channelNumber" = Got ch /\ g_long L m "XpInGridLengths" = Got off /\ g_long L m "YpInGridLengths" = Got off
  | MSAT => g_long L m "indicatorOfTypeOfLevel" = Got sat /\ g_long L m "level" = Got ch /\ g_long L m "XpInGridLengths" = Got off /\ g_long L m "YpInGridLengths" = Got off
  end.
Lemma tail_cases count gm vals l m m' : run L true (l ++ bitmap count gm ++ data count vals) m = Ok (Some m') -> (bitmap count gm = [AL "bitmapPresent" 0] \/ bitmap count gm = [AL "bitmapPresent" 1; AD "missingValue" gm]) /\ data count vals = [AV vals].
Proof.
  intros E. split; [unfold bitmap; destruct (count =? 0); auto|]. unfold data in *. destruct (count =? _); [|reflexivity]. exfalso. destruct (run_no_fail _ _ _ _ E AFail) as [X _]; [apply in_or_app; right; apply in_or_app; right; now left|now apply X].
Qed.
Ltac look F E := eapply (run_known L F _ _ _ _ _ None E); [discriminate|reflexivity].
Ltac look_d F E := eapply (run_known_d L F _ _ _ _ _ None E); [discriminate|reflexivity].
Lemma create_written t s st ct y mo d h mi sec g0 g1 g2 g3 g4 g5 m nd o sc v : faithful L -> (forall m0 v, s_long L m0 "second" v <> None) ->
  src_time s = Some (iso_text y mo d h mi sec) -> 0 <= y <= 9999 -> two mo -> two d -> two h -> two mi -> two sec -> src_sat s = Some st -> src_band s = Some (Some ct, nd, o, sc, v) -> src_gt s = (g0, g1, g2, g3, g4, g5) ->
  create L true t s = Ok (Some m) -> exists height lon off dx dy x0 y0, src_srs s = Some (true, height, lon) /\ grid_offset (src_gt s) = Some off /\ seviriDXFromPixelHSize g1 = Ok dx /\ seviriDXFromPixelHSize (- g5) = Ok dy /\ near_int (IZR off + g0 / g1) = Ok x0 /\ near_int (IZR off - g3 / - g5) = Ok y0 /\
  written m t s (strtol_md st) (strtol_md ct) lon (iso_text y mo d h mi sec) off dx dy x0 y0.
Proof.
  intros F SEC TM YR MO D H MI S0 SAT BD GT E. unfold create in E. destruct (src_srs s) as [[[pr height] lon]|]; [|discriminate]. cbn [traced] in E. rewrite BD in E. destruct pr; cbn [negb] in E; [|discriminate]. destruct (nonzero _); [discriminate|]. destruct v as [vals|]; [|discriminate]. destruct (scale_values vals nd sc o) as [[vals' count] gm]. destruct (sample L (sample_of t)) as [m0|]; [|discriminate].
  pose proof (tail_cases _ _ _ _ _ _ E) as [TB TD]. rewrite TD in E. pose proof (run_no_fail _ _ _ _ E) as NF.
  destruct t.
  - destruct (grid2_ok s (Z.of_nat (List.length vals)) lon _ _ _ _ _ _ GT) as (off & dx & dy & x0 & y0 & GO & DX & DY & X0 & Y0 & GR). { intros a I. apply NF. apply in_or_app. left. apply in_or_app. right. apply in_or_app. right. apply in_or_app. now left. }
    exists height, lon, off, dx, dy, x0, y0. repeat (split; [first [reflexivity|assumption]|]). rewrite GR in E. unfold ident2, product2 in E. rewrite TM, SAT in E.
    destruct (channel_central_wave_number (to_int (strtol_md st)) (to_int (strtol_md ct))) as [w| | | |] eqn:W; try (exfalso; destruct (NF AThrow) as (_ & X & _); [|now apply X]; unfold product2; rewrite SAT, W; apply in_or_app; left; apply in_or_app; right; apply in_or_app; right; apply in_or_app; right; apply in_or_app; left; cbn; tauto).
    destruct TB as [TB|TB]; rewrite TB in E; unfold written; (repeat split; try (look F E); try (look_d F E));
      try (exists w; split; [exact W|look F E]);
      (match type of E with run L true ?l _ = _ => let l' := eval cbn [app] in l in change l with l' in E end;
       match type of E with run L true (?a1 :: ?a2 :: ?a3 :: ?a4 :: ?a5 :: ?a6 :: ATime ?t :: ?r) _ = _ => change (a1 :: a2 :: a3 :: a4 :: a5 :: a6 :: ATime t :: r) with ([a1; a2; a3; a4; a5; a6] ++ ATime t :: r) in E end;
       eapply (run_time L F); [exact SEC|assumption..| |exact E]; reflexivity).
  - destruct (grid1_ok s lon _ _ _ _ _ _ GT) as (off & dx & dy & x0 & y0 & GO & DX & DY & X0 & Y0 & GR). { intros a I. apply NF. apply in_or_app. left. apply in_or_app. now right. }
    exists height, lon, off, dx, dy, x0, y0. repeat (split; [first [reflexivity|assumption]|]). rewrite GR in E. unfold ident_ecmwf, ident1 in E. rewrite TM, SAT in E.
    destruct TB as [TB|TB]; rewrite TB in E; unfold written; (repeat split; try (look F E); try (look_d F E));
      (match type of E with run L true ?l _ = _ => let l' := eval cbn [app] in l in change l with l' in E end;
       match type of E with run L true (?a1 :: ?a2 :: ?a3 :: ?a4 :: ?a5 :: ?a6 :: ATime ?t :: ?r) _ = _ => change (a1 :: a2 :: a3 :: a4 :: a5 :: a6 :: ATime t :: r) with ([a1; a2; a3; a4; a5; a6] ++ ATime t :: r) in E end;
       eapply (run_time L F); [exact SEC|assumption..| |exact E]; reflexivity).
  - destruct (grid1_ok s lon _ _ _ _ _ _ GT) as (off & dx & dy & x0 & y0 & GO & DX & DY & X0 & Y0 & GR). { intros a I. apply NF. apply in_or_app. left. apply in_or_app. now right. }
    exists height, lon, off, dx, dy, x0, y0. repeat (split; [first [reflexivity|assumption]|]). rewrite GR in E. unfold ident1 in E. rewrite TM, SAT in E.
    destruct TB as [TB|TB]; rewrite TB in E; unfold written; (repeat split; try (look F E); try (look_d F E));
      (match type of E with run L true ?l _ = _ => let l' := eval cbn [app] in l in change l with l' in E end;
       match type of E with run L true (?a1 :: ?a2 :: ?a3 :: ?a4 :: ?a5 :: ?a6 :: ATime ?t :: ?r) _ = _ => change (a1 :: a2 :: a3 :: a4 :: a5 :: a6 :: ATime t :: r) with ([a1; a2; a3; a4; a5; a6] ++ ATime t :: r) in E end;
       eapply (run_time L F); [exact SEC|assumption..| |exact E]; reflexivity).
Qed.
End Copy.
