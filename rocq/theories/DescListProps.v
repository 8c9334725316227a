(** C223, C224: the listings of the image description of the level 1.5 header and of the
    geometric quality of the trailer. *)
From Verif Require Import Base BaseFacts IniModel MachineModel HeaderModel GribModel GribProps MsgModel CodeTextModel HeadListModel MachineProofs HeadListProps ProdListModel ProdListProps DescListModel.
Open Scope string_scope.
Open Scope list_scope.
Open Scope Z_scope.

(** ** What is asked for *)
(** The text of a code, or Unknown. *)
Definition meaning_is (l : list (Z * string)) (c : Z) (v : str) : Prop := (exists t, In (c, t) l /\ v = codes t) \/ ((forall t, ~ In (c, t) l) /\ v = codes "Unknown").
Definition origin_is : Z -> str -> Prop := meaning_is [(0, "Grid corner North-West"); (1, "Grid corner South-West"); (2, "Grid corner South-East"); (3, "Grid corner North-East")].
Definition grid_lines (real : Z -> str) (b : list Z) (off : nat) : list (string * (str -> Prop)) :=
  [("Number Of Lines     : ", int_is (signed_long b off)); ("Number of Columns   : ", int_is (signed_long b (off + 4)));
   ("Grid Step SSP line  : ", eq (real (long b (off + 8)))); ("Grid Step SSP col.  : ", eq (real (long b (off + 12)))); ("Grid Origin         : ", origin_is (octet b (off + 16)))].
Definition planned_is (i : nat) (flag : Z) (v : str) : Prop := exists n, channel_is i n /\ v = n ++ codes " is plan. : " ++ (if Z.eq_dec flag 0 then codes "0" else codes "1").
Definition description_lines (real : Z -> str) (b : list Z) : list (string * (str -> Prop)) :=
  [("Type of Projection  : ", meaning_is [(1, "Geostationary, Earth Centered in grid")] (octet b 0)); ("SSP Longitude       : ", eq (real (long b 1)))] ++
  [("VIS-IR REFERENCE GRID", eq [])] ++ grid_lines real b 5 ++ [("HRV REFERENCE GRID", eq [])] ++ grid_lines real b 22 ++
  [("VIS-IR PLANNED COVERAGE", eq []); ("Southern line Plan. : ", int_is (signed_long b 39)); ("Northern line Plan. : ", int_is (signed_long b 43)); ("Eastern col. Plan.  : ", int_is (signed_long b 47)); ("Western col. Plan.  : ", int_is (signed_long b 51));
   ("HRV PLANNED COVERAGE", eq []); ("Low South line Plan.: ", int_is (signed_long b 55)); ("Low North line Plan.: ", int_is (signed_long b 59)); ("Low East col. Plan. : ", int_is (signed_long b 63)); ("Low West col. Plan. : ", int_is (signed_long b 67));
   ("Up South line Plan. : ", int_is (signed_long b 71)); ("Up North line Plan. : ", int_is (signed_long b 75)); ("Up East col. Plan.  : ", int_is (signed_long b 79)); ("Up West col. Plan.  : ", int_is (signed_long b 83));
   ("Image Processing Dir: ", meaning_is [(0, "Direction North-South"); (1, "Direction South-North")] (octet b 87)); ("Pixel Processing Dir: ", meaning_is [(0, "Direction East-West"); (1, "Direction West-East")] (octet b 88))] ++
  flat_map (fun i => [("Channel ", planned_is i (octet b (89 + i)))]) (seq 0 12).
(** A code and, unless it says that nothing was derived, the floats after it. *)
Definition validity_is : Z -> str -> Prop := meaning_is [(0, "Not Derived"); (1, "Derived and Valid"); (2, "Derived and Invalid"); (3, "Estimated")].
Definition measured_lines (real : Z -> str) (b : list Z) (off : nat) (names : list string) : list (string * (str -> Prop)) :=
  ("Quality Info Valid. : ", validity_is (octet b off)) ::
  (if Z.eq_dec (octet b off) 0 then [] else map (fun p => (snd p, eq (real (long b (off + 1 + 4 * fst p))))) (combine (seq 0 (List.length names)) names)).
Definition accuracy_names : list string :=
  ["E/W Accuracy RMS    : "; "N/S Accuracy RMS    : "; "Magnitude RMS       : "; "E/W Uncert. RMS     : "; "N/S Uncert. RMS     : "; "Magnitude Unc. RMS  : ";
   "E/W Max Deviation   : "; "N/S Max Deviation   : "; "Magnitude Deviation : "; "E/W Uncert. Max     : "; "N/S Uncert. Max     : "; "Magnitude Unc. Max  : "].
Definition residual_names : list string :=
  ["E/W Residuals       : "; "N/S Residuals       : "; "E/W Uncertainty     : "; "N/S Uncertainty     : "; "E/W RMS             : "; "N/S RMS             : ";
   "E/W Magnitude       : "; "N/S Magnitude       : "; "E/W Magnitude Unce. : "; "N/S Magnitude Unce. : "].
Definition geometry_lines (real : Z -> str) (b : list Z) : list (string * (str -> Prop)) :=
  flat_map (fun i => [("Channel ", channel_is i); ("ABSOLUTE ACCURACY", eq [])] ++ measured_lines real b (49 * i) accuracy_names ++
    [("RELATIVE ACCURACY", eq [])] ++ measured_lines real b (588 + 49 * i) accuracy_names ++
    [("N 500 PIXELS ACCURACY", eq [])] ++ measured_lines real b (1176 + 49 * i) accuracy_names ++
    [("N 16 PIXELS ACCURACY", eq [])] ++ measured_lines real b (1764 + 49 * i) accuracy_names ++
    [("MISREGISTRATION RESIDUALS", eq [])] ++ measured_lines real b (2352 + 41 * i) residual_names ++
    [("GEOMETRIC QUALITY", eq []); ("Quality Nominal     : ", num_is (octet b (2844 + 6 * i))); ("Nominal Absolute    : ", num_is (octet b (2845 + 6 * i))); ("Nominal Rel. Prev.  : ", num_is (octet b (2846 + 6 * i)));
     ("Nominal Rel. 500    : ", num_is (octet b (2847 + 6 * i))); ("Nominal Rel. 16     : ", num_is (octet b (2848 + 6 * i))); ("Nominal Rel. Misreg : ", num_is (octet b (2849 + 6 * i)))]) (seq 0 12).

(** ** Reading *)
Definition the_grid (b : list Z) (off : nat) : grid := mk_grid (signed_longs b off 2) (longs b (off + 8) 2) (octet b (off + 16)).
Lemma grid_read h b off : (off + 17 <= List.length b)%nat -> read_grid h b off = Ok (the_grid b off).
Proof. intros L. unfold read_grid. rewrite signed_longs_read by lia. cbn [bind]. rewrite longs_read by lia. cbn [bind]. rewrite octet_read by lia. reflexivity. Qed.
Definition planned (b : list Z) (off i : nat) : bool := negb (octet b (off + 2 + i) =? 0).
Definition the_production (b : list Z) (off : nat) : production := mk_production (octet b off) (octet b (off + 1)) (map (planned b off) (seq 0 12)).
Lemma production_read b off : (off + 14 <= List.length b)%nat -> read_production b off = Ok (the_production b off).
Proof.
  intros L. unfold read_production. rewrite !octet_read by lia. cbn [bind]. rewrite (each_ok _ (planned b off)); [reflexivity|]. intros j J. rewrite octet_read by lia. reflexivity.
Qed.
Definition the_description (b : list Z) : description :=
  mk_description (octet b 0, long b 1) (the_grid b 5) (the_grid b 22) (signed_longs b 39 4) (signed_longs b 55 8) (the_production b 87).
Lemma description_read h b : (101 <= List.length b)%nat -> read_description h b = Ok (the_description b).
Proof.
  intros L. unfold read_description. rewrite octet_read by lia. cbn [bind]. rewrite long_read by lia. cbn [bind]. rewrite !grid_read by lia. cbn [bind]. rewrite !signed_longs_read by lia. cbn [bind]. rewrite production_read by lia. reflexivity.
Qed.
Definition the_quality (b : list Z) (off n : nat) : Z * list Z := (octet b off, longs b (off + 1) n).
Lemma quality_read h b off n : (off + 1 + n * 4 <= List.length b)%nat -> read_quality h b off n = Ok (the_quality b off n).
Proof. intros L. unfold read_quality. rewrite octet_read by lia. cbn [bind]. rewrite longs_read by lia. reflexivity. Qed.
Definition accuracies (b : list Z) (off : nat) : list (Z * list Z) := map (fun i => the_quality b (off + i * 49) 12) (seq 0 12).
Definition the_geometry (b : list Z) : geometry :=
  mk_geometry (accuracies b 0) (accuracies b 588) (accuracies b 1176) (accuracies b 1764) (map (fun i => the_quality b (2352 + i * 41) 10) (seq 0 12)) (map (fun i => octets b (2844 + i * 6) 6) (seq 0 12)).
Lemma geometry_read h b : (2916 <= List.length b)%nat -> read_geometry h b = Ok (the_geometry b).
Proof.
  intros L. unfold read_geometry. cbv zeta.
  assert (A : forall off, (off <= 1764)%nat -> each (fun i => read_quality h b (off + i * 49) 12) 0 12 = Ok (accuracies b off)) by (intros off O; apply (each_ok _ (fun i => the_quality b (off + i * 49) 12)); intros j J; apply quality_read; lia).
  rewrite A by lia. cbn [bind]. rewrite A by lia. cbn [bind]. rewrite A by lia. cbn [bind]. rewrite A by lia. cbn [bind].
  rewrite (each_ok _ (fun i => the_quality b (2352 + i * 41) 10)) by (intros j J; apply quality_read; lia). cbn [bind].
  rewrite (each_ok _ (fun i => octets b (2844 + i * 6) 6)) by (intros j J; apply octets_read; lia). reflexivity.
Qed.

(** ** Listing *)
#[local] Opaque print print_int zpad.
Lemma meaning_shown t c : tb_default t = "Unknown" -> meaning_is (tb_cases t) c (codes (text_of t c)).
Proof.
  intros D. unfold meaning_is, text_of. rewrite D. induction (tb_cases t) as [|[k s] l IH]; cbn [switch].
  - right. split; [intros x []|reflexivity].
  - destruct (Z.eqb_spec c k) as [->|N]; [left; exists s; split; [now left|reflexivity]|]. destruct IH as [(x & I & E)|(I & E)].
    + left. exists x. split; [now right|exact E].
    + right. split; [|exact E]. intros x [X|X]; [injection X as X _; now apply N|now apply (I x)].
Qed.
Lemma grid_shown real b off : bytes_ok b -> lines (grid_lines real b off) (grid_text real (the_grid b off)).
Proof.
  intros B. unfold grid_text, the_grid, signed_longs, longs. cbn [gr_size gr_steps gr_origin seq map]. rewrite !fields_cons, !fields_nil. rewrite <- !app_assoc. cbn [app].
  replace (off + 0 * 4)%nat with off by lia. replace (off + 1 * 4)%nat with (off + 4)%nat by lia. replace (off + 8 + 0 * 4)%nat with (off + 8)%nat by lia. replace (off + 8 + 1 * 4)%nat with (off + 12)%nat by lia.
  do 4 (apply lines_field; [shown|]). apply lines_last. now apply (meaning_shown MSG_grid_origin).
Qed.
Lemma production_shown b off : bytes_ok b -> lines ([("Image Processing Dir: ", meaning_is [(0, "Direction North-South"); (1, "Direction South-North")] (octet b off)); ("Pixel Processing Dir: ", meaning_is [(0, "Direction East-West"); (1, "Direction West-East")] (octet b (off + 1)))] ++
  flat_map (fun i => [("Channel ", planned_is i (octet b (off + 2 + i)))]) (seq 0 12)) (production_text (the_production b off)).
Proof.
  intros B. unfold production_text. cbn [pd_lines pd_columns pd_planned the_production]. cbn [app]. apply lines_field; [now apply (meaning_shown MSG_direction_line)|]. apply lines_field; [now apply (meaning_shown MSG_direction_column)|].
  apply (lines_each _ _ 12 0). intros i I. apply lines_last. rewrite (nth_each (planned b off)) by lia. exists (zpad 2 (Z.of_nat i + 1)). split; [apply channel_shown; lia|]. unfold planned. destruct (Z.eqb_spec (octet b (off + 2 + i)) 0), (Z.eq_dec (octet b (off + 2 + i)) 0); try contradiction; reflexivity.
Qed.
(** The whole listing is the title and these lines. *)
Theorem C223_description h real b : bytes_ok b -> (101 <= List.length b)%nat ->
  exists d body, read_description h b = Ok d /\ description_text real d = title_lines "-           MSG IMAGE DESCRIPTION RECORD             -" ++ body /\ lines (description_lines real b) body.
Proof.
  intros B L. exists (the_description b). eexists. split; [now apply description_read|]. split; [unfold description_text; change (title_lines ?x) with (title x); reflexivity|].
  unfold description_lines. cbn [the_description ds_projection ds_grid ds_hrv_grid ds_ir ds_hrv ds_production]. apply lines_app.
  { unfold projection_text. cbn [fst snd]. apply lines_field; [now apply (meaning_shown MSG_projection_type)|]. now apply lines_last. }
  apply lines_app; [now apply lines_last|]. apply lines_app; [now apply grid_shown|]. apply lines_app; [now apply lines_last|]. apply lines_app; [now apply grid_shown|].
  cbn [app]. apply lines_field; [reflexivity|]. unfold ir_plan_text, signed_longs at 1. remember (signed_longs b 55 8) as hrv eqn:H. remember (the_production b 87) as pr eqn:P. remember (flat_map (fun i => [("Channel ", planned_is i (octet b (89 + i)))]) (seq 0 12)) as fl eqn:F.
  cbn [seq map Nat.add Nat.mul]. rewrite !fields_cons, fields_nil. rewrite <- !app_assoc. cbn [app]. do 4 (apply lines_field; [shown|]). apply lines_field; [reflexivity|]. subst hrv. unfold hrv_plan_text, signed_longs. cbn [seq map Nat.add Nat.mul]. rewrite !fields_cons, fields_nil. rewrite <- !app_assoc. cbn [app].
  do 8 (apply lines_field; [shown|]). subst pr fl. exact (production_shown b 87 B).
Qed.
Print Assumptions C223_description.
Lemma measured_some real b names : forall off k, lines (map (fun p => (snd p, eq (real (long b (off + 4 * fst p))))) (combine (seq k (List.length names)) names)) (fields names real (map (fun i => long b (off + i * 4)) (seq k (List.length names)))).
Proof.
  induction names as [|n names IH]; intros off k; [constructor|]. cbn [List.length seq map combine]. rewrite fields_cons. apply lines_field; [cbn [fst]; now rewrite (Nat.mul_comm k 4)|]. apply IH.
Qed.
Lemma measured_shown real b off names : lines (measured_lines real b off names) (measured real names (the_quality b off (List.length names))).
Proof.
  unfold measured_lines, measured, the_quality. cbn [fst snd]. apply lines_field; [now apply (meaning_shown MSG_quality_info_validity)|].
  destruct (Z.eq_dec (octet b off) 0) as [->|N]; [constructor|]. destruct (Z.eqb_spec (octet b off) 0); [contradiction|]. apply measured_some.
Qed.
Lemma accuracy_shown real b off : lines (measured_lines real b off accuracy_names) (accuracy_text real (the_quality b off 12)).
Proof. exact (measured_shown real b off accuracy_names). Qed.
Lemma residuals_shown real b off : lines (measured_lines real b off residual_names) (residuals_text real (the_quality b off 10)).
Proof. exact (measured_shown real b off residual_names). Qed.
(** Six parts for each of the twelve channels; the values of a part that was not derived are
    left out. *)
Theorem C224_geometry h real b : bytes_ok b -> (2916 <= List.length b)%nat ->
  exists g body, read_geometry h b = Ok g /\ geometry_text real g = title_lines "-         MSG IMAGE GEOMETRIC QUALITY RESULTS        -" ++ body /\ lines (geometry_lines real b) body.
Proof.
  intros B L. exists (the_geometry b). eexists. split; [now apply geometry_read|]. split; [unfold geometry_text; change (title_lines ?x) with (title x); reflexivity|].
  unfold geometry_lines. apply (lines_each _ _ 12 0). intros i I. cbn [the_geometry ge_absolute ge_relative ge_500 ge_16 ge_residuals ge_status]. unfold accuracies.
  rewrite (nth_each (fun i => the_quality b (0 + i * 49) 12)), (nth_each (fun i => the_quality b (588 + i * 49) 12)), (nth_each (fun i => the_quality b (1176 + i * 49) 12)), (nth_each (fun i => the_quality b (1764 + i * 49) 12)),
    (nth_each (fun i => the_quality b (2352 + i * 41) 10)), (nth_each (fun i => octets b (2844 + i * 6) 6)) by lia.
  rewrite !(Nat.mul_comm i). change (0 + 49 * i)%nat with (49 * i)%nat. unfold channel_line. cbn [app]. apply lines_field; [shown|].
  do 4 (apply lines_field; [reflexivity|]; apply lines_app; [apply accuracy_shown|]; cbn [app]). apply lines_field; [reflexivity|]. apply lines_app; [apply residuals_shown|]. cbn [app]. apply lines_field; [reflexivity|].
  unfold status_text, octets. cbn [seq map]. rewrite !fields_cons, fields_nil.
  replace (2844 + 6 * i + 0)%nat with (2844 + 6 * i)%nat by lia. replace (2844 + 6 * i + 1)%nat with (2845 + 6 * i)%nat by lia. replace (2844 + 6 * i + 2)%nat with (2846 + 6 * i)%nat by lia.
  replace (2844 + 6 * i + 3)%nat with (2847 + 6 * i)%nat by lia. replace (2844 + 6 * i + 4)%nat with (2848 + 6 * i)%nat by lia. replace (2844 + 6 * i + 5)%nat with (2849 + 6 * i)%nat by lia.
  do 6 (apply lines_field; [shown|]). constructor.
Qed.
Print Assumptions C224_geometry.
(** A description of the full disc of MSG, and a quality record of which only the first part of
    channel 1 was derived. *)
Definition a_description : list Z := [1; 0; 0; 0; 0; 0; 0; 14; 128; 0; 0; 14; 128; 64; 64; 0; 0; 64; 64; 0; 0; 2] ++ [0; 0; 43; 128; 0; 0; 43; 128; 63; 128; 0; 0; 63; 128; 0; 0; 2] ++ repeat 0 48 ++ [1; 0; 1; 1; 255] ++ repeat 0 9.
Example C223_case :
  bytes_ok a_description /\ List.length a_description = 101%nat /\ octet a_description 0 = 1 /\ signed_long a_description 5 = 3712 /\ signed_long a_description 22 = 11136 /\ octet a_description 21 = 2 /\
  origin_is 2 (codes "Grid corner South-East") /\ planned_is 2 (octet a_description 91) (codes "03 is plan. : 1") /\ planned_is 11 (octet a_description 100) (codes "12 is plan. : 0").
Proof.
  split; [unfold a_description, bytes_ok; cbn [repeat app]; repeat constructor; unfold is_byte; lia|]. do 5 (split; [reflexivity|]). split; [left; eexists; split; [do 2 right; left; reflexivity|reflexivity]|].
  split; eexists; (split; [unfold channel_is; reflexivity|reflexivity]).
Qed.
Definition a_quality : list Z := [1; 62; 128] ++ repeat 0 2913.
Example C224_case : bytes_ok a_quality /\ List.length a_quality = 2916%nat /\ octet a_quality 0 = 1 /\ long a_quality 1 = 1048576000 /\ octet a_quality 49 = 0 /\ validity_is 1 (codes "Derived and Valid") /\ validity_is 0 (codes "Not Derived").
Proof.
  split; [|split; [unfold a_quality; rewrite app_length, repeat_length; reflexivity|]].
  - unfold a_quality, bytes_ok. apply Forall_app. split; [repeat constructor; unfold is_byte; lia|]. apply Forall_forall. intros x X. apply repeat_spec in X. subst x. unfold is_byte. lia.
  - do 3 (split; [reflexivity|]). split; left; eexists; (split; [|reflexivity]); [right; left; reflexivity|left; reflexivity].
Qed.
