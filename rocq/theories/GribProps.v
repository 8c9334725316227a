(** C55, C56, C110: time, alternative keys and the trace of the GRIB driver. *)
From Coq Require Import ZArith Reals String List Lia Lra.
From Flocq Require Import Core.
From Verif Require Import Base BaseFacts IniModel GeoModel ScanModel ToolModel PixModel GribModel.
Import ListNotations.
Open Scope string_scope.
Open Scope list_scope.
Open Scope Z_scope.

(** ** C56 *)
Fixpoint first_of {A} (g : string -> gres A) (ks : list string) : outcome (option A) :=
  match ks with [] => Ok None | k :: ks' => match g k with Got v => Ok (Some v) | _ => first_of g ks' end end.
(** The key at which the value is found and those before it. *)
Definition found_at {A} (g : string -> gres A) (ks : list string) (v : A) : Prop :=
  exists pre k post, ks = pre ++ k :: post /\ g k = Got v /\ forall k' w, In k' pre -> g k' <> Got w.
Lemma first_spec A (g : string -> gres A) ks : (forall v, first_of g ks = Ok (Some v) <-> found_at g ks v) /\ (first_of g ks = Ok None <-> forall k w, In k ks -> g k <> Got w) /\ defined (first_of g ks) = true.
Proof.
  induction ks as [|k ks (A1 & B1 & C1)]; cbn [first_of].
  - split; [|split; [|reflexivity]]; [intros v; split; [discriminate|intros (pre & k & post & E & _); destruct pre; discriminate]|split; [intros _ k w []|reflexivity]].
  - assert (K : (exists v, g k = Got v) \/ (forall v, g k <> Got v)) by (destruct (g k); [left; eauto|right; discriminate|right; discriminate]). destruct K as [[v0 G]|N].
    + rewrite G. split; [|split; [|reflexivity]].
      * intros v. split; [intros E; injection E as <-; exists [], k, ks; repeat split; [exact G|intros k' w []]|]. intros (pre & k1 & post & E & G1 & N). destruct pre as [|p pre]; [injection E as <- _; congruence|]. injection E as <- _. exfalso. now apply (N k v0); [left|].
      * split; [discriminate|]. intros H. exfalso. now apply (H k v0); [left|].
    + replace (match g k with Got v => Ok (Some v) | _ => first_of g ks end) with (first_of g ks) by (destruct (g k); [exfalso; now eapply N|reflexivity|reflexivity]). split; [|split; [|exact C1]].
      * intros v. rewrite A1. split; [intros (pre & k1 & post & -> & G1 & H); exists (k :: pre), k1, post; repeat split; [exact G1|]; intros k' w [<-|J]; [apply N|now apply H]|].
        intros (pre & k1 & post & E & G1 & H). destruct pre as [|p pre]; [injection E as <- _; exfalso; now apply (N v)|]. injection E as <- E. exists pre, k1, post. repeat split; [exact E|exact G1|intros k' w J; apply H; now right].
      * rewrite B1. split; [intros H k' w [<-|J]; [apply N|now apply H]|intros H k' w J; apply H; now right].
Qed.
(** The value is that of the first key that can be read, and there is a failure
    exactly when none can. *)
Theorem C56_long L (m : msg L) ks : (forall v, get_long_oneof L true m ks = Ok (Some v) <-> found_at (g_long L m) ks v) /\
  (get_long_oneof L true m ks = Ok None <-> forall k w, In k ks -> g_long L m k <> Got w) /\ defined (get_long_oneof L true m ks) = true.
Proof.
  replace (get_long_oneof L true m ks) with (first_of (g_long L m) ks); [apply first_spec|]. unfold get_long_oneof. generalize true at 2 as e. induction ks as [|k ks IH]; intros e; cbn [first_of long_oneof traced]; [reflexivity|]. destruct (g_long L m k); auto.
Qed.
Print Assumptions C56_long.
Theorem C56_double L (m : msg L) ks : (forall v, get_double_oneof L true m ks = Ok (Some v) <-> found_at (g_double L m) ks v) /\
  (get_double_oneof L true m ks = Ok None <-> forall k w, In k ks -> g_double L m k <> Got w) /\ defined (get_double_oneof L true m ks) = true.
Proof.
  replace (get_double_oneof L true m ks) with (first_of (g_double L m) ks); [apply first_spec|]. induction ks as [|k ks IH]; cbn [first_of get_double_oneof traced]; [reflexivity|]. destruct (g_double L m k); auto.
Qed.
Print Assumptions C56_double.
(** Several keys can be set alternatively only if the first one works. *)
Theorem C56_refuted_set L (m : msg L) k v : (exists m', s_long L m k v = Some m' /\ set_long_oneof L true m k v = Ok (Some m')) \/ (s_long L m k v = None /\ set_long_oneof L true m k v = UB).
Proof. unfold set_long_oneof, traced. destruct (s_long L m k v) as [m'|]; [left; eauto|now right]. Qed.
Print Assumptions C56_refuted_set.

(** A library that keeps its keys in a list; those in [ro] cannot be changed. *)
Definition store := list (string * Z).
Fixpoint st_get (m : store) (k : string) : gres Z := match m with [] => NotFound | (k', v) :: m' => if String.eqb k k' then Got v else st_get m' k end.
Definition st_lib (ro : list string) (s : string -> option store) : glib :=
  {| msg := store * list (string * R) * list num;
     g_long m k := st_get (fst (fst m)) k;
     g_double m k := match find (fun p => String.eqb k (fst p)) (snd (fst m)) with Some (_, v) => Got v | None => NotFound end;
     g_values m := Got (map (fun v => match v with Some x => Some x | None => match find (fun p => String.eqb "missingValue" (fst p)) (snd (fst m)) with Some (_, x) => Some x | None => None end end) (snd m));
     s_long m k v := if existsb (String.eqb k) ro then None else Some (((k, v) :: fst (fst m), snd (fst m)), snd m);
     s_double m k v := match v with Some x => Some ((fst (fst m), (k, x) :: snd (fst m)), snd m) | None => Some m end;
     s_values m l := Some (fst m, match st_get (fst (fst m)) "bitmapPresent", find (fun p => String.eqb "missingValue" (fst p)) (snd (fst m)) with
                                  | Got 1, Some (_, x) => map (fun v => if num_eq v (Some x) then None else v) l
                                  | _, _ => l
                                  end);
     sample n := match s n with Some st => Some (st, [], []) | None => None end |}.
Example C56_case : get_long_oneof (st_lib [] (fun _ => None)) true ([("b", 2); ("c", 3)], [], []) ["a"; "b"; "c"] = Ok (Some 2).
Proof. reflexivity. Qed.

(** ** C110: the trace file *)
(** Without the trace file no GRIB file can be opened or written. *)
Theorem C110_refuted_trace L file : GRIBOpen L false file = UB /\ (forall m, get_long L false m "editionNumber" = UB) /\
  forall old w templ s t, template_of templ = Some t -> GRIBCreateCopy L false old w templ s = UB.
Proof.
  repeat split. intros old w templ s t T. unfold GRIBCreateCopy. rewrite T. unfold create. destruct (src_srs s) as [[[p h] l]|]; reflexivity.
Qed.
Print Assumptions C110_refuted_trace.

(** ** C55 *)
(** Keys that setting a key can change, besides that key. *)
Definition grid_keys : list string := ["shapeOfTheEarth"; "numberOfPointsAlongXAxis"; "numberOfPointsAlongYAxis"; "latitudeOfSubSatellitePointInDegrees"; "longitudeOfSubSatellitePointInDegrees"; "geography.lop"; "geography.dx"; "geography.dy"; "geography.xo"; "geography.yo"; "Xo"; "Yo"; "xCoordinateOfSubSatellitePoint"; "yCoordinateOfSubSatellitePoint"; "XpInGridLengths"; "YpInGridLengths"; "scanningMode"; "orientationOfTheGridInDegrees"; "Nr"; "resolutionAndComponentFlags"; "altitude"].
Definition product_keys : list string := ["parameterCategory"; "parameterNumber"; "typeOfGeneratingProcess"; "generatingProcessIdentifier"; "NB"; "satelliteSeries"; "satelliteNumber"; "instrumentType"; "scaleFactorOfCentralWaveNumber"; "scaledValueOfCentralWaveNumber"].
Definition local_keys : list string := ["localDefinitionNumber"; "satelliteIdentifier"; "instrumentIdentifier"; "channelNumber"; "functionCode"].
Definition data_keys : list string := ["numberOfValues"; "bitmapPresent"; "missingValue"].
Definition one_of (k : string) (l : list string) : bool := existsb (String.eqb k) l.
Definition changes (k : string) : list string :=
  if one_of k ["centuryOfReferenceTimeOfData"; "yearOfCentury"] then ["year"]
  else if one_of k ["year"] then ["centuryOfReferenceTimeOfData"; "yearOfCentury"]
  else if one_of k ["gridDefinitionTemplateNumber"; "dataRepresentationType"; "sourceOfGridDefinition"; "numberOfDataPoints"; "interpretationOfNumberOfPoints"] then grid_keys
  else if one_of k ["productDefinitionTemplateNumber"; "NB"] then product_keys
  else if one_of k ["localDefinitionNumber"; "centre"; "subCentre"] then local_keys
  else if one_of k ["dataRepresentationTemplateNumber"; "numberOfValues"; "bitmapPresent"; "missingValue"; "values"] then data_keys
  else if one_of k ["geography.xo"; "Xo"] then ["geography.xo"; "Xo"]
  else if one_of k ["geography.yo"; "Yo"] then ["geography.yo"; "Yo"]
  else if one_of k ["xCoordinateOfSubSatellitePoint"; "XpInGridLengths"] then ["xCoordinateOfSubSatellitePoint"; "XpInGridLengths"]
  else if one_of k ["yCoordinateOfSubSatellitePoint"; "YpInGridLengths"] then ["yCoordinateOfSubSatellitePoint"; "YpInGridLengths"]
  else [].
Definition touches (k k' : string) : bool := String.eqb k k' || one_of k' (changes k).
(** What the statements need of grib_api: a value that has been set is read back,
    and other keys keep theirs. *)
Record faithful (L : glib) : Prop := {
  f_long : forall m k v m', s_long L m k v = Some m' -> g_long L m' k = Got v;
  f_double : forall m k v m', s_double L m k (Some v) = Some m' -> g_double L m' k = Got v;
  f_long_keeps : forall m k v m' k', s_long L m k v = Some m' -> touches k k' = false -> g_long L m' k' = g_long L m k' /\ g_double L m' k' = g_double L m k';
  f_double_keeps : forall m k v m' k', s_double L m k v = Some m' -> touches k k' = false -> g_long L m' k' = g_long L m k' /\ g_double L m' k' = g_double L m k';
  f_values_keeps : forall m l m' k', s_values L m l = Some m' -> touches "values" k' = false -> g_long L m' k' = g_long L m k' /\ g_double L m' k' = g_double L m k'
}.
Lemma st_faithful ro s : faithful (st_lib ro s).
Proof.
  constructor; cbn.
  - intros m k v m'. destruct (existsb _ _); [discriminate|]. intros E. injection E as <-. cbn. now rewrite String.eqb_refl.
  - intros m k v m' E. injection E as <-. cbn. now rewrite String.eqb_refl.
  - intros m k v m' k'. destruct (existsb _ _); [discriminate|]. intros E T. injection E as <-. unfold touches in T. apply Bool.orb_false_elim in T. destruct T as [T _]. cbn. rewrite String.eqb_sym, T. auto.
  - intros m k v m' k' E T. unfold touches in T. apply Bool.orb_false_elim in T. destruct T as [T _]. destruct v; injection E as <-; cbn; [rewrite String.eqb_sym, T|]; auto.
  - intros m l m' k' E _. injection E as <-. auto.
Qed.

(** Texts of dates, written independently of printf. *)
Definition dd (n : Z) : str := [48 + n / 10; 48 + n mod 10].
Definition dddd (n : Z) : str := dd (n / 100) ++ dd (n mod 100).
Definition iso_text (y mo d h mi s : Z) : str := dddd y ++ [45] ++ dd mo ++ [45] ++ dd d ++ [32] ++ dd h ++ [58] ++ dd mi ++ [58] ++ dd s.
Definition two (n : Z) : Prop := 0 <= n <= 99.

Lemma range_check (P : Z -> bool) n : forallb P (map Z.of_nat (seq 0 n)) = true -> forall z, 0 <= z < Z.of_nat n -> P z = true.
Proof. intros F z H. rewrite forallb_forall in F. apply F. apply in_map_iff. exists (Z.to_nat z). split; [lia|]. apply in_seq. lia. Qed.
Definition same_str (a b : str) : bool := if list_eq_dec Z.eq_dec a b then true else false.
Lemma zpad2 n : two n -> zpad 2 n = dd n.
Proof.
  intros H. assert (C : same_str (zpad 2 n) (dd n) = true) by (apply (range_check (fun n => same_str (zpad 2 n) (dd n)) 100); [vm_compute; reflexivity|unfold two in H; lia]). unfold same_str in C. destruct (list_eq_dec _ _ _); [assumption|discriminate].
Qed.
Lemma print_step f z acc : print_from (S f) z acc = if z <? 10 then (48 + z mod 10) :: acc else print_from f (z / 10) ((48 + z mod 10) :: acc).
Proof. reflexivity. Qed.
Ltac small_print n := repeat (rewrite print_step; match goal with |- context [?x <? 10] => (replace (x <? 10) with true by lia) || (replace (x <? 10) with false by lia) end).
Lemma zpad4 n : 0 <= n <= 9999 -> zpad 4 n = dddd n.
Proof.
  intros H. unfold zpad, dddd, dd, print. replace (n <? 0) with false by lia. assert (n < 10 \/ 10 <= n < 100 \/ 100 <= n < 1000 \/ 1000 <= n) as [C|[C|[C|C]]] by lia; small_print n; cbn [List.length Nat.sub repeat app]; repeat (apply f_equal2; [lia|]); reflexivity.
Qed.
(** Reading digits followed by something else. *)
Lemma take_digits_app w ds rest : (List.length ds <= w)%nat -> Forall (fun c => 48 <= c <= 57) ds -> match rest with c :: _ => ~ 48 <= c <= 57 | [] => True end -> take_digits w (ds ++ rest) = ds.
Proof.
  revert w. induction ds as [|c ds IH]; intros w Hw F R; cbn [app].
  - destruct w, rest as [|c r]; cbn; try reflexivity. now replace ((48 <=? c) && (c <=? 57)) with false by lia.
  - destruct w as [|w]; [cbn in Hw; lia|]. inversion F; subst. cbn. replace ((48 <=? c) && (c <=? 57)) with true by lia. f_equal. apply IH; [cbn in Hw; lia|assumption|assumption].
Qed.
Lemma scan_int_digits w ds rest : (List.length ds <= w)%nat -> ds <> [] -> Forall (fun c => 48 <= c <= 57) ds -> match rest with c :: _ => ~ 48 <= c <= 57 | [] => True end -> scan_int w (ds ++ rest) = Some (digits 0 ds, rest).
Proof.
  intros Hw N F R. destruct ds as [|c ds]; [contradiction|]. inversion F as [|? ? Hc F']; subst. unfold scan_int. assert (K : strskp ((c :: ds) ++ rest) = (c :: ds) ++ rest). { cbn [app strskp]. unfold isspace. now replace (((9 <=? c) && (c <=? 13)) || (c =? 32)) with false by lia. }
  rewrite K. destruct w as [|w]; [cbn in Hw; lia|]. cbn [app]. replace (c =? 45) with false by lia. replace (c =? 43) with false by lia. change (c :: ds ++ rest) with ((c :: ds) ++ rest). rewrite take_digits_app by assumption. f_equal. f_equal. now rewrite skipn_app, skipn_all, Nat.sub_diag.
Qed.
Lemma dd_digits n : two n -> Forall (fun c => 48 <= c <= 57) (dd n) /\ digits 0 (dd n) = n.
Proof.
  intros H. unfold two in H. split; [repeat constructor; lia|]. unfold dd. cbn [digits]. replace ((48 <=? 48 + n / 10) && (48 + n / 10 <=? 57)) with true by lia. replace ((48 <=? 48 + n mod 10) && (48 + n mod 10 <=? 57)) with true by lia. lia.
Qed.
Lemma dddd_digits n : 0 <= n <= 9999 -> Forall (fun c => 48 <= c <= 57) (dddd n) /\ digits 0 (dddd n) = n.
Proof.
  intros H. split; [unfold dddd; apply Forall_app; split; apply dd_digits; unfold two; lia|]. unfold dddd, dd. cbn [app digits].
  repeat match goal with |- context [(48 <=? ?x) && (?x <=? 57)] => replace ((48 <=? x) && (x <=? 57)) with true by lia end. lia.
Qed.
Lemma strskp_dd n rest : two n -> strskp (dd n ++ rest) = dd n ++ rest.
Proof. intros H. unfold two in H. unfold dd. cbn [app strskp]. unfold isspace. now replace (((9 <=? 48 + n / 10) && (48 + n / 10 <=? 13)) || (48 + n / 10 =? 32)) with false by lia. Qed.
Lemma scan_char_other c s : c <> 32 -> scan_char c (c :: s) = Some s.
Proof. intros H. unfold scan_char. rewrite Z.eqb_refl. now replace (c =? 32) with false by lia. Qed.
Lemma scan_char_space s : scan_char 32 (32 :: s) = Some (strskp s).
Proof. reflexivity. Qed.
Lemma scan_free_iso y mo d h mi s : 0 <= y <= 9999 -> two mo -> two d -> two h -> two mi -> two s -> scan_free (iso_text y mo d h mi s) = Some [y; mo; d; h; mi; s].
Proof.
  intros Y M D H MI S0. unfold scan_free, free_format. change (List.length (iso_text y mo d h mi s)) with 19%nat. unfold iso_text. cbn [scan_fields].
  rewrite (scan_int_digits _ (dddd y)); [|cbn; lia|discriminate|now apply dddd_digits|cbn; lia]. cbn [app]. rewrite scan_char_other by lia.
  rewrite (scan_int_digits _ (dd mo)); [|cbn; lia|discriminate|now apply dd_digits|cbn; lia]. cbn [app]. rewrite scan_char_other by lia.
  rewrite (scan_int_digits _ (dd d)); [|cbn; lia|discriminate|now apply dd_digits|cbn; lia]. cbn [app]. rewrite scan_char_space, strskp_dd by assumption.
  rewrite (scan_int_digits _ (dd h)); [|cbn; lia|discriminate|now apply dd_digits|cbn; lia]. cbn [app]. rewrite scan_char_other by lia.
  rewrite (scan_int_digits _ (dd mi)); [|cbn; lia|discriminate|now apply dd_digits|cbn; lia]. cbn [app]. rewrite scan_char_other by lia.
  rewrite <- (app_nil_r (dd s)). rewrite (scan_int_digits _ (dd s)); [|cbn; lia|discriminate|now apply dd_digits|exact I].
  rewrite (proj2 (dddd_digits y Y)), (proj2 (dd_digits mo M)), (proj2 (dd_digits d D)), (proj2 (dd_digits h H)), (proj2 (dd_digits mi MI)), (proj2 (dd_digits s S0)). reflexivity.
Qed.

Lemma get_long_ok L m k v : g_long L m k = Got v -> get_long L true m k = Ok (Some v).
Proof. intros G. unfold get_long, traced. now rewrite G. Qed.
Lemma set_long_ok L m k v m' : set_long L true m k v = Ok (Some m') -> s_long L m k v = Some m'.
Proof. unfold set_long, traced. congruence. Qed.
(** What the message holds after a time has been set; the seconds only if they
    can be set. *)
Definition holds (L : glib) (m : msg L) (y mo d h mi : Z) : Prop :=
  (g_long L m "editionNumber" = Got 1 /\ (exists c yoc, g_long L m "centuryOfReferenceTimeOfData" = Got c /\ g_long L m "yearOfCentury" = Got yoc /\ (c - 1) * 100 + yoc = y) \/
   g_long L m "editionNumber" = Got 2 /\ g_long L m "year" = Got y) /\
  g_long L m "month" = Got mo /\ g_long L m "day" = Got d /\ g_long L m "hour" = Got h /\ g_long L m "minute" = Got mi.
Ltac keep F H k := let X := fresh "K" in pose proof (proj1 (f_long_keeps _ F _ _ _ _ k H eq_refl)) as X.
Lemma setTime_holds L m y mo d h mi s m' : faithful L -> 0 <= y <= 9999 -> two mo -> two d -> two h -> two mi -> two s ->
  setTime L true m (iso_text y mo d h mi s) = Ok (Some m') -> holds L m' y mo d h mi /\
  exists m0, m' = match s_long L m0 "second" s with Some x => x | None => m0 end /\ g_long L m0 "second" = g_long L m "second".
Proof.
  intros F Y M D H MI S0 E. unfold setTime in E. rewrite scan_free_iso in E by assumption. unfold get_long, traced in E. destruct (g_long L m "editionNumber") as [ed| |] eqn:G; try discriminate.
  assert (I : forallb int_fits [y; mo; d; h; mi; s] = true) by (unfold two in *; cbn; unfold int_fits; lia). rewrite I in E. cbn [negb] in E.
  assert (T : exists m1, (if ed =? 1 then (g_long L m1 "editionNumber" = Got 1 /\ g_long L m1 "centuryOfReferenceTimeOfData" = Got (Z.quot y 100 + 1) /\ g_long L m1 "yearOfCentury" = Got (Z.rem y 100)) else ed = 2 /\ g_long L m1 "editionNumber" = Got 2 /\ g_long L m1 "year" = Got y) /\
    (let? m := set_long L true m1 "month" mo in let? m := set_long L true m "day" d in let? m := set_long L true m "hour" h in let? m := set_long L true m "minute" mi in set_long_unchecked L true m "second" s) = Ok (Some m') /\ g_long L m1 "second" = g_long L m "second").
  { destruct (Z.eqb_spec ed 1) as [->|N1].
    - destruct (set_long L true m "centuryOfReferenceTimeOfData" (Z.quot y 100 + 1)) as [[a|]| | | |] eqn:S1; try discriminate. destruct (set_long L true a "yearOfCentury" (Z.rem y 100)) as [[b|]| | | |] eqn:S2; try discriminate. apply set_long_ok in S1, S2.
      exists b. split; [|split; [exact E|keep F S1 "second"; keep F S2 "second"; congruence]]. keep F S1 "editionNumber". keep F S2 "editionNumber". keep F S2 "centuryOfReferenceTimeOfData". rewrite K0, K, K1. repeat split; [exact G|now apply (f_long _ F _ _ _ _ S1)|now apply (f_long _ F _ _ _ _ S2)].
    - destruct (Z.eqb_spec ed 2) as [->|N2]; [|discriminate]. destruct (set_long L true m "year" y) as [[a|]| | | |] eqn:S1; try discriminate. apply set_long_ok in S1. exists a. split; [|split; [exact E|keep F S1 "second"; congruence]]. keep F S1 "editionNumber". rewrite K. repeat split; [exact G|now apply (f_long _ F _ _ _ _ S1)]. }
  clear E. destruct T as (m1 & T & E & SEC).
  destruct (set_long L true m1 "month" mo) as [[m2|]| | | |] eqn:S2; try discriminate. destruct (set_long L true m2 "day" d) as [[m3|]| | | |] eqn:S3; try discriminate. destruct (set_long L true m3 "hour" h) as [[m4|]| | | |] eqn:S4; try discriminate. destruct (set_long L true m4 "minute" mi) as [[m5|]| | | |] eqn:S5; try discriminate. apply set_long_ok in S2, S3, S4, S5.
  assert (KK : forall k, one_of k ["month"; "day"; "hour"; "minute"; "second"] = false -> g_long L m' k = g_long L m1 k).
  { intros k NK. cbn in NK. repeat rewrite Bool.orb_false_iff in NK. destruct NK as (N1 & N2 & N3 & N4 & N5 & _).
    assert (TT : forall k0, one_of k0 ["month"; "day"; "hour"; "minute"; "second"] = true -> String.eqb k k0 = false -> touches k0 k = false).
    { intros k0 H0 N0. cbn in H0. repeat rewrite Bool.orb_true_iff in H0. rewrite !String.eqb_eq in H0. unfold touches. rewrite String.eqb_sym, N0. destruct H0 as [->|[->|[->|[->|[->|X]]]]]; try reflexivity; discriminate. }
    rewrite <- (proj1 (f_long_keeps _ F _ _ _ _ k S2 (TT "month" eq_refl N1))), <- (proj1 (f_long_keeps _ F _ _ _ _ k S3 (TT "day" eq_refl N2))), <- (proj1 (f_long_keeps _ F _ _ _ _ k S4 (TT "hour" eq_refl N3))), <- (proj1 (f_long_keeps _ F _ _ _ _ k S5 (TT "minute" eq_refl N4))).
    unfold set_long_unchecked, traced in E. injection E as <-. destruct (s_long L m5 "second" s) eqn:S6; [exact (proj1 (f_long_keeps _ F _ _ _ _ k S6 (TT "second" eq_refl N5)))|reflexivity]. }
  split; [|exists m5; split; [unfold set_long_unchecked, traced in E; congruence|keep F S2 "second"; keep F S3 "second"; keep F S4 "second"; keep F S5 "second"; congruence]].
  assert (L5 : forall k v, g_long L m5 k = Got v -> one_of k ["second"] = false -> touches "second" k = false -> g_long L m' k = Got v).
  { intros k v V _ T0. unfold set_long_unchecked, traced in E. injection E as <-. destruct (s_long L m5 "second" s) eqn:S6; [|exact V]. now rewrite (proj1 (f_long_keeps _ F _ _ _ _ k S6 T0)). }
  split; [|repeat split; apply L5; try reflexivity].
  - rewrite !KK by reflexivity. destruct (Z.eqb_spec ed 1) as [->|N1]; [left|right].
    + destruct T as (T1 & T2 & T3). split; [exact T1|]. exists (Z.quot y 100 + 1), (Z.rem y 100). repeat split; [exact T2|exact T3|]. rewrite Z.quot_div_nonneg, Z.rem_mod_nonneg by lia. lia.
    + destruct T as (_ & T1 & T2). auto.
  - keep F S3 "month". keep F S4 "month". keep F S5 "month". rewrite K1, K0, K. apply (f_long _ F _ _ _ _ S2).
  - keep F S4 "day". keep F S5 "day". rewrite K0, K. apply (f_long _ F _ _ _ _ S3).
  - keep F S5 "hour". rewrite K. apply (f_long _ F _ _ _ _ S4).
  - apply (f_long _ F _ _ _ _ S5).
Qed.
Lemma formatTime_holds L m y mo d h mi s : holds L m y mo d h mi -> g_long L m "second" = Got s ->
  formatTime L true m = Ok (Some (firstn 19 (zpad 4 y ++ [45] ++ zpad 2 mo ++ [45] ++ zpad 2 d ++ [32] ++ zpad 2 h ++ [58] ++ zpad 2 mi ++ [58] ++ zpad 2 s))).
Proof.
  intros (Y & M & D & H & MI) S0. unfold formatTime. destruct Y as [(E & c & yoc & C & YOC & <-)|(E & Y)]; rewrite (get_long_ok _ _ _ _ E); cbn [Z.eqb Pos.eqb].
  - rewrite (get_long_ok _ _ _ _ C), (get_long_ok _ _ _ _ YOC), (get_long_ok _ _ _ _ M), (get_long_ok _ _ _ _ D), (get_long_ok _ _ _ _ H), (get_long_ok _ _ _ _ MI), (get_long_ok _ _ _ _ S0). reflexivity.
  - rewrite (get_long_ok _ _ _ _ Y), (get_long_ok _ _ _ _ M), (get_long_ok _ _ _ _ D), (get_long_ok _ _ _ _ H), (get_long_ok _ _ _ _ MI), (get_long_ok _ _ _ _ S0). reflexivity.
Qed.
Lemma formatTime_text L m y mo d h mi s : 0 <= y <= 9999 -> two mo -> two d -> two h -> two mi -> two s -> holds L m y mo d h mi -> g_long L m "second" = Got s -> formatTime L true m = Ok (Some (iso_text y mo d h mi s)).
Proof. intros Y M D H MI S0 HH HS. rewrite (formatTime_holds _ _ _ _ _ _ _ _ HH HS). rewrite zpad4, !zpad2 by assumption. reflexivity. Qed.
(** A date and time reads back unchanged, in both editions, if the library stores
    seconds. *)
Theorem C55_round_trip_partial L m y mo d h mi s m' : faithful L -> (forall m0 v, s_long L m0 "second" v <> None) -> 0 <= y <= 9999 -> two mo -> two d -> two h -> two mi -> two s ->
  setTime L true m (iso_text y mo d h mi s) = Ok (Some m') -> formatTime L true m' = Ok (Some (iso_text y mo d h mi s)).
Proof.
  intros F A Y M D H MI S0 E. destruct (setTime_holds _ _ _ _ _ _ _ _ _ F Y M D H MI S0 E) as (HH & m0 & E0 & _). apply formatTime_text; try assumption. specialize (A m0 s). destruct (s_long L m0 "second" s) as [x|] eqn:X; [|contradiction]. subst x. apply (f_long _ F _ _ _ _ X).
Qed.
Print Assumptions C55_round_trip_partial.
(** A library that accepts all the keys accepts all the times. *)
Theorem C55_accepted L m y mo d h mi s ed : (forall m0 k v, s_long L m0 k v <> None) -> g_long L m "editionNumber" = Got ed -> ed = 1 \/ ed = 2 -> 0 <= y <= 9999 -> two mo -> two d -> two h -> two mi -> two s ->
  exists m', setTime L true m (iso_text y mo d h mi s) = Ok (Some m').
Proof.
  intros A G ED Y M D H MI S0. unfold setTime. rewrite scan_free_iso, (get_long_ok _ _ _ _ G) by assumption. replace (forallb int_fits [y; mo; d; h; mi; s]) with true by (symmetry; unfold two in *; cbn; unfold int_fits; lia). cbn [negb]. unfold set_long, set_long_unchecked, traced.
  assert (T : forall m0 k v, exists x, s_long L m0 k v = Some x) by (intros m0 k v; specialize (A m0 k v); destruct (s_long L m0 k v) eqn:E; [eauto|contradiction]).
  assert (T2 : forall m1, exists m', (let? m := Ok (s_long L m1 "month" mo) in let? m := Ok (s_long L m "day" d) in let? m := Ok (s_long L m "hour" h) in let? m := Ok (s_long L m "minute" mi) in Ok (Some (match s_long L m "second" s with Some x => x | None => m end))) = Ok (Some m')).
  { intros m1. destruct (T m1 "month" mo) as [m2 ->]. destruct (T m2 "day" d) as [m3 ->]. destruct (T m3 "hour" h) as [m4 ->]. destruct (T m4 "minute" mi) as [m5 ->]. eauto. }
  destruct ED as [->| ->]; cbn [Z.eqb Pos.eqb].
  - destruct (T m "centuryOfReferenceTimeOfData" (Z.quot y 100 + 1)) as [a ->]. destruct (T a "yearOfCentury" (Z.rem y 100)) as [b ->]. apply T2.
  - destruct (T m "year" y) as [a ->]. apply T2.
Qed.
Print Assumptions C55_accepted.
(** Other editions are refused in both directions. *)
Theorem C55_editions L m t ed : g_long L m "editionNumber" = Got ed -> ed <> 1 -> ed <> 2 -> formatTime L true m = Ok None /\ forall m', setTime L true m t <> Ok (Some m').
Proof.
  intros G N1 N2. unfold formatTime, setTime. rewrite (get_long_ok _ _ _ _ G). replace (ed =? 1) with false by lia. replace (ed =? 2) with false by lia. split; [reflexivity|]. intros m'. destruct (scan_free t) as [[|a [|b [|c [|d [|e [|f [|g l]]]]]]]|]; try discriminate. destruct (negb _); discriminate.
Qed.
Print Assumptions C55_editions.
(** Texts that do not hold a date are refused. *)
Theorem C55_refused_text L m t : scan_free t = None -> forall m', setTime L true m t <> Ok (Some m').
Proof. intros E m'. unfold setTime, get_long, traced. rewrite E. destruct (g_long _ _ _); discriminate. Qed.
Print Assumptions C55_refused_text.
(** Edition 1 has no seconds: when they cannot be set the failure is ignored and
    the time reads back with other seconds. *)
Theorem C55_refuted_seconds L m y mo d h mi s s0 m' : faithful L -> (forall m0 v, s_long L m0 "second" v = None) -> g_long L m "second" = Got s0 -> two s0 -> s0 <> s -> 0 <= y <= 9999 -> two mo -> two d -> two h -> two mi -> two s ->
  setTime L true m (iso_text y mo d h mi s) = Ok (Some m') -> formatTime L true m' = Ok (Some (iso_text y mo d h mi s0)) /\ iso_text y mo d h mi s0 <> iso_text y mo d h mi s.
Proof.
  intros F A G T0 NE Y M D H MI S0 E. destruct (setTime_holds _ _ _ _ _ _ _ _ _ F Y M D H MI S0 E) as (HH & m0 & E0 & SEC). split; [apply formatTime_text; try assumption; rewrite A in E0; congruence|]. intros X. unfold iso_text in X. do 7 apply app_inv_head in X. apply app_inv_head in X. apply app_inv_head in X. apply app_inv_head in X. apply (f_equal (digits 0)) in X. rewrite (proj2 (dd_digits s0 T0)), (proj2 (dd_digits s S0)) in X. contradiction.
Qed.
Print Assumptions C55_refuted_seconds.
(** From the year 10000 the text does not have room for the seconds. *)
Theorem C55_refuted_year L m1 m2 y mo d h mi s1 s2 : 10000 <= y <= 25599 -> two mo -> two d -> two h -> two mi -> two s1 -> two s2 -> s1 / 10 = s2 / 10 -> holds L m1 y mo d h mi -> holds L m2 y mo d h mi -> g_long L m1 "second" = Got s1 -> g_long L m2 "second" = Got s2 ->
  formatTime L true m1 = formatTime L true m2 /\ exists t, formatTime L true m1 = Ok (Some t) /\ List.length t = 19%nat.
Proof.
  intros Y M D H MI S1 S2 SS H1 H2 G1 G2. rewrite (formatTime_holds _ _ _ _ _ _ _ _ H1 G1), (formatTime_holds _ _ _ _ _ _ _ _ H2 G2). rewrite !zpad2 by assumption.
  assert (P : Nat.eqb (List.length (zpad 4 y)) 5 = true) by (unfold zpad, print; replace (y <? 0) with false by lia; small_print y; reflexivity).
  apply Nat.eqb_eq in P. destruct (zpad 4 y) as [|a [|b [|c [|e [|f [|g t]]]]]]; try discriminate. unfold dd. cbn [app firstn]. rewrite SS. split; [reflexivity|]. eexists. split; reflexivity.
Qed.
Print Assumptions C55_refuted_year.
Definition lib2 := st_lib [] (fun _ => None).
Example C55_case : faithful lib2 /\ (exists m', setTime lib2 true ([("editionNumber", 1)], [], []) (iso_text 2000 2 29 23 59 58) = Ok (Some m') /\ formatTime lib2 true m' = Ok (Some (codes "2000-02-29 23:59:58"))).
Proof. split; [apply st_faithful|]. eexists. split; [reflexivity|]. vm_compute. reflexivity. Qed.
Definition lib1 := st_lib ["second"] (fun _ => None).
Example C55_seconds_case : (forall m0 v, s_long lib1 m0 "second" v = None) /\ faithful lib1.
Proof. split; [reflexivity|apply st_faithful]. Qed.
Example C55_seconds_lost : exists m', setTime lib1 true ([("editionNumber", 1); ("second", 0)], [], []) (iso_text 2006 11 13 12 0 10) = Ok (Some m') /\ formatTime lib1 true m' = Ok (Some (codes "2006-11-13 12:00:00")).
Proof. eexists. split; [reflexivity|]. vm_compute. reflexivity. Qed.
