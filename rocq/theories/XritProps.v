(** C155-C157: opening a product of HRIT or LRIT files, reading it, and where its
    pixels are. *)
From Coq Require Import Reals Lra.
From Verif Require Import Base BaseFacts IniModel MachineModel MachineProofs HeaderModel HeaderSpec HeaderProofs MsgModel GribModel GribProps NcProps MsgTimeProps FactsModel FactsSpec FactsProofs DataAccessModel DataAccessSpec DataAccessProofs DataAccessScan DataAccessBlocks DumpProps XritModel.
From Verif Require Import LayoutModel LayoutSpec LayoutProofs LayoutFacts LayoutProps.
From Verif Require CalibModel CalibProps.
Open Scope string_scope.
Open Scope list_scope.
Open Scope Z_scope.

(** * What the files say *)
(** A prologue or epilogue file: header records, length of the data field in bits,
    and the data field. *)
Record part := mk_part { p_dfl : Z; p_recs : list HeaderSpec.rec; p_body : list Z }.
Definition part_bytes (ft : Z) (p : part) : list Z := encode_header ft (p_dfl p) (p_recs p) ++ p_body p.
Definition good_part (ft n : Z) (p : part) : Prop :=
  wf_header None ft (p_dfl p) (p_recs p) = true /\ bytes_ok (p_body p) /\
  n <= p_dfl p / 8 <= Z.of_nat (List.length (p_body p)) /\
  (exists a, last_of report_annot None (p_recs p) = Some a /\ exists u v, an_pid1 a = u ++ codes "MSG" ++ v) /\
  match last_of report_seg None (p_recs p) with Some s => si_format s <> 0 | None => True end.
(** The number that a field named outermost first has in the file. *)
Definition number_of (f : fmt) (p : part) (t : list seg) : Z :=
  match lookup f t with Some (o, w) => be_val (bytes_of (p_body p) o w) | None => -1 end.
Notation in_prologue := (number_of prologue_fmt).
Notation in_epilogue := (number_of trailer_fmt).
(** A floating point number of IEEE 754: sign, exponent, fraction. *)
Definition ieee (eb mb n : Z) (x : R) : Prop :=
  exists s e m, 0 <= s <= 1 /\ 0 <= e < 2 ^ eb - 1 /\ 0 <= m < 2 ^ mb /\ n = (s * 2 ^ eb + e) * 2 ^ mb + m /\
  x = ((if s =? 1 then -1 else 1) * IZR (m + if (e =? 0)%Z then 0 else 2 ^ mb) * powerRZ 2 (Z.max e 1 - (2 ^ (eb - 1) - 1) - mb))%R.
Notation single := (ieee 8 23).
Notation double := (ieee 11 52).

Definition start_day : list seg := [N "image_acquisition"; N "PlannedAquisitionTime"; N "TrueRepeatCycleStart"; N "day_from_epoch"].
Definition start_msec : list seg := [N "image_acquisition"; N "PlannedAquisitionTime"; N "TrueRepeatCycleStart"; N "msec_in_day"].
Definition grid_step (hrv : bool) (nm : string) : list seg := [N "image_description"; N (if hrv then "ReferenceGridHRV" else "ReferenceGridVIS_IR"); N nm].
Definition calibration (i : Z) (nm : string) : list seg := [N "radiometric_proc"; N "ImageCalibration"; I i; N nm].
Definition coverage (nm : string) : list seg := [N "product_stats"; N "ActualL15CoverageHRV"; N nm].

(** * Fields *)
Lemma seg_eqb_true a b : seg_eqb a b = true <-> a = b.
Proof.
  destruct a as [s|i], b as [s'|j]; cbn [seg_eqb]; split; intro H; try discriminate.
  - apply String.eqb_eq in H. congruence.
  - injection H as ->. apply String.eqb_refl.
  - f_equal. lia.
  - injection H as ->. lia.
Qed.
Lemma path_eqb_true : forall p q, path_eqb p q = true <-> p = q.
Proof.
  induction p as [|a p IH]; intros [|b q]; cbn [path_eqb]; split; intro H; try discriminate; try reflexivity.
  - apply andb_true_iff in H as [H1 H2]. apply seg_eqb_true in H1. apply IH in H2. congruence.
  - injection H as -> ->. apply andb_true_iff. split; [now apply seg_eqb_true|now apply IH].
Qed.
Lemma field_found vs p v : In (p, v) vs -> (forall v', In (p, v') vs -> v' = v) -> field vs p = Ok v.
Proof.
  induction vs as [|[q w] vs IH]; intros H U; [destruct H|]. cbn [field]. destruct (path_eqb q p) eqn:E.
  - apply path_eqb_true in E. subst q. f_equal. apply U. now left.
  - apply IH; [|intros; apply U; now right]. destruct H as [H | H]; [|exact H]. injection H as -> ->.
    assert (T : path_eqb p p = true) by now apply path_eqb_true. congruence.
Qed.
Lemma field_decoded f file t o w : wf f = true -> lookup f t = Some (o, w) -> in_range f t -> moved (rev t) = 0 ->
  field (decoded f file) (rev t) = Ok (bytes_of file o w).
Proof. intros W L R M. destruct (decoded_hrit f file t o w W L R M). now apply field_found. Qed.

Lemma find_in p u v : find p (u ++ p ++ v) = true.
Proof.
  assert (P : has_prefix p (p ++ v) = true).
  { induction p as [|c p IH]; [now destruct v|]. cbn [app has_prefix]. now rewrite Z.eqb_refl. }
  induction u as [|c u IH].
  - cbn [app]. destruct (p ++ v) eqn:E; cbn [find]; now rewrite P.
  - cbn [app find]. rewrite IH. apply orb_true_r.
Qed.

Lemma expected_annot hd ft dfl rs : h_annot (expected hd ft dfl rs) = last_of report_annot (h_annot hd) rs.
Proof. reflexivity. Qed.
Lemma read_file_part h dec co ft p : wf_header None ft (p_dfl p) (p_recs p) = true ->
  match last_of report_seg None (p_recs p) with Some s => si_format s <> 0 | None => True end ->
  read_file h dec co (Some (part_bytes ft p)) =
  (let! m := read_from h dec co new_mdata (expected empty_header ft (p_dfl p) (p_recs p)) (p_body p) in Ok (fst m)).
Proof.
  intros W F. unfold read_file, part_bytes. rewrite header_round_trip by (now apply wf_header_any). cbn [bind].
  change (h_seg (expected empty_header ft (p_dfl p) (p_recs p))) with (last_of report_seg None (p_recs p)).
  destruct (last_of report_seg None (p_recs p)) as [s|]; [|reflexivity].
  replace (si_format s =? 0) with false by lia. reflexivity.
Qed.
Lemma read_prologue h dec co p : good_part 128 425450 p ->
  exists m, read_file h dec co (Some (part_bytes 128 p)) = Ok m /\ m_prologue m = Some (decoded prologue_fmt (p_body p)).
Proof.
  intros (W & B & L & (a & A & u & v & E) & F). rewrite read_file_part by assumption.
  unfold read_from. change (h_typecode (expected empty_header 128 (p_dfl p) (p_recs p))) with 128.
  cbn [Z.eqb Pos.eqb]. unfold data_field. change (h_dfl (expected empty_header 128 (p_dfl p) (p_recs p))) with (p_dfl p).
  replace (Z.of_nat (List.length (p_body p)) <? p_dfl p / 8) with false by lia. cbn [bind].
  rewrite expected_annot. change (h_annot empty_header) with (@None annot). rewrite A. cbn [deref bind]. rewrite E, find_in.
  rewrite prologue_ok. cbn [fst]. rewrite fetch_decoded; [|lia|eapply between_weaken; [apply (prologue_between [] 0) | lia | lia]].
  cbn [bind]. eexists. split; [reflexivity|]. reflexivity.
Qed.
Lemma read_epilogue h dec co p : good_part 129 380325 p ->
  exists m, read_file h dec co (Some (part_bytes 129 p)) = Ok m /\ m_epilogue m = Some (decoded trailer_fmt (p_body p)).
Proof.
  intros (W & B & L & (a & A & u & v & E) & F). rewrite read_file_part by assumption.
  unfold read_from. change (h_typecode (expected empty_header 129 (p_dfl p) (p_recs p))) with 129.
  cbn [Z.eqb Pos.eqb]. unfold data_field. change (h_dfl (expected empty_header 129 (p_dfl p) (p_recs p))) with (p_dfl p).
  replace (Z.of_nat (List.length (p_body p)) <? p_dfl p / 8) with false by lia. cbn [bind].
  rewrite expected_annot. change (h_annot empty_header) with (@None annot). rewrite A. cbn [deref bind]. rewrite E, find_in.
  rewrite epilogue_ok. cbn [fst]. rewrite fetch_decoded; [|lia|eapply between_weaken; [apply (trailer_between [] 0) | lia | lia]].
  cbn [bind]. eexists. split; [reflexivity|]. reflexivity.
Qed.

(** * Numbers *)
Lemma bytes_of_length b o w : 0 <= o -> 0 <= w -> o + w <= Z.of_nat (List.length b) -> List.length (bytes_of b o w) = Z.to_nat w.
Proof. intros H1 H2 H3. unfold bytes_of. rewrite firstn_length, skipn_length. lia. Qed.
Lemma bytes_of_ok b o w : bytes_ok b -> bytes_ok (bytes_of b o w).
Proof. intros B. unfold bytes_of. now apply bytes_ok_firstn, bytes_ok_skipn. Qed.
Lemma rd_ui_whole h b n : List.length b = n -> rd_ui h b 0 n = Ok (be_val b).
Proof. intros L. rewrite rd_ui_spec. unfold bytes_at. replace (0 + n <=? List.length b)%nat with true by lia. cbn [bind skipn]. rewrite firstn_all2 by lia. reflexivity. Qed.
Lemma rd_i_whole h b n : List.length b = n -> rd_i h b 0 n = Ok (to_signed (8 * Z.of_nat n) (be_val b)).
Proof. intros L. rewrite rd_i_spec. unfold bytes_at. replace (0 + n <=? List.length b)%nat with true by lia. cbn [bind skipn]. rewrite firstn_all2 by lia. reflexivity. Qed.

Lemma float_value_ieee eb mb n x : 0 < eb -> 0 < mb -> ieee eb mb n x -> float_value eb mb n = Some x.
Proof.
  intros HE HM (s & e & m & S0 & E & M & -> & ->). unfold float_value.
  assert (P : 0 < 2 ^ mb) by (apply Z.pow_pos_nonneg; lia). assert (Q : 0 < 2 ^ eb) by (apply Z.pow_pos_nonneg; lia).
  replace (((s * 2 ^ eb + e) * 2 ^ mb + m) mod 2 ^ mb) with m.
  2: { rewrite Z.add_comm, Z.mod_add by lia. symmetry. apply Z.mod_small. lia. }
  replace (((s * 2 ^ eb + e) * 2 ^ mb + m) / 2 ^ mb) with (s * 2 ^ eb + e).
  2: { rewrite Z.div_add_l by lia. rewrite (Z.div_small m) by lia. lia. }
  replace ((s * 2 ^ eb + e) mod 2 ^ eb) with e.
  2: { rewrite Z.add_comm, Z.mod_add by lia. symmetry. apply Z.mod_small. lia. }
  replace (((s * 2 ^ eb + e) * 2 ^ mb + m) / 2 ^ (eb + mb)) with s.
  2: { rewrite Z.pow_add_r by lia. rewrite (Z.mul_comm (2 ^ eb)), <- Z.div_div by lia. rewrite Z.div_add_l by lia. rewrite (Z.div_small m) by lia.
       rewrite Z.add_0_r, Z.div_add_l by lia. rewrite (Z.div_small e) by lia. lia. }
  cbv zeta. replace (e =? 2 ^ eb - 1) with false by lia.
  assert (SG : (if s =? 0 then 1%R else (-1)%R) = (if s =? 1 then (-1)%R else 1%R)) by (assert (D : s = 0 \/ s = 1) by lia; destruct D as [-> | ->]; reflexivity).
  rewrite SG. destruct (Z.eqb_spec e 0) as [-> | N0].
  - rewrite Z.add_0_r. reflexivity.
  - rewrite Z.max_l by lia. now rewrite (Z.add_comm m).
Qed.

Lemma field_number f p t o w n : wf f = true -> bytes_ok (p_body p) -> n <= Z.of_nat (List.length (p_body p)) ->
  lookup f t = Some (o, w) -> in_range f t -> moved (rev t) = 0 -> 0 <= o -> 0 <= w -> o + w <= n ->
  exists b, field (decoded f (p_body p)) (rev t) = Ok b /\ List.length b = Z.to_nat w /\ bytes_ok b /\ be_val b = number_of f p t.
Proof.
  intros W B L K R M O P H. exists (bytes_of (p_body p) o w). split; [now apply field_decoded|]. split; [apply bytes_of_length; lia|].
  split; [now apply bytes_of_ok|]. unfold number_of. now rewrite K.
Qed.

Section Prologue.
Variables (h : host) (p : part).
Hypothesis B : bytes_ok (p_body p).
Hypothesis L : 425450 <= Z.of_nat (List.length (p_body p)).
Let vs := decoded prologue_fmt (p_body p).
Lemma start_time_ok : start_time h vs = Ok (86400 * (in_prologue p start_day - 4383) + in_prologue p start_msec / 1000) /\
  0 <= in_prologue p start_day < 65536 /\ 0 <= in_prologue p start_msec.
Proof.
  destruct (field_number prologue_fmt p start_day 60134 2 425450) as (d & D1 & D2 & D3 & D4); [reflexivity|exact B|exact L|unfold start_day; lk|unfold start_day; lkr|reflexivity|lia|lia|lia|].
  destruct (field_number prologue_fmt p start_msec 60136 4 425450) as (m & M1 & M2 & M3 & M4); [reflexivity|exact B|exact L|unfold start_msec; lk|unfold start_msec; lkr|reflexivity|lia|lia|lia|].
  unfold start_time. change (start_path "day_from_epoch") with (rev start_day). change (start_path "msec_in_day") with (rev start_msec).
  unfold vs. rewrite D1. cbn [bind]. rewrite M1. cbn [bind].
  pose proof (be_val_range d D3) as RD. rewrite D2 in RD. change (256 ^ Z.of_nat (Z.to_nat 2)) with 65536 in RD. pose proof (be_val_range m M3) as RM.
  rewrite <- D4, <- M4. split; [|lia].
  destruct (cds_decode h [] (d ++ m) []) as (t & E & _ & _ & U & _); [rewrite app_length, D2, M2; reflexivity|].
  rewrite app_nil_r in E. cbn [app List.length] in E. rewrite E. cbn [bind]. rewrite U.
  change 2%nat with (Z.to_nat 2). rewrite <- D2. rewrite firstn_app, Nat.sub_diag, firstn_all. cbn [firstn]. rewrite app_nil_r.
  rewrite skipn_app, Nat.sub_diag, skipn_all. reflexivity.
Qed.
Lemma step_ok hrv nm x : In nm ["ColumnDirGridStep"; "LineDirGridStep"] -> single (in_prologue p (grid_step hrv nm)) x ->
  step h hrv vs nm = Ok (Some (1000 * Rabs x)%R).
Proof.
  intros Hn E. unfold step. change (step_path hrv nm) with (rev (grid_step hrv nm)). unfold vs.
  assert (P : exists o, lookup prologue_fmt (grid_step hrv nm) = Some (o, 4) /\ 0 <= o /\ o + 4 <= 425450 /\ in_range prologue_fmt (grid_step hrv nm) /\ moved (rev (grid_step hrv nm)) = 0).
  { destruct Hn as [<- | [<- | []]]; destruct hrv; unfold grid_step.
    - exists 386926. split; [lk|]. split; [lia|]. split; [lia|]. split; [lkr|reflexivity].
    - exists 386909. split; [lk|]. split; [lia|]. split; [lia|]. split; [lkr|reflexivity].
    - exists 386922. split; [lk|]. split; [lia|]. split; [lia|]. split; [lkr|reflexivity].
    - exists 386905. split; [lk|]. split; [lia|]. split; [lia|]. split; [lkr|reflexivity]. }
  destruct P as (o & P1 & P2 & P3 & P4 & P5).
  destruct (field_number prologue_fmt p (grid_step hrv nm) o 4 425450) as (b & B1 & B2 & B3 & B4); auto; try lia.
  rewrite B1. cbn [bind]. unfold get_r4. rewrite (rd_ui_whole h b 4 B2). cbn [bind]. rewrite B4, (float_value_ieee 8 23 _ x) by (lia || exact E).
  cbn [option_map]. do 2 f_equal. rewrite Rabs_mult. f_equal. apply Rabs_pos_eq. lra.
Qed.
Lemma cal_field i nm : 0 <= i < 12 -> In nm ["Cal_Slope"; "Cal_Offset"] ->
  exists b, field vs (cal_path i nm) = Ok b /\ List.length b = 8%nat /\ be_val b = in_prologue p (calibration i nm).
Proof.
  intros Hi Hn. change (cal_path i nm) with (rev (calibration i nm)). unfold vs.
  assert (P : exists o, lookup prologue_fmt (calibration i nm) = Some (o, 8) /\ 0 <= o /\ o + 8 <= 425450 /\ in_range prologue_fmt (calibration i nm) /\ moved (rev (calibration i nm)) = 0).
  { destruct Hn as [<- | [<- | []]]; unfold calibration.
    - exists (387065 + 16 * i). split; [lk|]. split; [lia|]. split; [lia|]. split; [lkr|reflexivity].
    - exists (387065 + 16 * i + 8). split; [lk|]. split; [lia|]. split; [lia|]. split; [lkr|reflexivity]. }
  destruct P as (o & P1 & P2 & P3 & P4 & P5).
  destruct (field_number prologue_fmt p (calibration i nm) o 8 425450) as (b & B1 & B2 & B3 & B4); auto; try lia.
  exists b. auto.
Qed.
Lemma cal_entry_ok i : 0 <= i < 12 -> cal_entry h vs i =
  Ok (finite (float_value 11 52 (in_prologue p (calibration i "Cal_Slope"))), finite (float_value 11 52 (in_prologue p (calibration i "Cal_Offset")))).
Proof.
  intros Hi. unfold cal_entry.
  destruct (cal_field i "Cal_Slope" Hi) as (b & B1 & B2 & B3); [now left|]. destruct (cal_field i "Cal_Offset" Hi) as (c & C1 & C2 & C3); [now right; left|].
  rewrite B1. cbn [bind]. unfold get_r8. rewrite (rd_ui_whole h b 8 B2). cbn [bind]. rewrite C1. cbn [bind]. rewrite (rd_ui_whole h c 8 C2). cbn [bind].
  now rewrite B3, C3.
Qed.
Lemma cal_entries_ok : forall n i, 0 <= i -> i + Z.of_nat n <= 12 -> exists cal, cal_entries h vs i n = Ok cal /\ List.length cal = n /\
  forall k, i <= k < i + Z.of_nat n -> nth (Z.to_nat (k - i)) cal (0%R, 0%R) =
    (finite (float_value 11 52 (in_prologue p (calibration k "Cal_Slope"))), finite (float_value 11 52 (in_prologue p (calibration k "Cal_Offset")))).
Proof.
  induction n as [|n IH]; intros i I1 I2.
  - exists []. split; [reflexivity|]. split; [reflexivity|]. intros k K. lia.
  - cbn [cal_entries]. rewrite cal_entry_ok by lia. cbn [bind]. destruct (IH (i + 1)) as (cal & E & L1 & F); [lia|lia|]. rewrite E. cbn [bind].
    eexists. split; [reflexivity|]. split; [cbn [List.length]; lia|]. intros k K. destruct (Z.eq_dec k i) as [-> | D].
    + rewrite Z.sub_diag. reflexivity.
    + replace (Z.to_nat (k - i)) with (S (Z.to_nat (k - (i + 1)))) by lia. cbn [nth]. apply F. lia.
Qed.
End Prologue.

Definition cov_names : list string :=
  ["LowerSouthLineActual"; "LowerNorthLineActual"; "LowerEastColumnActual"; "LowerWestColumnActual";
   "UpperSouthLineActual"; "UpperNorthLineActual"; "UpperEastColumnActual"; "UpperWestColumnActual"].
(** The two windows of a HRV image that an epilogue has. *)
Definition windows_of (e : part) : windows :=
  let v nm := in_epilogue e (coverage nm) in
  mk_win (v "LowerEastColumnActual") (v "LowerSouthLineActual") (v "LowerWestColumnActual") (v "LowerNorthLineActual")
         (v "UpperEastColumnActual") (v "UpperSouthLineActual") (v "UpperWestColumnActual") (v "UpperNorthLineActual").
Lemma cov_number_ok h e nm : bytes_ok (p_body e) -> 380325 <= Z.of_nat (List.length (p_body e)) -> In nm cov_names ->
  in_epilogue e (coverage nm) < 2 ^ 31 ->
  cov_number h (decoded trailer_fmt (p_body e)) nm = Ok (in_epilogue e (coverage nm)).
Proof.
  intros B L Hn S0. unfold cov_number. change (cov nm) with (rev (coverage nm)).
  assert (P : exists o, lookup trailer_fmt (coverage nm) = Some (o, 4) /\ 0 <= o /\ o + 4 <= 380325 /\ in_range trailer_fmt (coverage nm) /\ moved (rev (coverage nm)) = 0).
  { repeat (destruct Hn as [<- | Hn]; [eexists; split; [unfold coverage; lks|]; cbv beta; split; [lia|]; split; [lia|]; split; [unfold coverage; lkr|reflexivity]|]).
    destruct Hn. }
  destruct P as (o & P1 & P2 & P3 & P4 & P5).
  destruct (field_number trailer_fmt e (coverage nm) o 4 380325) as (b & B1 & B2 & B3 & B4); auto; try lia.
  rewrite B1. cbn [bind]. rewrite (rd_i_whole h b 4 B2). cbn [bind]. rewrite B4. unfold to_signed.
  change (2 ^ (8 * Z.of_nat 4 - 1)) with (2 ^ 31). replace (_ <? 2 ^ 31) with true by lia. unfold wrap64. rewrite Z.mod_small; [reflexivity|].
  rewrite <- B4 in *. pose proof (be_val_range b B3). lia.
Qed.
Lemma read_windows_ok h e : bytes_ok (p_body e) -> 380325 <= Z.of_nat (List.length (p_body e)) ->
  Forall (fun nm => in_epilogue e (coverage nm) < 2 ^ 31) cov_names ->
  read_windows h (decoded trailer_fmt (p_body e)) = Ok (windows_of e).
Proof.
  intros B L F. rewrite Forall_forall in F.
  assert (C : forall nm, In nm cov_names -> cov_number h (decoded trailer_fmt (p_body e)) nm = Ok (in_epilogue e (coverage nm))).
  { intros nm H. apply cov_number_ok; auto. }
  unfold read_windows. rewrite !C by (cbn; tauto). reflexivity.
Qed.

(** * The header that the scan leaves *)
Lemma scan_last h : forall fs acc f names hd, Forall (fun g => wf_header None (sf_type g) (sf_dfl g) (sf_recs g) = true) (fs ++ [f]) ->
  sf_seg f <> None -> sf_image f <> None -> sf_navig f <> None ->
  scan_files h acc (map sf_bytes (fs ++ [f])) = Ok (names, hd) ->
  h_seg hd = sf_seg f /\ h_image hd = sf_image f /\ h_navig hd = sf_navig f.
Proof.
  induction fs as [|g fs IH]; intros [n0 hd0] f names hd W S1 S2 S3 E.
  - cbn [app map scan_files] in E. inversion W as [|? ? W1 _]; subst.
    unfold scan_file, sf_bytes in E. cbn [fst snd] in E. rewrite header_round_trip in E by (now apply wf_header_any). cbn [bind] in E.
    set (hd' := expected hd0 (sf_type f) (sf_dfl f) (sf_recs f)) in E.
    assert (A : h_seg hd' = sf_seg f /\ h_image hd' = sf_image f /\ h_navig hd' = sf_navig f).
    { unfold sf_seg, sf_image, sf_navig in *. repeat split.
      - destruct (last_of report_seg None (sf_recs f)) eqn:Q; [|contradiction]. apply last_of_some. exact Q.
      - destruct (last_of report_image None (sf_recs f)) eqn:Q; [|contradiction]. apply last_of_some. exact Q.
      - destruct (last_of report_navig None (sf_recs f)) eqn:Q; [|contradiction]. apply last_of_some. exact Q. }
    destruct (h_seg hd') as [sg|] eqn:HS; [|discriminate E]. destruct (si_format sg =? 0); [discriminate E|]. cbn zeta in E.
    destruct (si_seq sg - 1 <? 0); cbn [bind] in E; injection E as _ <-; rewrite HS; exact A.
  - cbn [app map scan_files] in E. inversion W as [|? ? _ W2]; subst.
    destruct (scan_file h (n0, hd0) (sf_bytes g)) as [acc'| | | |]; cbn [bind] in E; try discriminate. eapply IH; eauto.
Qed.

(** * C155 *)
Definition side (ch : Z) : Z := if ch =? 12 then 11136 else 3712.
(** All segment files are of one satellite, channel, depth and longitude. *)
Definition same_image (fs : list seg_file) (sat ch bpp : Z) (lon : option (list Z)) : Prop :=
  Forall (fun f => exists sg im nv, sf_seg f = Some sg /\ sf_image f = Some im /\ sf_navig f = Some nv /\
    si_spacecraft sg = sat /\ si_channel sg = ch /\ is_bpp im = bpp /\ nv_lon nv = lon) fs.
(** Channels whose values are kept as counts. *)
Definition counts (ch : Z) : Prop := In ch [1; 2; 3; 12].

Lemma open_ok h dec co pro epi fs sat ch bpp lon sl ofs px py :
  good_part 128 425450 pro -> good_part 129 380325 epi -> consistent fs -> fs <> [] -> same_image fs sat ch bpp lon ->
  1 <= ch <= 12 -> 0 <= bpp < 31 ->
  double (in_prologue pro (calibration (ch - 1) "Cal_Slope")) sl -> double (in_prologue pro (calibration (ch - 1) "Cal_Offset")) ofs ->
  single (in_prologue pro (grid_step (ch =? 12) "ColumnDirGridStep")) px -> single (in_prologue pro (grid_step (ch =? 12) "LineDirGridStep")) py ->
  (ch = 12 -> Forall (fun nm => in_epilogue epi (coverage nm) < 2 ^ 31) cov_names) ->
  exists names last lines cols sx sy, names_of fs names /\
    Forall (fun f => sf_common f = Some (last, ch, lines, cols, sx, sy)) fs /\
    open_dataset h dec co (Some (part_bytes 128 pro)) (Some (part_bytes 129 epi)) (map sf_bytes fs) = Ok (mk_dataset (side ch) (side ch) (spacecraftIDFromHRIT sat) (codes (spacecraftName (spacecraftIDFromHRIT sat)))
          (time_text (86400 * (in_prologue pro start_day - 4383) + in_prologue pro start_msec / 1000)) lon
          (map Some [- IZR (side ch / 2) * (1000 * Rabs px); 1000 * Rabs px; 0; IZR (side ch / 2) * (1000 * Rabs py); 0; - (1000 * Rabs py)]%R)
          (side ch, 1) ch (codes (channelName (spacecraftIDFromHRIT sat) ch)) (codes (channelUnit (spacecraftIDFromHRIT sat) ch))
          (if CalibModel.is_cold ch then CalibModel.mk_band false 1 0 0 else CalibModel.mk_band true sl ofs 0)
          names (mk_geo lines cols (wrap64 (lines * last)) (wrap64 (cols * lines)) (ch =? 12) sx sy)
          (if ch =? 12 then windows_of epi else no_windows)).
Proof.
  intros GP GE C NE SI CH BP HS HO HX HY HC.
  destruct (read_prologue h dec co pro GP) as (mp & MP1 & MP2). destruct (read_epilogue h dec co epi GE) as (me & ME1 & ME2).
  destruct GP as (_ & BP1 & BP2 & _). destruct GE as (_ & BE1 & BE2 & _).
  destruct (scan_result h fs C NE) as (names & last & ch' & lines & cols & sx & sy & F & E & NM).
  unfold scan in E. destruct (scan_files h ([], empty_header) (map sf_bytes fs)) as [[names' hd]| | | |] eqn:SF; cbn [bind] in E; try discriminate.
  destruct names' as [|n0 names']; [discriminate|]. destruct (scan_segment hd) as [g| | | |] eqn:SG; cbn [bind] in E; try discriminate. injection E as <- ->.
  (* the header is that of the last file *)
  destruct (exists_last NE) as (fs0 & f & ->).
  assert (Hf : exists sg im nv, sf_seg f = Some sg /\ sf_image f = Some im /\ sf_navig f = Some nv /\ si_spacecraft sg = sat /\ si_channel sg = ch /\ is_bpp im = bpp /\ nv_lon nv = lon).
  { unfold same_image in SI. rewrite Forall_forall in SI. apply SI. apply in_or_app. right. now left. }
  destruct Hf as (sg & im & nv & F1 & F2 & F3 & F4 & F5 & F6 & F7).
  assert (HD : h_seg hd = Some sg /\ h_image hd = Some im /\ h_navig hd = Some nv).
  { rewrite <- F1, <- F2, <- F3. eapply (scan_last h fs0 ([], empty_header) f); [|congruence|congruence|congruence|exact SF].
    destruct C as (_ & C & _). eapply Forall_impl; [|exact C]. cbn. tauto. }
  destruct HD as (HD1 & HD2 & HD3).
  assert (CC : ch' = ch).
  { rewrite Forall_forall in F. assert (Q := F f). specialize (Q ltac:(apply in_or_app; right; now left)). unfold sf_common in Q. rewrite F1, F2, F3 in Q.
    destruct (si_format sg =? 0); [discriminate|]. congruence. }
  subst ch'.
  unfold open_dataset, scan_product. rewrite MP1. cbn [bind]. rewrite ME1. cbn [bind]. rewrite SF. cbn [bind]. rewrite SG. cbn [bind g_hrv].
  assert (WN : (if ch =? 12 then let! vs := deref (m_epilogue me) in read_windows h vs else Ok no_windows) = Ok (if ch =? 12 then windows_of epi else no_windows)).
  { destruct (Z.eqb_spec ch 12) as [E12 | _]; [|reflexivity]. rewrite ME2. cbn [deref bind]. apply read_windows_ok; auto. lia. }
  rewrite WN. cbn [bind sc_header sc_pro sc_geo sc_win sc_names g_hrv]. rewrite HD1, HD2, HD3, MP2. cbn [deref bind].
  destruct (start_time_ok h pro BP1 ltac:(lia)) as (ST & _). rewrite ST. cbn [bind].
  unfold transform. rewrite (step_ok h pro BP1 (Z.le_trans _ _ _ (proj1 BP2) (proj2 BP2)) (ch =? 12) "ColumnDirGridStep" px (or_introl eq_refl) HX). cbn [bind].
  rewrite (step_ok h pro BP1 (Z.le_trans _ _ _ (proj1 BP2) (proj2 BP2)) (ch =? 12) "LineDirGridStep" py (or_intror (or_introl eq_refl)) HY). cbn [bind].
  destruct (cal_entries_ok h pro BP1 ltac:(clear - BP2; lia) 12 0) as (cal & CE & CL & CN); [clear; lia|clear; lia|]. rewrite CE. cbn [bind]. rewrite F5, F6, F7, F4.
  assert (CB : CalibModel.xrit_band cal ch bpp = Ok (if CalibModel.is_cold ch then CalibModel.mk_band false 1 0 0 else CalibModel.mk_band true sl ofs 0)).
  { unfold CalibModel.xrit_band, CalibModel.slope_offset. rewrite CalibProps.cal_at by assumption. destruct (CalibModel.is_cold ch); cbn [bind].
    - rewrite CalibProps.ncal_ok by assumption. reflexivity.
    - specialize (CN (ch - 1) ltac:(clear - CH; lia)). rewrite Z.sub_0_r in CN. rewrite CN. cbn [fst snd].
      rewrite (float_value_ieee 11 52 _ sl), (float_value_ieee 11 52 _ ofs) by (reflexivity || assumption). reflexivity. }
  rewrite CB. cbn [bind].
  exists (n0 :: names'), last, lines, cols, sx, sy. split; [exact NM|]. split; [exact F|].
  unfold side. destruct (ch =? 12); reflexivity.
Qed.

Lemma time_text_ok k n y m d ms : date k = (1958, 1, 1) -> date (k + n) = (y, m, d) -> Z.of_nat n < 65536 -> 0 <= ms < 86400000 ->
  time_text (86400 * (Z.of_nat n - 4383) + ms / 1000) = iso_text y m d (ms / 3600000) (ms / 60000 mod 60) 0.
Proof.
  intros K D LN MS. apply date_1958 in K. unfold time_text.
  replace ((86400 * (Z.of_nat n - 4383) + ms / 1000) / 86400) with (Z.of_nat (k + n) - 719162) by lia. rewrite civil_date by lia. rewrite Nat2Z.id, D.
  replace ((86400 * (Z.of_nat n - 4383) + ms / 1000) mod 86400) with (ms / 1000) by lia. destruct (date_two _ _ _ _ D) as (Y1 & M1 & D1). pose proof (year_range _ _ _ _ D ltac:(lia)) as Y2.
  rewrite date_text_iso by (unfold two; lia). replace (ms / 1000 / 3600) with (ms / 3600000) by lia. replace (ms / 1000 / 60) with (ms / 60000) by lia. reflexivity.
Qed.

(** A product whose files are all there and well formed opens, and the dataset tells
    what they say: satellite and channel by their names in the tables of WMO and of
    the mission, the start of the repeat cycle to the minute, the longitude, the size
    of a pixel in metres, and the calibration of the channel. *)
Theorem C155_opened_partial : forall h dec co pro epi fs sat ch bpp lon sl ofs px py sname wmo cname wl,
  good_part 128 425450 pro -> good_part 129 380325 epi -> consistent fs -> fs <> [] -> same_image fs sat ch bpp lon ->
  In (sname, sat, wmo) satellites -> msg_satellite wmo -> In (ch, cname, wl) channels -> 0 <= bpp < 31 ->
  double (in_prologue pro (calibration (ch - 1) "Cal_Slope")) sl -> double (in_prologue pro (calibration (ch - 1) "Cal_Offset")) ofs ->
  single (in_prologue pro (grid_step (ch =? 12) "ColumnDirGridStep")) px -> single (in_prologue pro (grid_step (ch =? 12) "LineDirGridStep")) py ->
  (ch = 12 -> Forall (fun nm => in_epilogue epi (coverage nm) < 2 ^ 31) cov_names) ->
  exists d, open_dataset h dec co (Some (part_bytes 128 pro)) (Some (part_bytes 129 epi)) (map sf_bytes fs) = Ok d /\
    d_xsize d = side ch /\ d_ysize d = side ch /\ d_block d = (side ch, 1) /\
    d_spacecraft_id d = wmo /\ d_spacecraft d = codes sname /\ d_channel_id d = ch /\ d_channel d = codes cname /\ d_lon d = lon /\
    d_unit d = codes (if CalibModel.is_cold ch then "K" else "mW m^-2 sr^-1 (cm^-1)^-1") /\
    (forall k y m dd, date k = (1958, 1, 1) -> date (k + Z.to_nat (in_prologue pro start_day)) = (y, m, dd) -> in_prologue pro start_msec < 86400000 ->
     let ms := in_prologue pro start_msec in d_time d = iso_text y m dd (ms / 3600000) (ms / 60000 mod 60) 0) /\
    d_transform d = map Some [- IZR (side ch / 2) * (1000 * Rabs px); 1000 * Rabs px; 0; IZR (side ch / 2) * (1000 * Rabs py); 0; - (1000 * Rabs py)]%R /\
    (counts ch -> d_band d = CalibModel.mk_band true sl ofs 0) /\ (~ counts ch -> d_band d = CalibModel.mk_band false 1 0 0) /\
    (ch = 12 -> d_win d = windows_of epi).
Proof.
  intros h dec co pro epi fs sat ch bpp lon sl ofs px py sname wmo cname wl GP GE C NE SI SA MS CHN BP HS HO HX HY HC.
  assert (CH : 1 <= ch <= 12). { unfold channels in CHN. repeat (destruct CHN as [E | CHN]; [injection E as <- _ _; lia|]). destruct CHN. }
  destruct (open_ok h dec co pro epi fs sat ch bpp lon sl ofs px py) as (names & last & lines & cols & sx & sy & NM & F & E); auto.
  destruct (hrit_round_trip _ _ _ SA) as (I1 & _).
  assert (I2 : spacecraftName wmo = sname). { apply names_round_trip. unfold named. apply in_or_app. left. apply in_map_iff. exists (sname, sat, wmo). auto. }
  rewrite I1 in *. eexists. split; [exact E|]. cbn [d_xsize d_ysize d_block d_spacecraft_id d_spacecraft d_channel_id d_channel d_lon d_unit d_time d_transform d_band d_win].
  do 4 (split; [reflexivity|]). split; [now rewrite I2|]. split; [reflexivity|].
  assert (SV : seviri wmo = true) by (now apply seviri_spec).
  split. { unfold channelName. rewrite SV. cbn [negb]. unfold channels in CHN. repeat (destruct CHN as [Q | CHN]; [injection Q as <- <- _; reflexivity|]). destruct CHN. }
  split; [reflexivity|].
  split. { unfold channelUnit. rewrite SV. cbn [negb]. unfold channels in CHN. repeat (destruct CHN as [Q | CHN]; [injection Q as <- _ _; reflexivity|]). destruct CHN. }
  split.
  { intros k y m dd K D M. cbv zeta. destruct GP as (_ & B1 & B2 & _). destruct (start_time_ok h pro B1 ltac:(lia)) as (_ & R1 & R2).
    pose proof (time_text_ok k (Z.to_nat (in_prologue pro start_day)) y m dd (in_prologue pro start_msec) K D ltac:(lia) ltac:(lia)) as T.
    rewrite Z2Nat.id in T by lia. exact T. }
  split; [reflexivity|].
  assert (CO : counts ch <-> CalibModel.is_cold ch = false).
  { unfold counts, CalibModel.is_cold. cbn [In]. split; [intros [<- | [<- | [<- | [<- | []]]]]; reflexivity|]. intros Q. lia. }
  split; [|split]; intros Q.
  - apply CO in Q. now rewrite Q.
  - destruct (CalibModel.is_cold ch); [reflexivity|]. exfalso. apply Q, CO. reflexivity.
  - now rewrite Q.
Qed.
Print Assumptions C155_opened_partial.

(** A file that is missing is an error. *)
Theorem C155_missing_files : forall h dec co pro epi fs,
  open_dataset h dec co None epi fs = Throw /\
  (good_part 128 425450 pro -> open_dataset h dec co (Some (part_bytes 128 pro)) None fs = Throw) /\
  (forall e, good_part 128 425450 pro -> good_part 129 380325 e -> open_dataset h dec co (Some (part_bytes 128 pro)) (Some (part_bytes 129 e)) [] = Throw).
Proof.
  intros h dec co pro epi fs. split; [reflexivity|]. split.
  - intros G. destruct (read_prologue h dec co pro G) as (m & E & _). unfold open_dataset, scan_product. rewrite E. reflexivity.
  - intros e G G'. destruct (read_prologue h dec co pro G) as (m & E & _). destruct (read_epilogue h dec co e G') as (m' & E' & _).
    unfold open_dataset, scan_product. rewrite E. cbn [bind]. rewrite E'. reflexivity.
Qed.
Print Assumptions C155_missing_files.
(** A file of another kind in the place of the prologue is not: it is read, and what a
    prologue would have is then looked for behind a null pointer. *)
Theorem C155_refuted_wrong_prologue : forall h dec co pro epi fs sat ch bpp lon,
  good_part 129 380325 pro -> good_part 129 380325 epi -> consistent fs -> fs <> [] -> same_image fs sat ch bpp lon -> ch <> 12 ->
  open_dataset h dec co (Some (part_bytes 129 pro)) (Some (part_bytes 129 epi)) (map sf_bytes fs) = UB.
Proof.
  intros h dec co pro epi fs sat ch bpp lon GP GE C NE SI CH.
  assert (MP : exists m, read_file h dec co (Some (part_bytes 129 pro)) = Ok m /\ m_prologue m = None).
  { destruct GP as (W & B & L & (a & A & u & v & E) & F). rewrite read_file_part by assumption.
    unfold read_from. change (h_typecode (expected empty_header 129 (p_dfl pro) (p_recs pro))) with 129.
    cbn [Z.eqb Pos.eqb]. unfold data_field. change (h_dfl (expected empty_header 129 (p_dfl pro) (p_recs pro))) with (p_dfl pro).
    replace (Z.of_nat (List.length (p_body pro)) <? p_dfl pro / 8) with false by lia. cbn [bind].
    rewrite expected_annot. change (h_annot empty_header) with (@None annot). rewrite A. cbn [deref bind]. rewrite E, find_in.
    rewrite epilogue_ok. cbn [fst]. rewrite fetch_decoded; [|lia|eapply between_weaken; [apply (trailer_between [] 0) | lia | lia]].
    cbn [bind]. eexists. split; [reflexivity|]. reflexivity. }
  destruct MP as (mp & MP1 & MP2). destruct (read_epilogue h dec co epi GE) as (me & ME1 & ME2).
  destruct (scan_result h fs C NE) as (names & last & ch' & lines & cols & sx & sy & F & E & NM).
  unfold scan in E. destruct (scan_files h ([], empty_header) (map sf_bytes fs)) as [[names' hd]| | | |] eqn:SF; cbn [bind] in E; try discriminate.
  destruct names' as [|n0 names']; [discriminate|]. destruct (scan_segment hd) as [g| | | |] eqn:SG; cbn [bind] in E; try discriminate. injection E as <- ->.
  assert (CC : ch' = ch).
  { destruct fs as [|f fs]; [contradiction|]. inversion SI as [|? ? (sg & im & nv & F1 & F2 & F3 & _ & F5 & _) _]; subst. inversion F as [|? ? Q _]; subst.
    unfold sf_common in Q. rewrite F1, F2, F3 in Q. destruct (si_format sg =? 0); [discriminate|]. congruence. }
  subst ch'. unfold open_dataset, scan_product. rewrite MP1. cbn [bind]. rewrite ME1. cbn [bind]. rewrite SF. cbn [bind]. rewrite SG. cbn [bind g_hrv].
  replace (ch =? 12) with false by lia. cbn [bind sc_header sc_pro]. rewrite MP2. destruct (h_seg hd); reflexivity.
Qed.
Print Assumptions C155_refuted_wrong_prologue.

(** * C156: the pixels of an opened product *)
(** The rows of samples of a segment file, south to north. *)
Definition has_rows (dec : decoding) (f : seg_file) (rows : list row) : Prop :=
  exists sg im px, sf_seg f = Some sg /\ sf_image f = Some im /\ sf_type f = 0 /\ is_comp im <> 0 /\ 1 <= si_format sg <= 3 /\
    sf_dfl f / 8 <= Z.of_nat (List.length (sf_payload f)) /\ is_cols im * is_lines im < 2 ^ 31 /\
    dec (si_format sg) (firstn (Z.to_nat (sf_dfl f / 8)) (sf_payload f)) (is_bpp im) (is_cols im) (is_lines im) = Ok px /\
    px = List.concat rows /\ Z.of_nat (List.length rows) = is_lines im /\ Forall (fun r => Z.of_nat (List.length r) = is_cols im) rows.
(** The segments of a product: number k has the rows of the file with that number, or
    there is no such file. *)
Definition has_segments (dec : decoding) (fs : list seg_file) (segs : segments) : Prop :=
  forall k, 0 <= k ->
  match nth (Z.to_nat k) segs None with
  | Some rows => exists f, In f fs /\ sf_seq f = k + 1 /\ has_rows dec f rows
  | None => forall f, In f fs -> sf_seq f <> k + 1
  end.
(** The files are still where they were. *)
Definition on_disk (fsys : fname -> option (list Z)) (fs : list seg_file) : Prop :=
  Forall (fun f => fsys (sf_name f) = Some (snd (sf_bytes f))) fs.

Lemma loader_rows h dec co fsys f rows : wf_header None (sf_type f) (sf_dfl f) (sf_recs f) = true -> has_rows dec f rows ->
  fsys (sf_name f) = Some (snd (sf_bytes f)) -> file_loader h dec co fsys (sf_name f) = Ok (List.concat rows).
Proof.
  intros W (sg & im & px & F1 & F2 & T & C & FM & L & B & D & -> & R1 & R2) E. unfold file_loader. rewrite E.
  unfold read_file, sf_bytes. cbn [snd]. rewrite header_round_trip by (now apply wf_header_any). cbn [bind].
  set (hd := expected empty_header (sf_type f) (sf_dfl f) (sf_recs f)).
  assert (H1 : h_seg hd = Some sg) by exact F1. assert (H2 : h_image hd = Some im) by exact F2.
  rewrite H1. replace (si_format sg =? 0) with false by lia. unfold read_from. change (h_typecode hd) with (sf_type f). rewrite T. cbn [Z.eqb].
  unfold data_field. change (h_dfl hd) with (sf_dfl f). replace (_ <? _) with false by lia. cbn [bind]. rewrite H2, H1. cbn [deref bind].
  replace (is_comp im =? 0) with false by lia. unfold decode. replace ((si_format sg =? 1) || (si_format sg =? 3) || (si_format sg =? 2)) with true by lia.
  rewrite D. cbn [bind].
  assert (LN : Z.of_nat (List.length (List.concat rows)) = is_lines im * is_cols im) by (rewrite (flat_length (is_cols im)) by exact R2; now rewrite R1).
  replace (2 ^ 31 <=? is_cols im * is_lines im) with false by lia. replace (_ <? is_cols im * is_lines im) with false by lia.
  cbn [bind fst m_image set_image deref im_data samples_of]. rewrite firstn_all2 by lia. reflexivity.
Qed.
Lemma loader_holds h dec co fsys fs names segs last ch lines cols sx sy : consistent fs -> names_of fs names ->
  Forall (fun f => sf_common f = Some (last, ch, lines, cols, sx, sy)) fs -> on_disk fsys fs -> has_segments dec fs segs ->
  DataAccessSpec.holds names (file_loader h dec co fsys) lines cols segs.
Proof.
  intros C (N1 & N2 & N3) F D S0 k K. specialize (S0 k K). rewrite Forall_forall in F. unfold on_disk in D. rewrite Forall_forall in D.
  destruct C as (_ & C & _). rewrite Forall_forall in C.
  destruct (nth (Z.to_nat k) segs None) as [rows|].
  - destruct S0 as (f & Hf & Hk & R). exists (sf_name f). split; [apply N3; eauto|]. specialize (C f Hf).
    split; [apply loader_rows; [tauto|exact R|now apply D]|].
    destruct R as (sg & im & px & F1 & F2 & _ & _ & _ & _ & _ & _ & _ & R1 & R2). specialize (F f Hf). unfold sf_common in F. rewrite F1, F2 in F.
    destruct (sf_navig f); [|discriminate]. destruct (si_format sg =? 0); [discriminate|]. injection F as _ _ <- <- _ _. auto.
  - destruct (recorded names k) as [n|] eqn:E; [|reflexivity]. apply N3 in E as (f & Hf & Hk & _). exfalso. now apply (S0 f Hf).
Qed.

(** A product opened as above whose channel is not HRV and is kept as counts. *)
Section Rows.
Variables (h : host) (dec : decoding) (co : str -> bool) (fsys : fname -> option (list Z)).

(** [opens pro epi fs d lines cols sx]: the dataset [d] was made of these files, of
    [lines] lines of [cols] samples each. *)
Definition opens (pro epi : part) (fs : list seg_file) (d : dataset) (lines cols : Z) (sx : bool) : Prop :=
  consistent fs /\ fs <> [] /\ (exists last ch sy, Forall (fun f => sf_common f = Some (last, ch, lines, cols, sx, sy)) fs) /\
  open_dataset h dec co (Some (part_bytes 128 pro)) (Some (part_bytes 129 epi)) (map sf_bytes fs) = Ok d.

Lemma opens_inv pro epi fs d lines cols sx : opens pro epi fs d lines cols sx ->
  exists last ch sy, names_of fs (d_names d) /\ Forall (fun f => sf_common f = Some (last, ch, lines, cols, sx, sy)) fs /\
    d_geo d = mk_geo lines cols (wrap64 (lines * last)) (wrap64 (cols * lines)) (ch =? 12) sx sy /\ d_channel_id d = ch /\ d_xsize d = side ch.
Proof.
  intros (C & NE & (last & ch & sy & F) & E).
  destruct (scan_result h fs C NE) as (names & last' & ch' & lines' & cols' & sx' & sy' & F' & E' & NM).
  assert (Q : (last', ch', lines', cols', sx', sy') = (last, ch, lines, cols, sx, sy)).
  { destruct fs as [|f fs]; [contradiction|]. inversion F; subst. inversion F'; subst. congruence. }
  injection Q as -> -> -> -> -> ->. exists last, ch, sy.
  unfold open_dataset, scan_product in E.
  destruct (read_file h dec co (Some (part_bytes 128 pro))) as [mp| | | |]; cbn [bind] in E; try discriminate.
  destruct (read_file h dec co (Some (part_bytes 129 epi))) as [me| | | |]; cbn [bind] in E; try discriminate.
  unfold scan in E'. destruct (scan_files h ([], empty_header) (map sf_bytes fs)) as [[names' hd]| | | |] eqn:SF; cbn [bind] in E, E'; try discriminate.
  destruct names' as [|n0 names']; [discriminate|]. destruct (scan_segment hd) as [g| | | |] eqn:SG; cbn [bind] in E, E'; try discriminate. injection E' as <- ->.
  cbn [g_hrv] in E.
  destruct (if ch =? 12 then _ else _) as [w| | | |]; cbn [bind] in E; try discriminate. cbn [sc_header sc_pro sc_geo sc_win sc_names g_hrv] in E.
  assert (HS : exists sg, h_seg hd = Some sg /\ si_channel sg = ch).
  { destruct (exists_last NE) as (fs0 & f & ->). assert (Ff := F). rewrite Forall_forall in Ff. specialize (Ff f ltac:(apply in_or_app; right; now left)).
    unfold sf_common in Ff. destruct (sf_seg f) as [sg|] eqn:F1; [|discriminate]. destruct (sf_image f) as [im|] eqn:F2; [|discriminate].
    destruct (sf_navig f) as [nv|] eqn:F3; [|discriminate]. exists sg. destruct (si_format sg =? 0); [discriminate|]. split; [|congruence].
    rewrite <- F1. eapply (scan_last h fs0 ([], empty_header) f); [|congruence|congruence|congruence|exact SF].
    destruct C as (_ & C & _). eapply Forall_impl; [|exact C]. cbn. tauto. }
  destruct HS as (sg & HS1 & HS2). rewrite HS1 in E. cbn [deref bind] in E.
  destruct (deref (m_prologue mp)) as [vs| | | |]; cbn [bind] in E; try discriminate.
  destruct (start_time h vs) as [t| | | |]; cbn [bind] in E; try discriminate.
  destruct (deref (h_navig hd)) as [nv| | | |]; cbn [bind] in E; try discriminate.
  destruct (transform h (ch =? 12) vs) as [tr| | | |]; cbn [bind] in E; try discriminate.
  destruct (cal_entries h vs 0 12) as [cal| | | |]; cbn [bind] in E; try discriminate.
  destruct (deref (h_image hd)) as [im| | | |]; cbn [bind] in E; try discriminate.
  destruct (CalibModel.xrit_band cal (si_channel sg) (is_bpp im)) as [b| | | |]; cbn [bind] in E; try discriminate.
  apply Ok_inj in E. subst d. cbn [d_names d_geo d_channel_id d_xsize]. unfold side. auto.
Qed.

Lemma served_row names g w ld xsize st y buf : served names ld st -> 0 < g_seglines g -> served names ld (fst (iread_block_linear names g w ld xsize st 0 y buf)).
Proof.
  intros SV LN. unfold iread_block_linear, line_read. cbn [Z.eqb negb]. replace (g_seglines g =? 0) with false by lia. cbv zeta.
  set (k := phys_line g w y / g_seglines g). assert (K : 0 <= k).
  { apply Z.div_pos; [|lia]. unfold phys_line, wrap64. destruct (g_hrv g); apply Z.mod_pos_bound; lia. }
  pose proof (served_step names ld st k SV K) as P. destruct (segment names ld st k) as [st' o]. exact P.
Qed.
Lemma row_placed names g w ld xsize st y buf r : snd (line_read names g w ld st y) = Ok r -> List.length buf = xsize ->
  0 <= line_start (g_hrv g) w y -> line_start (g_hrv g) w y + Z.of_nat (List.length r) <= Z.of_nat xsize ->
  snd (iread_block_linear names g w ld xsize st 0 y buf) = Ok (Some (placed 0 xsize (Z.to_nat (line_start (g_hrv g) w y)) r)).
Proof.
  intros E L S0 S1. unfold iread_block_linear. cbn [Z.eqb negb]. destruct (line_read names g w ld st y) as [st' o]. cbn [snd] in *. subst o. cbn [bind].
  rewrite linear_block by assumption. replace (_ <=? xsize)%nat with true by lia. reflexivity.
Qed.
Lemma orient_length sx (r : row) : List.length (orient sx r) = List.length r.
Proof. destruct sx; [apply rev_length|reflexivity]. Qed.
Lemma phys_row_length names ld lines cols segs r : DataAccessSpec.holds names ld lines cols segs -> 0 < lines -> 0 <= cols -> 0 <= r ->
  Z.of_nat (List.length (phys_row lines cols segs r)) = cols.
Proof.
  intros H LN CL R. unfold phys_row. assert (K : 0 <= r / lines) by (apply Z.div_pos; lia). specialize (H _ K).
  destruct (nth (Z.to_nat (r / lines)) segs None) as [rows|].
  - destruct H as (f & _ & _ & L & F). assert (B : 0 <= r mod lines < lines) by (apply Z.mod_pos_bound; lia).
    rewrite Forall_forall in F. apply F. apply nth_In. lia.
  - unfold zero_row. rewrite repeat_length. lia.
Qed.

(** Rows of the raster, whatever was read before: row y of an image that is not HRV is
    the line counted 3711-y from the south, turned around when columns are counted
    from the east, and zeros where there is no segment or no column. *)
Theorem C156_rows : forall pro epi fs d lines cols sx segs st buf y,
  opens pro epi fs d lines cols sx -> on_disk fsys fs -> has_segments dec fs segs -> d_channel_id d <> 12 ->
  0 < lines -> 0 <= cols <= 3712 -> served (d_names d) (file_loader h dec co fsys) st -> List.length buf = Z.to_nat (d_xsize d) -> 0 <= y < 3712 ->
  snd (read_row h dec co fsys d st y buf) = Ok (Some (placed 0 (Z.to_nat 3712) 0 (orient sx (phys_row lines cols segs (3711 - y))))) /\
  served (d_names d) (file_loader h dec co fsys) (fst (read_row h dec co fsys d st y buf)).
Proof.
  intros pro epi fs d lines cols sx segs st buf y O D S0 NH LN CL SV BL Y.
  assert (C : consistent fs) by apply O. destruct (opens_inv _ _ _ _ _ _ _ O) as (last & ch & sy & NM & F & G & CH & XS).
  assert (HH := loader_holds h dec co fsys fs (d_names d) segs last ch lines cols sx sy C NM F D S0).
  assert (HV : g_hrv (d_geo d) = false) by (rewrite G; cbn [g_hrv]; lia).
  assert (XS' : d_xsize d = 3712) by (rewrite XS; unfold side; replace (ch =? 12) with false by lia; reflexivity).
  split; [|unfold read_row; apply served_row; [exact SV|rewrite G; exact LN]].
  destruct (served_history _ _ _ SV) as (hist & -> & RQ & LD).
  pose proof (placement_nonhrv (d_names d) (d_geo d) (d_win d) (file_loader h dec co fsys) segs hist y RQ LD) as P.
  rewrite G in P at 1 2 3 4 5 7 8 9. cbn [g_seglines g_columns g_hrv g_swapX] in P. specialize (P LN ltac:(lia) ltac:(lia) Y HH).
  unfold read_row. rewrite (row_placed _ _ _ _ _ _ _ _ _ P).
  - rewrite HV, XS'. unfold line_start. cbn [negb]. reflexivity.
  - now rewrite BL.
  - rewrite HV. unfold line_start, WestColumnActual. cbn [negb]. reflexivity.
  - rewrite HV. unfold line_start, WestColumnActual. cbn [negb]. rewrite orient_length, (phys_row_length _ _ _ _ _ _ HH) by lia. rewrite XS'. change (wrap64 (1 - 1)) with 0. lia.
Qed.

(** First column of line [l] of a HRV image, counted from 1 in the south: that of the
    window the line is in. *)
Definition window_start (w : windows) (l : Z) : Z :=
  if in_window (LowerSouth w) (LowerNorth w) l then 11136 - LowerWest w
  else if in_window (UpperSouth w) (UpperNorth w) l then 11136 - UpperWest w else 0.
(** The HRV image is in the upper rows of the raster, and the others are empty. *)
Theorem C156_hrv_rows : forall pro epi fs d lines cols sx segs st buf y,
  opens pro epi fs d lines cols sx -> on_disk fsys fs -> has_segments dec fs segs -> d_channel_id d = 12 ->
  0 < lines -> windows_ok (d_win d) cols -> lines * Z.of_nat (List.length (d_names d)) <= 2 ^ 62 ->
  served (d_names d) (file_loader h dec co fsys) st -> List.length buf = Z.to_nat (d_xsize d) -> 0 <= y < 11136 ->
  let top := MaxLine (d_win d) in
  snd (read_row h dec co fsys d st y buf) =
    Ok (Some (if y <? top then placed 0 (Z.to_nat 11136) (Z.to_nat (window_start (d_win d) (top - y))) (orient sx (phys_row lines cols segs (top - 1 - y)))
              else repeat 0 (Z.to_nat 11136))) /\
  served (d_names d) (file_loader h dec co fsys) (fst (read_row h dec co fsys d st y buf)).
Proof.
  intros pro epi fs d lines cols sx segs st buf y O D S0 NH LN W62 LM SV BL Y top.
  assert (C : consistent fs) by apply O. destruct (opens_inv _ _ _ _ _ _ _ O) as (last & ch & sy & NM & F & G & CH & XS).
  assert (HH := loader_holds h dec co fsys fs (d_names d) segs last ch lines cols sx sy C NM F D S0).
  assert (HV : g_hrv (d_geo d) = true) by (rewrite G; cbn [g_hrv]; lia).
  assert (XS' : d_xsize d = 11136) by (rewrite XS; unfold side; replace (ch =? 12) with true by lia; reflexivity).
  split; [|unfold read_row; apply served_row; [exact SV|rewrite G; exact LN]].
  destruct (served_history _ _ _ SV) as (hist & -> & RQ & LD).
  assert (WO := W62). unfold windows_ok, window_ok in WO.
  assert (CL : 0 <= cols) by lia. assert (TB : 0 < top <= 11136) by (unfold top, MaxLine; lia).
  assert (WP := window_placement (d_win d) cols y W62 ltac:(lia)). cbv zeta in WP. fold top in WP. destruct WP as (W1 & W2 & W3 & W4 & W5).
  unfold read_row. destruct (Z.ltb_spec y top) as [YT | YT].
  - pose proof (placement_hrv (d_names d) (d_geo d) (d_win d) (file_loader h dec co fsys) segs hist y RQ LD) as P.
    assert (EQ : line_start true (d_win d) y = window_start (d_win d) (top - y)).
    { unfold window_start. destruct (in_window (LowerSouth (d_win d)) _ _) eqn:I1; [now apply W1|].
      destruct (in_window (UpperSouth (d_win d)) _ _) eqn:I2; [apply W2; [reflexivity|lia]|]. apply W3; auto. }
    assert (P' : snd (line_read (d_names d) (d_geo d) (d_win d) (file_loader h dec co fsys) (DataAccessSpec.run (d_names d) da_init hist) y) = Ok (orient sx (phys_row lines cols segs (top - 1 - y)))).
    { rewrite P; rewrite ?G; cbn [g_seglines g_columns g_hrv g_swapX]; try lia; try assumption. reflexivity. }
    rewrite (row_placed _ _ _ _ _ _ _ _ _ P').
    + rewrite HV, XS', EQ. reflexivity.
    + now rewrite BL.
    + now rewrite HV.
    + rewrite HV, orient_length, (phys_row_length _ _ _ _ _ _ HH) by lia. rewrite XS'. lia.
  - pose proof (past_end (d_names d) (d_geo d) (d_win d) (file_loader h dec co fsys) hist y RQ LD) as P.
    assert (P' : snd (line_read (d_names d) (d_geo d) (d_win d) (file_loader h dec co fsys) (DataAccessSpec.run (d_names d) da_init hist) y) = Ok (zero_row cols)).
    { rewrite P; unfold image_rows; rewrite ?G; cbn [g_seglines g_columns g_hrv g_swapX]; replace (ch =? 12) with true by lia; fold top; try lia. reflexivity. }
    assert (EQ : line_start true (d_win d) y = 0).
    { apply W3; [|right; lia]. unfold in_window. lia. }
    rewrite (row_placed _ _ _ _ _ _ _ _ _ P').
    + rewrite HV, XS', EQ. unfold placed, zero_row. cbn [Z.to_nat repeat app]. rewrite repeat_length, <- repeat_app. do 3 f_equal. lia.
    + now rewrite BL.
    + rewrite HV. lia.
    + rewrite HV, EQ. unfold zero_row. rewrite repeat_length, XS'. lia.
Qed.
End Rows.
Print Assumptions C156_rows.
(** What the driver makes of a segment that is not compressed: a sample for every two bytes,
    the first of them the low one. *)
Theorem C130_driver_partial : forall dec co fsys f bytes hd d rest is,
  fsys f = Some bytes -> read_header LE empty_header bytes = Ok (hd, d ++ rest) -> (forall s, h_seg hd = Some s -> si_format s <> 0) ->
  h_typecode hd = 0 -> h_image hd = Some is -> is_comp is = 0 -> h_dfl hd / 8 = Z.of_nat (List.length d) ->
  exists l, file_loader LE dec co fsys f = Ok l /\ List.length l = (List.length d / 2)%nat /\
    forall i, (2 * i + 1 < List.length d)%nat -> nth_error l i = Some (nth (2 * i) d 0 + 256 * nth (2 * i + 1) d 0).
Proof.
  intros dec co fsys f bytes hd d rest is F R S T I C A. exists (pairs LE d). split.
  - unfold file_loader, read_file. rewrite F, R. cbn [bind]. replace (match h_seg hd with Some s => si_format s =? 0 | None => false end) with false by (destruct (h_seg hd) as [s|]; [specialize (S s eq_refl); lia|reflexivity]).
    unfold read_from. rewrite T. cbn [Z.eqb]. unfold data_field. cbv zeta. rewrite A, app_length. replace (_ <? _) with false by lia. rewrite Nat2Z.id, firstn_app, firstn_all, Nat.sub_diag, firstn_O, app_nil_r. cbn [bind]. rewrite I. cbn [deref bind]. rewrite C. reflexivity.
  - assert (G : forall n (l : list Z), (List.length l <= n)%nat -> List.length (pairs LE l) = (List.length l / 2)%nat /\ forall i, (2 * i + 1 < List.length l)%nat -> nth_error (pairs LE l) i = Some (nth (2 * i) l 0 + 256 * nth (2 * i + 1) l 0)).
    { clear. induction n as [|n IH]; intros [|a [|b l]] L; cbn [List.length] in L; try lia; try (split; [reflexivity|cbn; intros i H; lia]).
      destruct (IH l ltac:(lia)) as [IL IN]. cbn [pairs List.length]. split.
      - rewrite IL. change (S (S (List.length l))) with (2 + List.length l)%nat. replace (2 + List.length l)%nat with (1 * 2 + List.length l)%nat by lia. rewrite Nat.div_add_l by lia. reflexivity.
      - intros [|i] H; cbn [nth_error]; [f_equal; unfold load_u, be_load; cbn [rev app fold_left Nat.mul Nat.add nth]; lia|]. rewrite IN by lia. replace (2 * S i)%nat with (S (S (2 * i))) by lia. reflexivity. }
    exact (G (List.length d) d (le_n _)).
Qed.
Print Assumptions C130_driver_partial.
Print Assumptions C156_hrv_rows.

(** * C157: where the pixels are *)
(** The place that a transform gives to a point of the raster, in columns and rows from
    its north-west corner: GDAL's convention, where pixel (j, i) is the square from
    (j, i) to (j+1, i+1). *)
Definition place (t : list (option R)) (j i : R) : option (R * R) :=
  match t with
  | [Some a; Some b; Some c; Some d; Some e; Some f] => Some (a + j * b + i * c, d + j * e + i * f)%R
  | _ => None
  end.
(** Where the navigation record puts the middle of a sample, in metres from the point
    below the satellite: column [c] counted from the east, line [l] from the south,
    both from 1; [coff] and [loff] are the column and line of that point. *)
Definition sample_place (coff loff c l : Z) (X Y : R) : R * R := (IZR (coff - c) * X, IZR (l - loff) * Y)%R.

Lemma open_transform h dec co pb eb segs d mp vs : open_dataset h dec co (Some pb) (Some eb) segs = Ok d ->
  read_file h dec co (Some pb) = Ok mp -> m_prologue mp = Some vs -> transform h (g_hrv (d_geo d)) vs = Ok (d_transform d).
Proof.
  intros E MP1 MP2. unfold open_dataset, scan_product in E. rewrite MP1 in E. cbn [bind] in E.
  destruct (read_file h dec co (Some eb)) as [me| | | |]; cbn [bind] in E; try discriminate.
  destruct (scan_files h ([], empty_header) segs) as [[names' hd]| | | |]; cbn [bind] in E; try discriminate.
  destruct names' as [|n0 names']; [discriminate|]. destruct (scan_segment hd) as [g| | | |]; cbn [bind] in E; try discriminate.
  destruct (if g_hrv g then _ else _) as [w| | | |]; cbn [bind] in E; try discriminate. cbn [sc_header sc_pro sc_geo sc_win sc_names] in E.
  destruct (deref (h_seg hd)) as [sg| | | |]; cbn [bind] in E; try discriminate. rewrite MP2 in E. cbn [deref bind] in E.
  destruct (start_time h vs) as [t| | | |]; cbn [bind] in E; try discriminate.
  destruct (deref (h_navig hd)) as [nv| | | |]; cbn [bind] in E; try discriminate.
  destruct (transform h (g_hrv g) vs) as [tr| | | |] eqn:TR; cbn [bind] in E; try discriminate.
  destruct (cal_entries h vs 0 12) as [cal| | | |]; cbn [bind] in E; try discriminate.
  destruct (deref (h_image hd)) as [im| | | |]; cbn [bind] in E; try discriminate.
  destruct (CalibModel.xrit_band cal (si_channel sg) (is_bpp im)) as [b| | | |]; cbn [bind] in E; try discriminate.
  apply Ok_inj in E. subst d. cbn [d_transform d_geo]. exact TR.
Qed.
Lemma transform_ok h p hrv px py : bytes_ok (p_body p) -> 425450 <= Z.of_nat (List.length (p_body p)) ->
  single (in_prologue p (grid_step hrv "ColumnDirGridStep")) px -> single (in_prologue p (grid_step hrv "LineDirGridStep")) py ->
  transform h hrv (decoded prologue_fmt (p_body p)) = Ok (map Some [- IZR (if hrv then 5568 else 1856) * (1000 * Rabs px); 1000 * Rabs px; 0; IZR (if hrv then 5568 else 1856) * (1000 * Rabs py); 0; - (1000 * Rabs py)]%R).
Proof.
  intros B L HX HY. assert (SX := step_ok h p B L hrv "ColumnDirGridStep" px (or_introl eq_refl) HX).
  assert (SY := step_ok h p B L hrv "LineDirGridStep" py (or_intror (or_introl eq_refl)) HY).
  unfold transform. rewrite SX. cbn [bind]. rewrite SY. reflexivity.
Qed.
Lemma opens_transform h dec co pro epi fs d lines cols sx px py : opens h dec co pro epi fs d lines cols sx -> good_part 128 425450 pro ->
  single (in_prologue pro (grid_step (d_channel_id d =? 12) "ColumnDirGridStep")) px ->
  single (in_prologue pro (grid_step (d_channel_id d =? 12) "LineDirGridStep")) py ->
  d_transform d = map Some [- IZR (side (d_channel_id d) / 2) * (1000 * Rabs px); 1000 * Rabs px; 0; IZR (side (d_channel_id d) / 2) * (1000 * Rabs py); 0; - (1000 * Rabs py)]%R.
Proof.
  intros O G HX HY. destruct (opens_inv _ _ _ (fun _ => None) _ _ _ _ _ _ _ O) as (last & ch & sy & _ & _ & GE & CH & _).
  destruct O as (_ & _ & _ & E). destruct (read_prologue h dec co pro G) as (mp & MP1 & MP2). destruct G as (_ & B1 & B2 & _).
  assert (TR := open_transform _ _ _ _ _ _ _ _ _ E MP1 MP2). rewrite GE in TR. cbn [g_hrv] in TR. rewrite <- CH in TR.
  rewrite (transform_ok h pro (d_channel_id d =? 12) px py B1 (Z.le_trans _ _ _ (proj1 B2) (proj2 B2)) HX HY) in TR.
  apply Ok_inj in TR. rewrite <- TR. unfold side. destruct (d_channel_id d =? 12); reflexivity.
Qed.
Lemma nth_placed_rev n off (r : row) j : (off <= j < off + List.length r)%nat -> nth j (placed 0 n off (rev r)) 0 = nth (off + List.length r - 1 - j) r 0.
Proof.
  intros J. unfold placed. rewrite app_nth2 by (rewrite repeat_length; lia). rewrite repeat_length, app_nth1 by (rewrite rev_length; lia).
  rewrite rev_nth by lia. f_equal. lia.
Qed.

(** A pixel of an image that is not HRV has the sample of the column and line counted
    from the other side, and that sample is at its north-west corner when the offsets
    are the nominal ones. *)
Theorem C157_corner_partial : forall h dec co fsys pro epi fs d lines segs st buf px py x y,
  opens h dec co pro epi fs d lines 3712 true -> on_disk fsys fs -> has_segments dec fs segs -> d_channel_id d <> 12 -> good_part 128 425450 pro ->
  0 < lines -> served (d_names d) (file_loader h dec co fsys) st -> List.length buf = Z.to_nat (d_xsize d) ->
  single (in_prologue pro (grid_step false "ColumnDirGridStep")) px -> single (in_prologue pro (grid_step false "LineDirGridStep")) py ->
  0 <= x < 3712 -> 0 <= y < 3712 ->
  let c := 3712 - x in let l := 3712 - y in
  (exists v, snd (read_row h dec co fsys d st y buf) = Ok (Some v) /\
     nth (Z.to_nat x) v 0 = nth (Z.to_nat (c - 1)) (phys_row lines 3712 segs (l - 1)) 0) /\
  place (d_transform d) (IZR x) (IZR y) = Some (sample_place 1856 1856 c l (1000 * Rabs px) (1000 * Rabs py)).
Proof.
  intros h dec co fsys pro epi fs d lines segs st buf px py x y O D S0 NH G LN SV BL HX HY X Y c l. split.
  - destruct (C156_rows h dec co fsys pro epi fs d lines 3712 true segs st buf y) as (E & _); auto; [lia|]. eexists. split; [exact E|]. cbn [orient].
    assert (C : consistent fs) by apply O. destruct (opens_inv _ _ _ (fun _ => None) _ _ _ _ _ _ _ O) as (last & ch & sy & NM & F & _).
    assert (HH := loader_holds h dec co fsys fs (d_names d) segs last ch lines 3712 true sy C NM F D S0).
    assert (PL := phys_row_length co fsys _ _ _ _ _ (3711 - y) HH LN ltac:(lia) ltac:(lia)).
    rewrite nth_placed_rev by lia. unfold c, l. replace (3712 - y - 1) with (3711 - y) by lia. f_equal. lia.
  - assert (F : (d_channel_id d =? 12) = false) by lia.
    rewrite (opens_transform h dec co pro epi fs d lines 3712 true px py O G) by (rewrite F; assumption).
    unfold side. rewrite F. cbn [map place]. unfold sample_place, c, l. do 2 f_equal; rewrite !minus_IZR; change (3712 / 2) with 1856; ring.
Qed.
Print Assumptions C157_corner_partial.

(** So the middle of a pixel is never where the navigation record puts its sample: for
    the nominal offsets it is half a pixel off to the east and to the south, and the
    offsets of the header are not looked at. *)
Theorem C157_refuted_centre : forall h dec co pro epi fs d lines sx px py x y coff loff,
  opens h dec co pro epi fs d lines 3712 sx -> d_channel_id d <> 12 -> good_part 128 425450 pro ->
  single (in_prologue pro (grid_step false "ColumnDirGridStep")) px -> single (in_prologue pro (grid_step false "LineDirGridStep")) py ->
  (px <> 0)%R -> (py <> 0)%R ->
  let c := 3712 - x in let l := 3712 - y in
  let X := (1000 * Rabs px)%R in let Y := (1000 * Rabs py)%R in
  exists e n, place (d_transform d) (IZR x + / 2) (IZR y + / 2) = Some (e, n) /\
    (e - fst (sample_place coff loff c l X Y) = (IZR (1856 - coff) + / 2) * X)%R /\
    (n - snd (sample_place coff loff c l X Y) = (IZR (loff - 1856) - / 2) * Y)%R /\
    e <> fst (sample_place coff loff c l X Y) /\ n <> snd (sample_place coff loff c l X Y).
Proof.
  intros h dec co pro epi fs d lines sx px py x y coff loff O NH G HX HY PX PY c l X Y.
  assert (F : (d_channel_id d =? 12) = false) by lia.
  rewrite (opens_transform h dec co pro epi fs d lines 3712 sx px py O G) by (rewrite F; assumption).
  unfold side. rewrite F. cbn [map place]. change (3712 / 2) with 1856. eexists. eexists. split; [reflexivity|].
  assert (HALF : forall k : Z, (IZR k + / 2 <> 0)%R).
  { intros k E. assert (Q : IZR (2 * k + 1) = 0%R) by (rewrite plus_IZR, mult_IZR; lra). apply eq_IZR in Q. lia. }
  assert (XP : (X <> 0)%R) by (unfold X; apply Rabs_no_R0 in PX; lra). assert (YP : (Y <> 0)%R) by (unfold Y; apply Rabs_no_R0 in PY; lra).
  cbn [sample_place fst snd].
  assert (E1 : (- IZR 1856 * X + (IZR x + / 2) * X + (IZR y + / 2) * 0 - IZR (coff - c) * X = (IZR (1856 - coff) + / 2) * X)%R).
  { unfold c. rewrite !minus_IZR. field. }
  assert (E2 : (IZR 1856 * Y + (IZR x + / 2) * 0 + (IZR y + / 2) * - Y - IZR (l - loff) * Y = (IZR (loff - 1856) - / 2) * Y)%R).
  { unfold l. rewrite !minus_IZR. field. }
  assert (APART : forall a b k z : R, (a - b = k * z -> k <> 0 -> z <> 0 -> a <> b)%R).
  { intros a b k z Q K Z0 E. subst b. rewrite Rminus_diag_eq in Q by reflexivity. symmetry in Q. apply Rmult_integral in Q. tauto. }
  split; [exact E1|]. split; [exact E2|]. split.
  - eapply APART; [exact E1|apply HALF|exact XP].
  - eapply APART; [exact E2| |exact YP]. intros Q. apply (HALF (loff - 1857)). replace (loff - 1857) with (loff - 1856 - 1) by lia. rewrite minus_IZR. lra.
Qed.
Print Assumptions C157_refuted_centre.

(** HRV: the window that line [l] is in, its first column from the east and its last. *)
Definition window_at (w : windows) (l : Z) : option (Z * Z) :=
  if in_window (LowerSouth w) (LowerNorth w) l then Some (LowerEast w, LowerWest w)
  else if in_window (UpperSouth w) (UpperNorth w) l then Some (UpperEast w, UpperWest w) else None.

Lemma hrv_place : forall h dec co fsys pro epi fs d lines cols segs st buf px py east west a y,
  opens h dec co pro epi fs d lines cols true -> on_disk fsys fs -> has_segments dec fs segs -> d_channel_id d = 12 -> good_part 128 425450 pro ->
  0 < lines -> windows_ok (d_win d) cols -> lines * Z.of_nat (List.length (d_names d)) <= 2 ^ 62 ->
  served (d_names d) (file_loader h dec co fsys) st -> List.length buf = Z.to_nat (d_xsize d) ->
  single (in_prologue pro (grid_step true "ColumnDirGridStep")) px -> single (in_prologue pro (grid_step true "LineDirGridStep")) py ->
  let top := MaxLine (d_win d) in let l := top - y in
  window_at (d_win d) l = Some (east, west) -> east <= a <= west -> 0 <= y < top ->
  let X := (1000 * Rabs px)%R in let Y := (1000 * Rabs py)%R in
  (exists v, snd (read_row h dec co fsys d st y buf) = Ok (Some v) /\
     nth (Z.to_nat (11136 - a)) v 0 = nth (Z.to_nat (a - east)) (phys_row lines cols segs (l - 1)) 0) /\
  place (d_transform d) (IZR (11136 - a)) (IZR y) =
    Some (fst (sample_place 5568 5568 a l X Y), (snd (sample_place 5568 5568 a l X Y) + IZR (11136 - top) * Y)%R).
Proof.
  intros h dec co fsys pro epi fs d lines cols segs st buf px py east west a y O D S0 HV G LN W LM SV BL HX HY top l WA A YT X Y.
  assert (WO := W). unfold windows_ok, window_ok in WO. assert (TB : 0 < top <= 11136) by (unfold top, MaxLine; lia).
  split.
  - destruct (C156_hrv_rows h dec co fsys pro epi fs d lines cols true segs st buf y) as (E & _); auto; [lia|]. fold top in E.
    replace (y <? top) with true in E by lia. eexists. split; [exact E|]. cbn [orient].
    assert (C : consistent fs) by apply O. destruct (opens_inv _ _ _ (fun _ => None) _ _ _ _ _ _ _ O) as (last & ch & sy & NM & F & _).
    assert (HH := loader_holds h dec co fsys fs (d_names d) segs last ch lines cols true sy C NM F D S0).
    assert (PL := phys_row_length co fsys _ _ _ _ _ (top - 1 - y) HH LN ltac:(lia) ltac:(lia)).
    fold l. unfold window_at in WA. unfold window_start.
    replace (l - 1) with (top - 1 - y) by (unfold l; lia).
    destruct (in_window (LowerSouth (d_win d)) _ _); [|destruct (in_window (UpperSouth (d_win d)) _ _) eqn:IU; [|discriminate]].
    + injection WA as <- <-. rewrite nth_placed_rev by lia. f_equal. lia.
    + injection WA as <- <-. assert (UO : UpperWest (d_win d) - UpperEast (d_win d) + 1 = cols /\ UpperWest (d_win d) <= 11136).
      { destruct WO as (_ & _ & [Q | Q]); [lia|]. unfold in_window in IU. lia. }
      rewrite nth_placed_rev by lia. f_equal. lia.
  - rewrite (opens_transform h dec co pro epi fs d lines cols true px py O G) by (rewrite HV; assumption).
    unfold side. rewrite HV. cbn [Z.eqb Pos.eqb map place]. change (11136 / 2) with 5568. unfold sample_place. cbn [fst snd]. fold X Y. do 2 f_equal; unfold l; rewrite !minus_IZR; ring.
Qed.
(** A sample of a HRV image is at the north-west corner of its pixel when its uppermost
    line is the northernmost of the reference grid. *)
Theorem C157_hrv_corner_partial : forall h dec co fsys pro epi fs d lines cols segs st buf px py east west a y,
  opens h dec co pro epi fs d lines cols true -> on_disk fsys fs -> has_segments dec fs segs -> d_channel_id d = 12 -> good_part 128 425450 pro ->
  0 < lines -> windows_ok (d_win d) cols -> lines * Z.of_nat (List.length (d_names d)) <= 2 ^ 62 ->
  served (d_names d) (file_loader h dec co fsys) st -> List.length buf = Z.to_nat (d_xsize d) ->
  single (in_prologue pro (grid_step true "ColumnDirGridStep")) px -> single (in_prologue pro (grid_step true "LineDirGridStep")) py ->
  MaxLine (d_win d) = 11136 -> let l := 11136 - y in
  window_at (d_win d) l = Some (east, west) -> east <= a <= west -> 0 <= y < 11136 ->
  (exists v, snd (read_row h dec co fsys d st y buf) = Ok (Some v) /\
     nth (Z.to_nat (11136 - a)) v 0 = nth (Z.to_nat (a - east)) (phys_row lines cols segs (l - 1)) 0) /\
  place (d_transform d) (IZR (11136 - a)) (IZR y) = Some (sample_place 5568 5568 a l (1000 * Rabs px) (1000 * Rabs py)).
Proof.
  intros h dec co fsys pro epi fs d lines cols segs st buf px py east west a y O D S0 HV G LN W LM SV BL HX HY TOP l WA A YT.
  assert (P := hrv_place h dec co fsys pro epi fs d lines cols segs st buf px py east west a y O D S0 HV G LN W LM SV BL HX HY).
  cbv zeta in P. rewrite TOP in P. destruct (P WA A YT) as (P1 & P2). split; [exact P1|]. rewrite P2. unfold sample_place, l. cbn [fst snd].
  change (11136 - 11136) with 0. do 2 f_equal. ring.
Qed.
Print Assumptions C157_hrv_corner_partial.
(** With any other uppermost line - a rapid scan, a window moved south - the picture is
    placed that many rows too far north. *)
Theorem C157_refuted_hrv_rows : forall h dec co fsys pro epi fs d lines cols segs st buf px py east west a y,
  opens h dec co pro epi fs d lines cols true -> on_disk fsys fs -> has_segments dec fs segs -> d_channel_id d = 12 -> good_part 128 425450 pro ->
  0 < lines -> windows_ok (d_win d) cols -> lines * Z.of_nat (List.length (d_names d)) <= 2 ^ 62 ->
  served (d_names d) (file_loader h dec co fsys) st -> List.length buf = Z.to_nat (d_xsize d) ->
  single (in_prologue pro (grid_step true "ColumnDirGridStep")) px -> single (in_prologue pro (grid_step true "LineDirGridStep")) py -> (py <> 0)%R ->
  let top := MaxLine (d_win d) in let l := top - y in
  window_at (d_win d) l = Some (east, west) -> east <= a <= west -> 0 <= y < top -> top <> 11136 ->
  let right := sample_place 5568 5568 a l (1000 * Rabs px) (1000 * Rabs py) in
  (exists v, snd (read_row h dec co fsys d st y buf) = Ok (Some v) /\
     nth (Z.to_nat (11136 - a)) v 0 = nth (Z.to_nat (a - east)) (phys_row lines cols segs (l - 1)) 0) /\
  exists n, place (d_transform d) (IZR (11136 - a)) (IZR y) = Some (fst right, n) /\
    n = (snd right + IZR (11136 - top) * (1000 * Rabs py))%R /\ (snd right < n)%R.
Proof.
  intros h dec co fsys pro epi fs d lines cols segs st buf px py east west a y O D S0 HV G LN W LM SV BL HX HY PY top l WA A YT NT right.
  destruct (hrv_place h dec co fsys pro epi fs d lines cols segs st buf px py east west a y O D S0 HV G LN W LM SV BL HX HY WA A YT) as (P1 & P2).
  split; [exact P1|]. eexists. split; [exact P2|]. split; [reflexivity|]. fold top l right.
  assert (TB : top < 11136) by (unfold windows_ok, window_ok in W; unfold top, MaxLine in *; lia).
  assert (Q : (0 < IZR (11136 - top))%R) by (apply IZR_lt; lia). assert (Q2 : (0 < 1000 * Rabs py)%R) by (apply Rabs_pos_lt in PY; lra).
  pose proof (Rmult_lt_0_compat _ _ Q Q2). unfold right, l in *. fold top. lra.
Qed.
Print Assumptions C157_refuted_hrv_rows.

(** * A product *)
Lemma bytes_of_past a b o w : Z.of_nat (List.length a) <= o -> bytes_of (a ++ b) o w = bytes_of b (o - Z.of_nat (List.length a)) w.
Proof. intros H. unfold bytes_of. rewrite skipn_app. rewrite skipn_all2 by lia. cbn [app]. do 2 f_equal. lia. Qed.
Lemma bytes_of_here a b o w : o = 0 -> w = Z.of_nat (List.length a) -> bytes_of (a ++ b) o w = a.
Proof. intros -> ->. unfold bytes_of. cbn [Z.to_nat skipn]. rewrite Nat2Z.id, firstn_app, Nat.sub_diag. cbn [firstn]. now rewrite app_nil_r, firstn_all. Qed.
Definition zeros (n : Z) : list Z := repeat 0 (Z.to_nat n).
Lemma zeros_length n : 0 <= n -> Z.of_nat (List.length (zeros n)) = n.
Proof. intros H. unfold zeros. rewrite repeat_length. lia. Qed.
Lemma zeros_bytes n : bytes_ok (zeros n).
Proof. unfold zeros, bytes_ok. apply Forall_forall. intros x H. apply repeat_spec in H. subst. unfold is_byte. lia. Qed.

(** 2006-11-13 08:00:10.500, pixels of 3 km and 1 km, all slopes 1 and offsets -2. *)
Definition case_cal : list Z := List.concat (repeat (be 8 (1023 * 2 ^ 52) ++ be 8 (3072 * 2 ^ 52)) 12).
Definition case_prologue : part :=
  mk_part (8 * 425450) [RAnnot (codes "H-000-MSG1__-MSG1________-_________-PRO______-200611130800-__")]
    (zeros 60134 ++ be 2 17848 ++ be 4 28810500 ++ zeros 326765 ++ be 4 1077936128 ++ be 4 1077936128 ++ zeros 9 ++
     be 4 1065353216 ++ be 4 1065353216 ++ zeros 135 ++ case_cal ++ zeros 38193).
Definition case_epilogue (north : Z) : part :=
  mk_part (8 * 380325) [RAnnot (codes "H-000-MSG1__-MSG1________-_________-EPI______-200611130800-__")]
    (zeros 309 ++ be 4 1 ++ be 4 8064 ++ be 4 1 ++ be 4 5568 ++ be 4 8065 ++ be 4 north ++ be 4 3001 ++ be 4 8568 ++ zeros 379984).
Definition case_segment (ch cols seq : Z) : seg_file :=
  mk_sf (codes "seg" ++ [48 + seq]) 0 16
    [RImage 10 cols 464 1; RNavig (codes "GEOS(+000.0)" ++ repeat 0 20) (-5) (-5) 1856 1856; RSeg 321 ch seq 1 8 3] [1; 2].


Lemma case_cal_length : List.length case_cal = 192%nat.
Proof. reflexivity. Qed.
Ltac at_field := repeat (first [rewrite bytes_of_here by (rewrite ?zeros_length, ?be_length, ?case_cal_length by lia; lia) | rewrite bytes_of_past by (rewrite ?zeros_length, ?be_length, ?case_cal_length by lia; lia)]; rewrite ?zeros_length, ?be_length, ?case_cal_length by lia).
Lemma case_cal_bytes : bytes_ok case_cal.
Proof. unfold case_cal. cbn [repeat List.concat]. rewrite !bytes_ok_app. repeat split; (apply be_bytes || constructor). Qed.
Lemma number_val f p t o w v : lookup f t = Some (o, w) -> be_val (bytes_of (p_body p) o w) = v -> number_of f p t = v.
Proof. intros L E. unfold number_of. now rewrite L. Qed.
Ltac field_of o w := apply (number_val _ _ _ o w); [unfold start_day, start_msec, grid_step, calibration, coverage; lk | unfold case_prologue, case_epilogue; cbn [p_body]; at_field].
Lemma case_prologue_good : good_part 128 425450 case_prologue.
Proof.
  split; [reflexivity|]. split; [|split; [|split]].
  - cbn [case_prologue p_body]. rewrite !bytes_ok_app. repeat split; apply be_bytes || apply zeros_bytes || apply case_cal_bytes.
  - cbn [case_prologue p_body p_dfl]. rewrite !app_length, !be_length, case_cal_length, !Nat2Z.inj_add, !zeros_length by lia. lia.
  - eexists. split; [reflexivity|]. exists [], (codes "1________"). reflexivity.
  - exact Logic.I.
Qed.
Lemma case_epilogue_good north : good_part 129 380325 (case_epilogue north).
Proof.
  split; [reflexivity|]. split; [|split; [|split]].
  - cbn [case_epilogue p_body]. rewrite !bytes_ok_app. repeat split; apply be_bytes || apply zeros_bytes.
  - cbn [case_epilogue p_body p_dfl]. rewrite !app_length, !be_length, !Nat2Z.inj_add, !zeros_length by lia. lia.
  - eexists. split; [reflexivity|]. exists [], (codes "1________"). reflexivity.
  - exact Logic.I.
Qed.
Lemma case_start : in_prologue case_prologue start_day = 17848 /\ in_prologue case_prologue start_msec = 28810500.
Proof. split; [field_of 60134 2|field_of 60136 4]; reflexivity. Qed.
Lemma bytes_of_in a b o w : 0 <= o -> 0 <= w -> o + w <= Z.of_nat (List.length a) -> bytes_of (a ++ b) o w = bytes_of a o w.
Proof.
  intros O W L. unfold bytes_of. rewrite skipn_app, firstn_app, skipn_length.
  replace (Z.to_nat w - (List.length a - Z.to_nat o))%nat with 0%nat by lia. cbn [firstn]. now rewrite app_nil_r.
Qed.
Ltac cal_of o := field_of o 8; rewrite bytes_of_in by (rewrite ?case_cal_length; lia); reflexivity.
Lemma case_calibration : in_prologue case_prologue (calibration 0 "Cal_Slope") = 1023 * 2 ^ 52 /\ in_prologue case_prologue (calibration 0 "Cal_Offset") = 3072 * 2 ^ 52 /\
  in_prologue case_prologue (calibration 11 "Cal_Slope") = 1023 * 2 ^ 52 /\ in_prologue case_prologue (calibration 11 "Cal_Offset") = 3072 * 2 ^ 52.
Proof. split; [cal_of 387065|]. split; [cal_of 387073|]. split; [cal_of 387241|cal_of 387249]. Qed.
Lemma case_steps : in_prologue case_prologue (grid_step false "ColumnDirGridStep") = 1077936128 /\ in_prologue case_prologue (grid_step false "LineDirGridStep") = 1077936128 /\
  in_prologue case_prologue (grid_step true "ColumnDirGridStep") = 1065353216 /\ in_prologue case_prologue (grid_step true "LineDirGridStep") = 1065353216.
Proof. split; [field_of 386909 4|split; [field_of 386905 4|split; [field_of 386926 4|field_of 386922 4]]]; reflexivity. Qed.
Lemma mk_win_eq a b c d e f g i a' b' c' d' e' f' g' i' : a = a' -> b = b' -> c = c' -> d = d' -> e = e' -> f = f' -> g = g' -> i = i' -> mk_win a b c d e f g i = mk_win a' b' c' d' e' f' g' i'.
Proof. congruence. Qed.
Lemma case_windows north : 0 <= north < 2 ^ 31 -> windows_of (case_epilogue north) = mk_win 1 1 5568 8064 3001 8065 8568 north.
Proof.
  intros H. unfold windows_of. cbv zeta. apply mk_win_eq; [field_of 317 4|field_of 309 4|field_of 321 4|field_of 313 4|field_of 333 4|field_of 325 4|field_of 337 4|field_of 329 4]; try reflexivity.
  apply be_val_be_small. change (256 ^ Z.of_nat 4) with (2 ^ 32). lia.
Qed.
Lemma power_neg n : 0 <= n -> powerRZ 2 (- n) = (/ IZR (2 ^ n))%R.
Proof.
  intros H. rewrite powerRZ_neg' by lra. rewrite <- (Z2Nat.id n) by exact H. rewrite <- pow_powerRZ, <- pow_IZR. reflexivity.
Qed.
Ltac value n := split; [lia|]; split; [lia|]; split; [lia|]; split; [reflexivity|]; cbn [Z.eqb Pos.eqb];
  match goal with |- context [powerRZ 2 ?e] => change e with (- n) end; rewrite power_neg by lia.
Lemma single_3 : single 1077936128 3.
Proof. exists 0, 128, 4194304. value 22. change (4194304 + 2 ^ 23) with (3 * 2 ^ 22). rewrite mult_IZR. field. apply not_0_IZR. discriminate. Qed.
Lemma single_1 : single 1065353216 1.
Proof. exists 0, 127, 0. value 23. rewrite Z.add_0_l. field. apply not_0_IZR. discriminate. Qed.
Lemma double_1 : double (1023 * 2 ^ 52) 1.
Proof. exists 0, 1023, 0. value 52. rewrite Z.add_0_l. field. apply not_0_IZR. discriminate. Qed.
Lemma double_m2 : double (3072 * 2 ^ 52) (-2).
Proof. exists 1, 1024, 0. value 51. change (0 + 2 ^ 52) with (2 * 2 ^ 51). rewrite mult_IZR. field. apply not_0_IZR. discriminate. Qed.

(** Segments 3, 1 and 8 of eight; each line has the numbers of its columns. *)
Definition case_files (ch cols : Z) : list seg_file := map (case_segment ch cols) [3; 1; 8].
Definition case_line (cols : Z) : row := map Z.of_nat (seq 0 (Z.to_nat cols)).
Definition case_rows (cols : Z) : list row := repeat (case_line cols) (Z.to_nat 464).
Definition case_segments (cols : Z) : segments :=
  [Some (case_rows cols); None; Some (case_rows cols); None; None; None; None; Some (case_rows cols)].
Definition case_dec : decoding := fun _ _ _ cols _ => Ok (List.concat (case_rows cols)).
Definition case_disk (ch cols : Z) : fname -> option (list Z) := fun f => Some (snd (sf_bytes (case_segment ch cols (nth 3 f 0 - 48)))).
Definition case_open (ch cols north : Z) : outcome dataset :=
  open_dataset LE case_dec (fun _ => false) (Some (part_bytes 128 case_prologue)) (Some (part_bytes 129 (case_epilogue north))) (map sf_bytes (case_files ch cols)).
Definition case_kind (ch cols : Z) : Prop := ch = 1 /\ cols = 3712 \/ ch = 12 /\ cols = 5568.

Lemma case_consistent ch cols : case_kind ch cols -> consistent (case_files ch cols).
Proof.
  intros [[-> ->] | [-> ->]]; (split; [eexists; repeat constructor|split; [repeat constructor; cbn; try discriminate; reflexivity|repeat constructor; cbn; intuition discriminate]]).
Qed.
Lemma case_same ch cols : same_image (case_files ch cols) 321 ch 10 (Some (codes "+000.0")).
Proof. unfold case_files, same_image. cbn [map]. repeat constructor; (do 3 eexists; split; [reflexivity|split; [reflexivity|split; [reflexivity|auto]]]). Qed.
Lemma case_line_length cols : 0 <= cols -> Z.of_nat (List.length (case_line cols)) = cols.
Proof. intros H. unfold case_line. rewrite map_length, seq_length. lia. Qed.
Lemma case_has_rows ch cols s : 0 <= cols <= 5568 -> has_rows case_dec (case_segment ch cols s) (case_rows cols).
Proof.
  intros H. do 3 eexists. split; [reflexivity|]. split; [reflexivity|]. split; [reflexivity|]. cbn [is_comp is_cols is_lines si_format is_bpp].
  split; [discriminate|]. split; [lia|]. split; [cbn; lia|]. split; [lia|]. split; [reflexivity|]. split; [reflexivity|].
  unfold case_rows. split; [rewrite repeat_length; lia|]. apply Forall_forall. intros r Hr. apply repeat_spec in Hr. subst r. apply case_line_length. lia.
Qed.
Lemma case_has_segments ch cols : 0 <= cols <= 5568 -> has_segments case_dec (case_files ch cols) (case_segments cols).
Proof.
  intros H k K. assert (D : k = 0 \/ k = 2 \/ k = 7 \/ (k <> 0 /\ k <> 2 /\ k <> 7)) by lia. destruct D as [-> | [-> | [-> | N]]].
  - exists (case_segment ch cols 1). split; [right; now left|]. split; [reflexivity|]. now apply case_has_rows.
  - exists (case_segment ch cols 3). split; [now left|]. split; [reflexivity|]. now apply case_has_rows.
  - exists (case_segment ch cols 8). split; [right; right; now left|]. split; [reflexivity|]. now apply case_has_rows.
  - assert (E : nth (Z.to_nat k) (case_segments cols) None = None).
    { destruct (Z_lt_le_dec k 8) as [L | L]; [|apply nth_overflow; cbn [List.length case_segments]; lia].
      assert (D : k = 1 \/ k = 3 \/ k = 4 \/ k = 5 \/ k = 6) by lia. destruct D as [-> | [-> | [-> | [-> | ->]]]]; reflexivity. }
    rewrite E. intros f [<- | [<- | [<- | []]]]; change (sf_seq (case_segment ch cols ?s)) with s; cbn; lia.
Qed.
Lemma case_on_disk ch cols : on_disk (case_disk ch cols) (case_files ch cols).
Proof. repeat constructor. Qed.

Lemma case_opens ch cols north : case_kind ch cols -> 8065 <= north <= 11136 ->
  exists d, opens LE case_dec (fun _ => false) case_prologue (case_epilogue north) (case_files ch cols) d 464 cols true /\
    d_channel_id d = ch /\ d_xsize d = side ch /\ (ch = 12 -> d_win d = mk_win 1 1 5568 8064 3001 8065 8568 north) /\
    d_time d = codes "2006-11-13 08:00:00" /\ d_spacecraft d = codes "MSG1" /\ d_lon d = Some (codes "+000.0") /\ d_band d = CalibModel.mk_band true 1 (-2) 0.
Proof.
  intros K NO. destruct case_start as (S1 & S2). destruct case_calibration as (C1 & C2 & C3 & C4). destruct case_steps as (P1 & P2 & P3 & P4).
  assert (W := case_windows north ltac:(lia)).
  assert (CV : Forall (fun nm => in_epilogue (case_epilogue north) (coverage nm) < 2 ^ 31) cov_names).
  { assert (W0 := f_equal LowerEast W). assert (W1 := f_equal LowerSouth W). assert (W2 := f_equal LowerWest W). assert (W3 := f_equal LowerNorth W). assert (W4 := f_equal UpperEast W). assert (W5 := f_equal UpperSouth W). assert (W6 := f_equal UpperWest W). assert (W7 := f_equal UpperNorth W).
    unfold windows_of in *. cbn [LowerEast LowerSouth LowerWest LowerNorth UpperEast UpperSouth UpperWest UpperNorth] in *. unfold cov_names. repeat constructor; lia. }
  assert (CR : exists px, single (in_prologue case_prologue (grid_step (ch =? 12) "ColumnDirGridStep")) px /\ single (in_prologue case_prologue (grid_step (ch =? 12) "LineDirGridStep")) px).
  { destruct K as [[-> _] | [-> _]]; cbn [Z.eqb Pos.eqb]; [exists 3%R|exists 1%R]; rewrite ?P1, ?P2, ?P3, ?P4; split; apply single_3 || apply single_1. }
  destruct CR as (px & X1 & X2).
  assert (CC : double (in_prologue case_prologue (calibration (ch - 1) "Cal_Slope")) 1 /\ double (in_prologue case_prologue (calibration (ch - 1) "Cal_Offset")) (-2)).
  { destruct K as [[-> _] | [-> _]]; cbn [Z.sub Z.add Z.opp Z.pos_sub Pos.pred_double]; [change (1 - 1) with 0|change (12 - 1) with 11]; rewrite ?C1, ?C2, ?C3, ?C4; split; apply double_1 || apply double_m2. }
  destruct CC as (X3 & X4).
  destruct (open_ok LE case_dec (fun _ => false) case_prologue (case_epilogue north) (case_files ch cols) 321 ch 10 (Some (codes "+000.0")) 1 (-2) px px) as (names & last & lines & cols' & sx & sy & NM & F & E);
    [exact case_prologue_good|apply case_epilogue_good|now apply case_consistent|discriminate|apply case_same|destruct K as [[-> _] | [-> _]]; lia|lia|exact X3|exact X4|exact X1|exact X2|intros _; exact CV|].
  eexists. split; [split; [now apply case_consistent|split; [discriminate|split]]|].
  - exists 8, ch, true. destruct K as [[-> ->] | [-> ->]]; repeat constructor.
  - exact E.
  - cbn [d_channel_id d_xsize d_win d_time d_spacecraft d_lon d_band]. split; [reflexivity|]. split; [reflexivity|]. split; [intros ->; exact W|].
    split; [rewrite S1, S2; reflexivity|]. split; [reflexivity|]. split; [reflexivity|]. destruct K as [[-> _] | [-> _]]; reflexivity.
Qed.

Example C155_case : exists d, case_open 1 3712 11136 = Ok d /\
  d_xsize d = 3712 /\ d_time d = codes "2006-11-13 08:00:00" /\ d_spacecraft d = codes "MSG1" /\ d_band d = CalibModel.mk_band true 1 (-2) 0.
Proof.
  destruct (case_opens 1 3712 11136) as (d & (_ & _ & _ & E) & _ & H1 & _ & H2 & H3 & _ & H4); [now left|lia|]. exists d. split; [exact E|]. split; [exact H1|]. auto.
Qed.
(** The first row is the northernmost line of segment 8 from west to east; segment 7 is missing. *)
Lemma case_row cols y : 0 <= cols -> 0 <= y < 464 -> phys_row 464 cols (case_segments cols) (3711 - y) = case_line cols.
Proof.
  intros C Y. unfold phys_row. replace ((3711 - y) / 464) with 7 by lia. cbn [nth Z.to_nat Pos.to_nat Pos.iter_op Nat.add case_segments].
  unfold case_rows. apply nth_repeat_lt. pose proof (Z.mod_pos_bound (3711 - y) 464). lia.
Qed.
Lemma nth_case_line cols k : 0 <= k < cols -> nth (Z.to_nat k) (case_line cols) 0 = k.
Proof.
  intros H. unfold case_line. rewrite (nth_indep _ _ (Z.of_nat 0)) by (rewrite map_length, seq_length; lia). rewrite map_nth, seq_nth by lia. lia.
Qed.
Lemma placed_whole n (r : row) : List.length r = n -> placed 0 n 0 r = r.
Proof. intros <-. unfold placed. rewrite Nat.sub_0_r, Nat.sub_diag. cbn [repeat app]. apply app_nil_r. Qed.
Lemma case_gap cols y : 464 <= y < 928 -> phys_row 464 cols (case_segments cols) (3711 - y) = zeros cols.
Proof.
  intros Y. unfold phys_row. assert (E : nth (Z.to_nat ((3711 - y) / 464)) (case_segments cols) None = None) by (replace ((3711 - y) / 464) with 6 by lia; reflexivity).
  rewrite E. reflexivity.
Qed.
Lemma rev_zeros n : rev (zeros n) = zeros n.
Proof. apply rev_repeat. Qed.
Example C156_case : exists d, case_open 1 3712 11136 = Ok d /\
  (forall y, 0 <= y < 464 -> snd (read_row LE case_dec (fun _ => false) (case_disk 1 3712) d da_init y (zeros 3712)) = Ok (Some (rev (case_line 3712)))) /\
  (forall y, 464 <= y < 928 -> snd (read_row LE case_dec (fun _ => false) (case_disk 1 3712) d da_init y (zeros 3712)) = Ok (Some (zeros 3712))).
Proof.
  destruct (case_opens 1 3712 11136) as (d & O & CH & XS & _); [now left|lia|]. exists d. split; [apply O|].
  assert (R := fun y => C156_rows LE case_dec (fun _ => false) (case_disk 1 3712) _ _ _ d 464 3712 true (case_segments 3712) da_init (zeros 3712) y O
     (case_on_disk _ _) (case_has_segments 1 3712 ltac:(lia)) ltac:(lia) ltac:(lia) ltac:(lia) (served_init _ _)).
  assert (LN := zeros_length 3712 ltac:(lia)). assert (LC := case_line_length 3712 ltac:(lia)).
  rewrite XS in R. change (side 1) with 3712 in R.
  split; intros y Y; destruct (R y) as (E & _); try lia; rewrite E; unfold orient.
  - rewrite case_row, placed_whole by (rewrite ?rev_length; lia). reflexivity.
  - rewrite case_gap, rev_zeros, placed_whole by lia. reflexivity.
Qed.
Example C157_case : exists d, case_open 1 3712 11136 = Ok d /\
  place (d_transform d) 0 0 = Some (-5568000, 5568000)%R /\ place (d_transform d) 1856 1856 = Some (0, 0)%R /\
  forall x, 0 <= x < 3712 -> exists v, snd (read_row LE case_dec (fun _ => false) (case_disk 1 3712) d da_init 0 (zeros 3712)) = Ok (Some v) /\ nth (Z.to_nat x) v 0 = 3711 - x.
Proof.
  destruct (case_opens 1 3712 11136) as (d & O & CH & XS & _); [now left|lia|]. exists d. split; [apply O|]. destruct case_steps as (P1 & P2 & _).
  assert (A3 : (1000 * Rabs 3 = 3000)%R) by (rewrite Rabs_pos_eq; lra).
  assert (T := fun x y => C157_corner_partial LE case_dec (fun _ => false) (case_disk 1 3712) _ _ _ d 464 (case_segments 3712) da_init (zeros 3712) 3 3 x y O
     (case_on_disk _ _) (case_has_segments 1 3712 ltac:(lia)) ltac:(lia) case_prologue_good ltac:(lia) (served_init _ _)).
  assert (LN := zeros_length 3712 ltac:(lia)). rewrite P1, P2, XS in T. change (side 1) with 3712 in T.
  assert (T' := fun x y => T x y ltac:(lia) single_3 single_3). clear T. unfold sample_place in T'. cbv zeta in T'.
  split; [|split].
  - destruct (T' 0 0) as (_ & E); [lia|lia|]. rewrite E, A3, !minus_IZR. apply (f_equal Some), (f_equal2 pair); lra.
  - destruct (T' 1856 1856) as (_ & E); [lia|lia|]. rewrite E, A3, !minus_IZR. apply (f_equal Some), (f_equal2 pair); lra.
  - intros x X. destruct (T' x 0 X) as ((v & E & N) & _); [lia|]. exists v. split; [exact E|]. rewrite N.
    replace (3712 - 0 - 1) with (3711 - 0) by lia. rewrite case_row by lia. rewrite nth_case_line by lia. lia.
Qed.
(** HRV with windows up to line 11136, and up to line 11000: the same corner of the raster. *)
Example C157_hrv_case : forall north, north = 11136 \/ north = 11000 -> exists d, case_open 12 5568 north = Ok d /\
  windows_ok (d_win d) 5568 /\ MaxLine (d_win d) = north /\ window_at (d_win d) north = Some (3001, 8568) /\
  place (d_transform d) 0 0 = Some (-5568000, 5568000)%R /\ snd (sample_place 5568 5568 3001 north 1000 1000) = (IZR (north - 5568) * 1000)%R.
Proof.
  intros north NO. destruct (case_opens 12 5568 north) as (d & O & CH & XS & W & _); [now right|lia|]. exists d. split; [apply O|].
  specialize (W eq_refl). destruct case_steps as (_ & _ & P3 & P4). rewrite W.
  split; [unfold windows_ok, window_ok; cbn [LowerEast LowerSouth LowerWest LowerNorth UpperEast UpperSouth UpperWest UpperNorth]; lia|].
  split; [unfold MaxLine; cbn [LowerNorth UpperNorth]; lia|].
  split; [unfold window_at, in_window; cbn [LowerEast LowerSouth LowerWest LowerNorth UpperEast UpperSouth UpperWest UpperNorth]; destruct NO as [-> | ->]; reflexivity|].
  split; [|reflexivity]. rewrite (opens_transform _ _ _ _ _ _ _ _ _ _ 1 1 O case_prologue_good); rewrite CH; cbn [Z.eqb Pos.eqb]; [|rewrite P3; apply single_1|rewrite P4; apply single_1].
  assert (A1 : (1000 * Rabs 1 = 1000)%R) by (rewrite Rabs_pos_eq; lra). rewrite A1. change (side 12 / 2) with 5568. cbn [map place]. apply (f_equal Some), (f_equal2 pair); lra.
Qed.
