(** C112-C116: copies of images in GRIB. *)
From Coq Require Import ZArith QArith Reals String List Lia Lra.
From Flocq Require Import Core.
From Verif Require Import Base BaseFacts IniModel FactsModel GeoModel GeoProps ScanModel ToolModel ToolRunProps SunModel PixModel PixProps GribHrv GribModel GribProps GribCopyProps.
Import ListNotations.
Open Scope string_scope.
Open Scope list_scope.
Open Scope Z_scope.

(** ** C112 *)
Section Copy.
Variable L : glib.
Lemma get_missing m0 v : (forall m0 v, s_double L m0 "missingValue" v <> None) -> exists m1, set_double L true m0 "missingValue" v = Ok (Some m1) /\ s_double L m0 "missingValue" v = Some m1.
Proof. intros MV. unfold set_double, traced. specialize (MV m0 v). destruct (s_double L m0 "missingValue" v) as [m1|] eqn:E; [exists m1; auto|contradiction]. Qed.
Lemma band_channel_ok t m sat ch : match t with
  | WMO => (exists q, channel_central_wave_number sat ch = Ok q /\ g_long L m "scaledValueOfCentralWaveNumber" = Got (Qround q)) /\ g_long L m "scaleFactorOfCentralWaveNumber" = Got 0 /\ g_long L m "channelNumber" = NotFound /\ g_long L m "level" = NotFound
  | ECMWF => g_long L m "channelNumber" = Got ch
  | MSAT => g_long L m "channelNumber" = NotFound /\ g_long L m "level" = Got ch
  end -> msg_sat sat -> 1 <= ch <= 12 -> band_channel L true m sat = Ok (Some ch).
Proof.
  intros H SM CC. unfold band_channel, get_long_ifexists, get_long, traced. destruct t.
  - destruct H as ((q & Q1 & Q2) & S0 & -> & ->). rewrite S0, Q2. destruct (wave_number_back sat ch SM CC) as (q' & Q3 & Q4). rewrite Q1 in Q3. injection Q3 as <-. rewrite Q4. reflexivity.
  - now rewrite H.
  - destruct H as (-> & ->). reflexivity.
Qed.
Lemma read_written_at t s st ct y mo d h mi sec p q a b m : faithful L -> (forall m0 v, s_long L m0 "second" v <> None) -> (forall m0 v, s_double L m0 "missingValue" v <> None) ->
  source_at s st ct y mo d h mi sec p q a b -> create L true t s = Ok (Some m) -> names_ok L t m ->
  exists ds p' q' kx ky, GRIBOpen L true (Some m) = Ok (Some ds) /\ gd_xs L ds = src_xs s /\ gd_ys L ds = src_ys s /\ gd_time L ds = iso_text y mo d h mi sec /\
    gd_sat L ds = decimal st /\ gd_chan L ds = decimal ct /\ (exists height, src_srs s = Some (true, height, gd_lon L ds)) /\
    GetGeoTransform L true (gd_msg L ds) = Ok (Some (IZR kx * p', p', IZR ky * q', - q')%R) /\ (Rabs (a - IZR kx) <= 1 / 2)%R /\ (Rabs (b - IZR ky) <= 1 / 2)%R /\ read_size p p' /\ read_size q q' /\
    s_double L m "missingValue" (gd_missing L ds) = Some (gd_msg L ds) /\ gd_missing L ds = defaultScaledMissing (decimal ct).
Proof.
  intros F SEC MV SO E NM. destruct SO as [XS YS TM YR MO D H MI S0 (SAT & SD & SM) ((nd & o & sc & vv & BD) & CD & CC) GT].
  destruct (create_written L _ _ _ _ _ _ _ _ _ _ _ _ _ _ _ _ _ _ _ _ _ F SEC TM YR MO D H MI S0 SAT BD GT E) as (height & lon & off & dx & dy & x0 & y0 & SRS & GO & DX & DY & X0 & Y0 & W).
  assert (SV : strtol_md st = decimal st) by (apply strtol_decimal; [exact SD|unfold msg_sat in SM; lia]). assert (CV : strtol_md ct = decimal ct) by (apply strtol_decimal; [exact CD|lia]). rewrite SV, CV in W.
  assert (SI : to_int (decimal st) = decimal st) by (apply to_int_fits; unfold int_fits, msg_sat in *; lia). assert (CI : to_int (decimal ct) = decimal ct) by (apply to_int_fits; unfold int_fits; lia).
  destruct W as (W1 & W2 & W3 & W4 & W5 & W6 & W7 & W8 & W9).
  assert (OS : get_long_oneof L true m ["satelliteNumber"; "satelliteIdentifier"; "indicatorOfTypeOfLevel"] = Ok (Some (decimal st))).
  { destruct t; cbn [names_ok] in NM; [apply oneof_first; tauto|rewrite oneof_skip by tauto; apply oneof_first; tauto|]. destruct NM as (N1 & _ & _ & N2). destruct (N2 eq_refl) as [N3 _]. rewrite !oneof_skip by assumption. apply oneof_first. tauto. }
  assert (BC : band_channel L true m (decimal st) = Ok (Some (decimal ct))).
  { apply (band_channel_ok t); try assumption. destruct t; cbn [names_ok] in NM; [rewrite SI, CI in W9; tauto|tauto|]. destruct NM as (_ & _ & _ & N2). specialize (N2 eq_refl). tauto. }
  destruct (get_missing m (defaultScaledMissing (decimal ct)) MV) as (m1 & M1 & M2).
  assert (OX : get_long_oneof L true m1 ["xCoordinateOfSubSatellitePoint"; "XpInGridLengths"] = Ok (Some off) /\ get_long_oneof L true m1 ["yCoordinateOfSubSatellitePoint"; "YpInGridLengths"] = Ok (Some off)).
  { assert (K : forall k, touches "missingValue" k = false -> g_long L m1 k = g_long L m k) by (intros k T; apply (f_double_keeps _ F _ _ _ _ k M2 T)).
    destruct t; cbn [names_ok] in NM; [split; apply oneof_first; rewrite K by reflexivity; tauto|..]; destruct NM as (_ & N1 & N2 & _); (split; apply oneof_alias; [rewrite K by reflexivity; tauto|unfold unread in *; rewrite !K by reflexivity; assumption|rewrite K by reflexivity; tauto|unfold unread in *; rewrite !K by reflexivity; assumption]). }
  rewrite GT in GO. pose proof (grid_offset_sizes _ _ _ _ _ _ _ GO) as SZ.
  destruct (size_back p dx) as (DX' & p' & P1 & P2); [tauto|exact DX|]. destruct (size_back (- - q) dy) as (DY' & q' & Q1 & Q2); [tauto|exact DY|]. rewrite Ropp_involutive in Q2.
  exists (mk_gds L m1 (to_int (src_xs s)) (to_int (src_ys s)) (iso_text y mo d h mi sec) (to_int (decimal st)) lon (decimal ct) (defaultScaledMissing (to_int (decimal ct)))), p', q', (x0 - off), (off - y0).
  split. { unfold GRIBOpen, traced, init. rewrite (get_long_ok _ _ _ _ W1), (get_long_ok _ _ _ _ W2), W3, OS. cbn [get_double_oneof traced]. rewrite W4, SI, BC, CI, M1. reflexivity. }
  cbn [gd_xs gd_ys gd_time gd_sat gd_chan gd_lon gd_msg gd_missing]. rewrite SI, CI, !to_int_fits by assumption. do 5 (split; [reflexivity|]). split; [exists height; exact SRS|].
  assert (PN : p <> 0%R) by (intros ->; destruct SZ as [(_ & A & _)|(_ & A & _)]; unfold PIXELSIZE, PIXELSIZE_HRV in A; rewrite Rabs_left in A; lra). assert (QN : q <> 0%R) by (intros ->; destruct SZ as [(_ & _ & A)|(_ & _ & A)]; unfold PIXELSIZE, PIXELSIZE_HRV in A; rewrite Rabs_left in A; lra).
  split; [|split; [|split; [|repeat split; assumption]]].
  2: { apply near_int_half in X0. rewrite minus_IZR. replace (a - (IZR x0 - IZR off))%R with (IZR off + a * p / p - IZR x0)%R by (field; exact PN). exact X0. }
  2: { apply near_int_half in Y0. rewrite minus_IZR. replace (b - (IZR off - IZR y0))%R with (- (IZR off - b * q / - - q - IZR y0))%R by (field; exact QN). rewrite Rabs_Ropp. exact Y0. }
  unfold GetGeoTransform. rewrite (proj1 OX), (proj2 OX).
  assert (K : forall k v, g_long L m k = Got v -> touches "missingValue" k = false -> g_long L m1 k = Got v) by (intros k v G T; rewrite (proj1 (f_double_keeps _ F _ _ _ _ k M2 T)); exact G).
  rewrite (oneof_first L m1 "Xo" _ x0), (oneof_first L m1 "Yo" _ y0) by (apply K; [assumption|reflexivity]). rewrite (get_long_ok L m1 "geography.dx" dx), (get_long_ok L m1 "geography.dy" dy) by (apply K; [assumption|reflexivity]).
  rewrite !to_int_fits by (unfold int_fits; lia). rewrite P1. cbn [bind]. rewrite Q1. cbn [bind]. do 2 f_equal.
  replace (off - x0) with (- (x0 - off)) by ring. rewrite opp_IZR, Ropp_involutive. reflexivity.
Qed.
Lemma read_written t s st ct y mo d h mi sec p q kx ky m : faithful L -> (forall m0 v, s_long L m0 "second" v <> None) -> (forall m0 v, s_double L m0 "missingValue" v <> None) ->
  source s st ct y mo d h mi sec p q kx ky -> create L true t s = Ok (Some m) -> names_ok L t m ->
  exists ds p' q', GRIBOpen L true (Some m) = Ok (Some ds) /\ gd_xs L ds = src_xs s /\ gd_ys L ds = src_ys s /\ gd_time L ds = iso_text y mo d h mi sec /\
    gd_sat L ds = decimal st /\ gd_chan L ds = decimal ct /\ (exists height, src_srs s = Some (true, height, gd_lon L ds)) /\
    GetGeoTransform L true (gd_msg L ds) = Ok (Some (IZR kx * p', p', IZR ky * q', - q')%R) /\ read_size p p' /\ read_size q q' /\
    s_double L m "missingValue" (gd_missing L ds) = Some (gd_msg L ds) /\ gd_missing L ds = defaultScaledMissing (decimal ct).
Proof.
  intros F SEC MV SO E NM. destruct (read_written_at t _ _ _ _ _ _ _ _ _ _ _ _ _ _ F SEC MV SO E NM) as (ds & p' & q' & kx' & ky' & A1 & A2 & A3 & A4 & A5 & A6 & A7 & A8 & A9 & A10 & A11).
  apply half_eq in A9, A10. subst kx' ky'. exists ds, p', q'. tauto.
Qed.
(** A copy has the size, the time, the satellite, the channel and the place of its
    source, up to the size of its pixels; a corner between pixels moves to the
    nearest one. *)
Theorem C112_read_back_partial t s st ct y mo d h mi sec p q a b m : faithful L -> (forall m0 v, s_long L m0 "second" v <> None) -> (forall m0 v, s_double L m0 "missingValue" v <> None) ->
  source_at s st ct y mo d h mi sec p q a b -> create L true t s = Ok (Some m) -> names_ok L t m ->
  exists ds p' q' kx ky, GRIBOpen L true (Some m) = Ok (Some ds) /\ gd_xs L ds = src_xs s /\ gd_ys L ds = src_ys s /\ gd_time L ds = iso_text y mo d h mi sec /\
    gd_sat L ds = decimal st /\ gd_chan L ds = decimal ct /\ (exists height, src_srs s = Some (true, height, gd_lon L ds)) /\
    GetGeoTransform L true (gd_msg L ds) = Ok (Some (IZR kx * p', p', IZR ky * q', - q')%R) /\ read_size p p' /\ read_size q q' /\
    (Rabs (a - IZR kx) <= 1 / 2)%R /\ (Rabs (b - IZR ky) <= 1 / 2)%R /\ (forall k, a = IZR k -> kx = k) /\ (forall k, b = IZR k -> ky = k).
Proof.
  intros F SEC MV SO E NM. destruct (read_written_at t _ _ _ _ _ _ _ _ _ _ _ _ _ _ F SEC MV SO E NM) as (ds & p' & q' & kx & ky & A1 & A2 & A3 & A4 & A5 & A6 & A7 & A8 & A9 & A10 & A11 & A12 & _). exists ds, p', q', kx, ky.
  do 12 (split; [assumption|]). split; intros k ->; symmetry; now apply half_eq.
Qed.
(** A source whose corner is not at a whole number of pixels is copied to another
    place, even when the size of its pixels is kept. *)
Theorem C112_refuted_corner t s st ct y mo d h mi sec q a b m : faithful L -> (forall m0 v, s_long L m0 "second" v <> None) -> (forall m0 v, s_double L m0 "missingValue" v <> None) ->
  source_at s st ct y mo d h mi sec PIXELSIZE q a b -> (forall k, a <> IZR k) -> create L true t s = Ok (Some m) -> names_ok L t m ->
  exists ds g0 g3 g5, GRIBOpen L true (Some m) = Ok (Some ds) /\ GetGeoTransform L true (gd_msg L ds) = Ok (Some (g0, PIXELSIZE, g3, g5)) /\ g0 <> (a * PIXELSIZE)%R /\ (Rabs (g0 - a * PIXELSIZE) <= PIXELSIZE / 2)%R.
Proof.
  intros F SEC MV SO NI E NM. destruct (read_written_at t _ _ _ _ _ _ _ _ _ _ _ _ _ _ F SEC MV SO E NM) as (ds & p' & q' & kx & ky & A1 & _ & _ & _ & _ & _ & _ & A8 & A9 & _ & A11 & _).
  assert (p' = PIXELSIZE) as ->. { destruct A11 as [[_ A]|[A _]]; [exact A|]. exfalso. apply Rabs_le_inv in A. unfold PIXELSIZE, PIXELSIZE_HRV in A. lra. }
  exists ds, (IZR kx * PIXELSIZE)%R, (IZR ky * q')%R, (- q')%R. assert (PP : (0 < PIXELSIZE)%R) by (unfold PIXELSIZE; lra). split; [exact A1|]. split; [exact A8|]. split.
  - intros X. apply (NI kx). symmetry. apply Rmult_eq_reg_r with PIXELSIZE; [exact X|lra].
  - replace (IZR kx * PIXELSIZE - a * PIXELSIZE)%R with (- ((a - IZR kx) * PIXELSIZE))%R by ring. rewrite Rabs_Ropp, Rabs_mult, (Rabs_right PIXELSIZE) by lra. replace (PIXELSIZE / 2)%R with (1 / 2 * PIXELSIZE)%R by field. apply Rmult_le_compat_r; lra.
Qed.
End Copy.
Print Assumptions C112_read_back_partial.
Print Assumptions C112_refuted_corner.

(** ** C113 *)
(** What the statement needs of the packing of values: [close] is its precision. *)
Record packing (L : glib) (close : R -> R -> Prop) : Prop := {
  p_plain : forall m0 m1 m2 m3 w l, s_long L m0 "bitmapPresent" 0 = Some m1 -> s_values L m1 (map Some l) = Some m2 -> s_double L m2 "missingValue" w = Some m3 ->
    exists l', g_values L m3 = Got (map Some l') /\ Forall2 close l l';
  p_bitmap : forall m0 m1 m2 m3 m4 gm w l, s_long L m0 "bitmapPresent" 1 = Some m1 -> s_double L m1 "missingValue" (Some gm) = Some m2 -> s_values L m2 (map Some l) = Some m3 -> s_double L m3 "missingValue" (Some w) = Some m4 ->
    exists l', g_values L m4 = Got (map Some l') /\ Forall2 (fun v r => if Req_EM_T v gm then r = w else close v r) l l'
}.
(** The value that stands for a missing pixel of a channel in a GRIB file. *)
Definition missing_of (ch : Z) : R := if ch =? 1 then (-1.02691)%R else if ch =? 12 then (-1.63196)%R else 0%R.
Lemma missing_of_default ch : 1 <= ch <= 12 -> defaultScaledMissing ch = Some (missing_of ch).
Proof. intros H. unfold defaultScaledMissing, missing_of. replace ((0 <=? ch) && (ch <? 13))%bool with true by lia. destruct (ch =? 1); [|destruct (ch =? 12)]; apply f_equal; lra. Qed.
Definition is_missing (nd v : R) : bool := if Req_EM_T v nd then true else false.
Lemma num_eq_some a b : num_eq (Some a) (Some b) = is_missing b a. Proof. reflexivity. Qed.
Lemma scale_values_reals l nd sc o : scale_values (map Some l) (Some nd) (Some sc) (Some o) =
  (map Some (map (fun v => v * sc + o)%R l), Z.of_nat (List.length (filter (is_missing nd) l)), Some (nd * sc + o)%R).
Proof.
  unfold scale_values. cbn [scaled]. f_equal. f_equal.
  - rewrite !map_map. apply map_ext. intros v. rewrite num_eq_some. unfold is_missing. destruct (Req_EM_T v nd) as [->|]; reflexivity.
  - f_equal. induction l as [|v l IH]; [reflexivity|]. cbn [map filter]. rewrite num_eq_some. destruct (is_missing nd v); cbn [List.length]; lia.
Qed.
Lemma create_tail L t s m ch l nd o sc : create L true t s = Ok (Some m) -> src_band s = Some (ch, Some nd, Some o, Some sc, Some (map Some l)) ->
  exists m0, run L true (bitmap (Z.of_nat (List.length (filter (is_missing nd) l))) (Some (nd * sc + o)%R) ++ data (Z.of_nat (List.length (filter (is_missing nd) l))) (map Some (map (fun v => v * sc + o)%R l))) m0 = Ok (Some m).
Proof.
  intros E B. unfold create, traced in E. rewrite B, scale_values_reals in E. destruct (src_srs s) as [[[pr hh] ll]|]; [|discriminate]. destruct (negb pr); [discriminate|]. destruct (nonzero _); [discriminate|]. destruct (sample L (sample_of t)) as [m0|]; [|discriminate].
  apply run_app in E. destruct E as (m1 & _ & E). exists m1. exact E.
Qed.
Lemma Forall2_map_l A B C (f : A -> B) (P : B -> C -> Prop) l l' : Forall2 P (map f l) l' -> Forall2 (fun a c => P (f a) c) l l'.
Proof. revert l'. induction l as [|a l IH]; intros l' H; inversion H; subst; constructor; auto. Qed.
Lemma Forall2_impl_In A B (P Q : A -> B -> Prop) l l' : (forall a b, In a l -> P a b -> Q a b) -> Forall2 P l l' -> Forall2 Q l l'.
Proof. intros I H. induction H; constructor; [apply I; [now left|assumption]|apply IHForall2; intros; apply I; [now right|assumption]]. Qed.
Lemma Forall2_len A B (P : A -> B -> Prop) l l' : Forall2 P l l' -> List.length l = List.length l'.
Proof. intros H. induction H; cbn; congruence. Qed.
Lemma no_missing nd l : Z.of_nat (List.length (filter (is_missing nd) l)) = 0 -> forall v, In v l -> v <> nd.
Proof. intros C v I ->. assert (In nd (filter (is_missing nd) l)) by (apply filter_In; split; [assumption|unfold is_missing; destruct (Req_EM_T nd nd); [reflexivity|contradiction]]). destruct (filter (is_missing nd) l); [contradiction|cbn in C; lia]. Qed.
Lemma all_missing nd l : Forall (fun v => v = nd) l -> Z.of_nat (List.length (filter (is_missing nd) l)) = Z.of_nat (List.length l).
Proof. intros H. f_equal. induction H as [|v l -> _ IH]; [reflexivity|]. cbn [filter]. unfold is_missing at 1. destruct (Req_EM_T nd nd); [cbn; now rewrite IH|contradiction]. Qed.

(** The pixels of a copy: what is missing in the source is the missing value of the
    channel, and every other pixel is its scaled value. *)
Theorem C113_pixels_partial L close t s st ct y mo d h mi sec p q kx ky m nd o sc l : faithful L -> packing L close -> (forall m0 v, s_long L m0 "second" v <> None) -> (forall m0 v, s_double L m0 "missingValue" v <> None) ->
  source s st ct y mo d h mi sec p q kx ky -> src_band s = Some (Some ct, Some nd, Some o, Some sc, Some (map Some l)) -> sc <> 0%R ->
  int_fits (src_xs s * src_ys s) = true -> Z.of_nat (List.length l) = src_xs s * src_ys s ->
  create L true t s = Ok (Some m) -> names_ok L t m ->
  exists ds l', GRIBOpen L true (Some m) = Ok (Some ds) /\ IReadBlock L true ds 0 0 = Ok (Some (map Some l')) /\ gd_missing L ds = Some (missing_of (decimal ct)) /\
    Forall2 (fun v r => if Req_EM_T v nd then r = missing_of (decimal ct) else close (v * sc + o)%R r) l l'.
Proof.
  intros F P SEC MV SO B SC FT LN E NM. destruct (read_written L t _ _ _ _ _ _ _ _ _ _ _ _ _ _ F SEC MV SO E NM) as (ds & p' & q' & OP & XS & YS & _ & _ & _ & _ & _ & _ & _ & SM & GM).
  destruct (create_tail _ _ _ _ _ _ _ _ _ E B) as (m0 & R). set (n := Z.of_nat (List.length (filter (is_missing nd) l))) in *.
  rewrite missing_of_default in GM by (destruct SO; tauto). rewrite GM in SM. exists ds.
  assert (G : exists l', g_values L (gd_msg L ds) = Got (map Some l') /\ Forall2 (fun v r => if Req_EM_T v nd then r = missing_of (decimal ct) else close (v * sc + o)%R r) l l').
  { destruct (tail_cases _ _ _ _ [] _ _ R) as [_ DT]. rewrite DT in R. unfold bitmap in R. destruct (n =? 0) eqn:N.
    - cbn [app run] in R. unfold set_long, set_double_array, traced in R. destruct (s_long L m0 _ _) as [m1|] eqn:S1; [|discriminate]. destruct (s_values L m1 _) as [m2|] eqn:S2; [|discriminate]. injection R as ->.
      destruct (p_plain _ _ P _ _ _ _ _ _ S1 S2 SM) as (l' & G1 & G2). exists l'. split; [exact G1|]. apply Forall2_map_l in G2. revert G2. apply Forall2_impl_In. intros a b I CL. destruct (Req_EM_T a nd); [|exact CL]. exfalso. apply (no_missing nd l) with a; [unfold n in N; lia|assumption..].
    - cbn [app run] in R. unfold set_long, set_double, set_double_array, traced in R. destruct (s_long L m0 _ _) as [m1|] eqn:S1; [|discriminate]. destruct (s_double L m1 _ _) as [m2|] eqn:S2; [|discriminate]. destruct (s_values L m2 _) as [m3|] eqn:S3; [|discriminate]. injection R as ->.
      destruct (p_bitmap _ _ P _ _ _ _ _ _ _ _ S1 S2 S3 SM) as (l' & G1 & G2). exists l'. split; [exact G1|]. apply Forall2_map_l in G2. revert G2. apply Forall2_impl_In. intros a b I CL.
      destruct (Req_EM_T (a * sc + o) (nd * sc + o)) as [e|e], (Req_EM_T a nd) as [e'|e']; try exact CL; exfalso; [apply e'; apply (Rmult_eq_reg_r sc); lra|subst; now apply e]. }
  destruct G as (l' & G1 & G2). exists l'. split; [exact OP|]. split; [|split; [exact GM|exact G2]].
  assert (LL : List.length l' = List.length l) by (symmetry; eapply Forall2_len; exact G2). unfold IReadBlock. cbn. rewrite XS, YS, FT, G1. cbn [negb traced]. rewrite map_length, LL, LN. replace (_ <? _) with false by lia. now rewrite Z.eqb_refl.
Qed.
Print Assumptions C113_pixels_partial.
(** An image of missing pixels only cannot be copied. *)
Theorem C113_all_missing L t s ch l nd o sc m : src_band s = Some (ch, Some nd, Some o, Some sc, Some (map Some l)) -> Forall (fun v => v = nd) l -> create L true t s <> Ok (Some m).
Proof.
  intros B A E. destruct (create_tail _ _ _ _ _ _ _ _ _ E B) as (m0 & R). rewrite (all_missing nd l A) in R. destruct (run_no_fail _ _ _ _ R AFail) as [X _]; [|now apply X]. apply in_or_app. right. unfold data. rewrite !map_length, Z.eqb_refl. now left.
Qed.
Print Assumptions C113_all_missing.
(** A pixel that is not missing, but has the value that stands for missing ones, is
    read as if it were missing. *)
Theorem C113_refuted_collision L t s st ct y mo d h mi sec p q kx ky m nd o sc l i : faithful L -> packing L eq -> (forall m0 v, s_long L m0 "second" v <> None) -> (forall m0 v, s_double L m0 "missingValue" v <> None) ->
  source s st ct y mo d h mi sec p q kx ky -> src_band s = Some (Some ct, Some nd, Some o, Some sc, Some (map Some l)) -> sc <> 0%R ->
  int_fits (src_xs s * src_ys s) = true -> Z.of_nat (List.length l) = src_xs s * src_ys s ->
  create L true t s = Ok (Some m) -> names_ok L t m ->
  (i < List.length l)%nat -> (nth i l 0 * sc + o = missing_of (decimal ct))%R ->
  exists ds l', GRIBOpen L true (Some m) = Ok (Some ds) /\ IReadBlock L true ds 0 0 = Ok (Some l') /\ nth i l' None = gd_missing L ds.
Proof.
  intros F P SEC MV SO B SC FT LN E NM I V. destruct (C113_pixels_partial L eq t s st ct y mo d h mi sec p q kx ky m nd o sc l F P SEC MV SO B SC FT LN E NM) as (ds & l' & OP & RD & GM & FA). exists ds, (map Some l'). split; [exact OP|]. split; [exact RD|]. rewrite GM.
  assert (LL : List.length l' = List.length l) by (symmetry; eapply Forall2_len; exact FA). rewrite nth_indep with (d' := Some 0%R) by (rewrite map_length; lia). rewrite (map_nth Some). f_equal.
  clear -FA I V. revert i I V. induction FA as [|a b l l' H FA IH]; intros i I V; [cbn in I; lia|]. destruct i as [|i]; cbn [nth] in *; [destruct (Req_EM_T a nd); lra|]. apply IH; [cbn in I; lia|exact V].
Qed.
Print Assumptions C113_refuted_collision.
(** When missing pixels are NaN none is recognised: they are handed to the packing. *)
Theorem C113_refuted_nan vals sc o : scale_values vals None sc o = (map (fun v => scaled v sc o) vals, 0, None).
Proof.
  assert (N : forall v, num_eq v None = false) by (intros [v|]; reflexivity). unfold scale_values. cbn [scaled].
  replace (filter (fun v => num_eq v None) vals) with (@nil num) by (induction vals as [|v l IH]; cbn [filter]; [reflexivity|rewrite N; exact IH]). f_equal. f_equal. apply map_ext. intros v. now rewrite N.
Qed.
Print Assumptions C113_refuted_nan.

(** ** C114 *)
(** The copy of a high resolution image has pixels of another size, and cannot be
    copied itself. *)
Theorem C114_refuted_hrv L t s st ct y mo d h mi sec p q kx ky m : faithful L -> (forall m0 v, s_long L m0 "second" v <> None) -> (forall m0 v, s_double L m0 "missingValue" v <> None) ->
  source s st ct y mo d h mi sec p q kx ky -> (Rabs (p - PIXELSIZE_HRV) <= 1 / 10000)%R -> create L true t s = Ok (Some m) -> names_ok L t m ->
  exists ds g0 p' g3 q', GRIBOpen L true (Some m) = Ok (Some ds) /\ GetGeoTransform L true (gd_msg L ds) = Ok (Some (g0, p', g3, - q')%R) /\ (1 / 250 < Rabs (p' - p))%R /\
    forall t' s', src_gt s' = (g0, p', 0, g3, 0, - q')%R -> forall m', create L true t' s' <> Ok (Some m').
Proof.
  intros F SEC MV SO HP E NM. destruct (read_written L t _ _ _ _ _ _ _ _ _ _ _ _ _ _ F SEC MV SO E NM) as (ds & p' & q' & OP & _ & _ & _ & _ & _ & _ & GG & RS & _).
  assert (PB : (1000.12 < p' < 1000.13)%R). { destruct RS as [[A _]|[_ A]]; [|exact A]. exfalso. apply Rabs_le_inv in A, HP. unfold PIXELSIZE, PIXELSIZE_HRV in *. lra. }
  assert (FAR : (1 / 250 < Rabs (p' - p))%R). { apply Rabs_le_inv in HP. unfold PIXELSIZE_HRV in HP. rewrite Rabs_left; lra. }
  exists ds, (IZR kx * p')%R, p', (IZR ky * q')%R, q'. split; [exact OP|]. split; [exact GG|]. split; [exact FAR|].
  intros t' s' G m' C. unfold create, traced in C. destruct (src_srs s') as [[[pr hh] ll]|]; [|discriminate]. destruct (negb pr); [discriminate|]. destruct (nonzero _); [discriminate|]. destruct (src_band s') as [[[[[ch nd] o] sc] [v|]]|]; try discriminate. destruct (scale_values v nd sc o) as [[v' c] gm]. destruct (sample L (sample_of t')) as [m0|]; [|discriminate].
  assert (GO : grid_offset (src_gt s') = None).
  { rewrite G. unfold grid_offset. destruct (nonzero 0); [reflexivity|]. assert (F1 : far p' PIXELSIZE_HRV = true) by (unfold far; destruct (Rlt_dec _ _) as [|N]; [reflexivity|]; exfalso; apply N; unfold PIXELSIZE_HRV; rewrite Rabs_left; lra). assert (F2 : far p' PIXELSIZE = true) by (unfold far; destruct (Rlt_dec _ _) as [|N]; [reflexivity|]; exfalso; apply N; unfold PIXELSIZE; rewrite Rabs_left; lra). now rewrite F1, F2. }
  destruct (run_no_fail _ _ _ _ C AFail) as [X _]; [|now apply X]. apply in_or_app. left. destruct t'; unfold grid2, grid1; rewrite GO.
  - apply in_or_app. right. apply in_or_app. right. apply in_or_app. left. now left.
  - apply in_or_app. right. now left.
  - apply in_or_app. right. now left.
Qed.
Print Assumptions C114_refuted_hrv.

(** ** A case for C112, C113 and C114 *)
Section Case.
Definition samples (n : string) : option store := if String.eqb n "GRIB2" then Some [("editionNumber", 2)] else Some [("editionNumber", 1)].
Definition L0 : glib := st_lib [] samples.
Definition case_at (a p nd v : R) : gsrc :=
  mk_gsrc (Some (true, 35785831, 9)%R) 2 1 (a * p, p, 0, IZR 4 * p, 0, - p)%R (Some (iso_text 2006 11 13 12 10 5)) (Some (codes "57")) (Some (Some (codes "4"), Some nd, Some 10%R, Some 2%R, Some (map Some [nd; v]))).
Definition case_src : R -> R -> R -> gsrc := case_at (IZR (- 3)).
Lemma case_packing : packing L0 eq.
Proof.
  assert (X : forall (g : num) l, map (fun v => match v with Some x => Some x | None => g end) (map Some l) = map Some l) by (intros g l; induction l as [|x l IH]; cbn; [reflexivity|now rewrite IH]).
  assert (Y : forall l : list R, Forall2 eq l l) by (induction l; constructor; auto).
  constructor.
  - intros [[st db] vs] m1 m2 m3 w l S1 S2 S3. cbn in S1. injection S1 as <-. cbn in S2. injection S2 as <-. exists l. split; [|apply Y]. cbn in S3. destruct w; injection S3 as <-; cbn; f_equal; apply X.
  - intros [[st db] vs] m1 m2 m3 m4 gm w l S1 S2 S3 S4. cbn in S1. injection S1 as <-. cbn in S2. injection S2 as <-. cbn in S3. injection S3 as <-. cbn in S4. injection S4 as <-. cbn.
    exists (map (fun v => if Req_EM_T v gm then w else v) l). split; [|induction l as [|x l IH]; cbn; constructor; [destruct (Req_EM_T x gm); reflexivity|exact IH]].
    f_equal. rewrite !map_map. apply map_ext. intros x. cbn [num_eq]. destruct (Req_EM_T x gm); reflexivity.
Qed.
(** Everything can be set; what is not set is not there. *)
Lemma L0_run l : forall m ed, (forall a, In a l -> a <> AFail /\ a <> AThrow /\ a <> AUB /\ forall t, a = ATime t -> t = iso_text 2006 11 13 12 10 5) -> forallb (fun a => negb (act_touches a "editionNumber")) l = true ->
  g_long L0 m "editionNumber" = Got ed -> ed = 1 \/ ed = 2 ->
  exists m', run L0 true l m = Ok (Some m').
Proof.
  assert (ALL : forall (m0 : msg L0) k v, s_long L0 m0 k v <> None) by (cbn; discriminate).
  induction l as [|a l IH]; intros m ed N T G ED; [exists m; reflexivity|]. cbn [forallb] in T. apply Bool.andb_true_iff in T. destruct T as [T1 T2]. apply Bool.negb_true_iff in T1.
  assert (O : exists m1, run L0 true [a] m = Ok (Some m1)).
  { destruct (N a (or_introl eq_refl)) as (A1 & A2 & A3 & A4). destruct a as [k v|k v|k v|ti|v| | |]; try contradiction; cbn [run]; [eexists; reflexivity|eexists; reflexivity| | |eexists; reflexivity].
    { unfold set_double, traced. destruct v; eexists; reflexivity. }
    rewrite (A4 ti eq_refl). destruct (C55_accepted L0 m 2006 11 13 12 10 5 ed ALL G ED) as (m1 & E); [unfold two; lia..|]. exists m1. now rewrite E. }
  destruct O as (m1 & O). destruct (IH m1 ed) as (m2 & E2); [intros; apply N; now right|exact T2| |exact ED|].
  { rewrite (proj1 (act_keeps L0 (st_faithful [] samples) _ _ _ _ O T1)). exact G. }
  exists m2. cbn [run] in O |- *. destruct (match a with AL k v => _ | _ => _ end) as [[m3|]| | | |]; try discriminate. injection O as ->. exact E2.
Qed.
Lemma L0_absent k l : forall m m', existsb (String.eqb k) time_keys = false -> forallb (fun a => match a with AL k' _ => negb (String.eqb k k') | AOne k' _ => negb (String.eqb k k') | _ => true end) l = true ->
  run L0 true l m = Ok (Some m') -> g_long L0 m' k = g_long L0 m k.
Proof.
  intros m m' TK. revert m m'. induction l as [|a l IH]; intros m m' H E; [injection E as <-; reflexivity|]. cbn [forallb] in H. apply Bool.andb_true_iff in H. destruct H as [H1 H2]. apply run_cons in E. destruct E as (m1 & E1 & E2). rewrite (IH _ _ H2 E2). clear IH E2 m' H2.
  destruct a as [k' v|k' v|k' v|ti|v| | |]; try discriminate.
  - injection E1 as <-. cbn. apply Bool.negb_true_iff in H1. now rewrite H1.
  - injection E1 as <-. cbn. apply Bool.negb_true_iff in H1. now rewrite H1.
  - cbn [run] in E1. unfold set_double, traced in E1. destruct v; injection E1 as <-; reflexivity.
  - cbn in TK. repeat rewrite Bool.orb_false_iff in TK. destruct TK as (N1 & N2 & N3 & N4 & N5 & N6 & N7 & N8 & _).
    cbn [run] in E1. destruct (setTime L0 true m ti) as [[m2|]| | | |] eqn:E; try discriminate. injection E1 as ->. unfold setTime in E. destruct (get_long L0 true m "editionNumber") as [[ed|]| | | |]; try discriminate. destruct (scan_free ti) as [[|y [|mo [|d [|h [|mi [|s [|]]]]]]]|]; try discriminate. destruct (negb _); try discriminate.
    unfold set_long, set_long_unchecked, traced in E. destruct (ed =? 1); [|destruct (ed =? 2); [|discriminate]]; cbn in E; injection E as <-; cbn; rewrite ?N1, ?N2, ?N3, ?N4, ?N5, ?N6, ?N7, ?N8; reflexivity.
  - injection E1 as <-. reflexivity.
Qed.
Lemma near_int_ok z : int_fits z = true -> near_int (IZR z) = Ok z.
Proof. intros H. unfold near_int. rewrite ZnearestE_IZR. now rewrite H. Qed.
Lemma dx_of p : p = PIXELSIZE \/ p = PIXELSIZE_HRV -> exists dx, seviriDXFromPixelHSize p = Ok dx.
Proof.
  intros H. unfold seviriDXFromPixelHSize. destruct H as [->| ->].
  - rewrite near_within; [now exists 3622|]. rewrite Rminus_diag_eq by reflexivity. rewrite Rabs_R0. lra.
  - assert (H : (Rabs (PIXELSIZE_HRV - PIXELSIZE_HRV) <= 1 / 10000)%R) by (rewrite Rminus_diag_eq by reflexivity; rewrite Rabs_R0; lra).
    rewrite (far_within _ _ _ H) by (unfold PIXELSIZE, PIXELSIZE_HRV; rewrite Rabs_left; lra). unfold CFACFromPixelHSize. rewrite (far_within _ _ PIXELSIZE H), (far_within _ _ (- PIXELSIZE) H), (near_within _ _ H) by (unfold PIXELSIZE, PIXELSIZE_HRV; (rewrite Rabs_left by lra) || (rewrite Rabs_right by lra); lra).
    rewrite hrv_dx. now exists 10867.
Qed.
Lemma not_far a : far a a = false.
Proof. unfold far. destruct (Rlt_dec _ _) as [H|]; [|reflexivity]. rewrite Rminus_diag_eq, Rabs_R0 in H by reflexivity. lra. Qed.
Lemma nonzero_0 : nonzero 0 = false. Proof. unfold nonzero. destruct (Req_EM_T 0 0); [reflexivity|contradiction]. Qed.
Lemma near_int_bounded x : (-1000 <= x <= 11000)%R -> exists z, near_int x = Ok z.
Proof.
  intros B. unfold near_int. pose proof (Generic_fmt.Znearest_half (fun z => negb (Z.even z)) x) as H. change (Generic_fmt.Znearest (fun z => negb (Z.even z)) x) with (ZnearestE x) in H. apply Rabs_le_inv in H. assert (L1 : (IZR (-2000) < IZR (ZnearestE x))%R) by lra. assert (L2 : (IZR (ZnearestE x) < IZR 12000)%R) by lra. apply lt_IZR in L1, L2.
  exists (ZnearestE x). replace (int_fits _) with true by (unfold int_fits; lia). reflexivity.
Qed.
Lemma case_offset a p nd v : p = PIXELSIZE \/ p = PIXELSIZE_HRV -> exists off, 0 <= off <= 10000 /\ grid_offset (src_gt (case_at a p nd v)) = Some off.
Proof.
  intros H. unfold case_at, grid_offset. cbn [src_gt]. rewrite nonzero_0. destruct H as [->| ->].
  - exists 1856. split; [lia|]. rewrite !not_far. unfold far at 1. destruct (Rlt_dec _ _) as [|N]; [reflexivity|]. exfalso. apply N. unfold PIXELSIZE, PIXELSIZE_HRV. rewrite Rabs_right; lra.
  - exists 5568. split; [lia|]. now rewrite !not_far.
Qed.
Lemma case_grid a p nd v n lon : (-1000 <= a <= 1000)%R -> p = PIXELSIZE \/ p = PIXELSIZE_HRV -> exists off dx x0 y0, grid2 (case_at a p nd v) n lon =
  [AL "sourceOfGridDefinition" 0; AL "numberOfDataPoints" n; AL "interpretationOfNumberOfPoints" 0; AL "gridDefinitionTemplateNumber" 90; AL "shapeOfTheEarth" 2;
   AL "numberOfPointsAlongXAxis" 2; AL "numberOfPointsAlongYAxis" 1; AD "latitudeOfSubSatellitePointInDegrees" (Some 0%R); AD "longitudeOfSubSatellitePointInDegrees" (Some lon);
   AL "geography.dx" dx; AL "geography.dy" dx; AOne "geography.xo" x0; AOne "geography.yo" y0; AL "geography.dx" dx; AL "geography.dy" dx;
   AL "xCoordinateOfSubSatellitePoint" off; AL "yCoordinateOfSubSatellitePoint" off; AL "scanningMode" 0; AL "orientationOfTheGridInDegrees" 180; AL "Nr" 6610708; AL "Xo" x0; AL "Yo" y0].
Proof.
  intros AB H. destruct (case_offset a p nd v H) as (off & OB & GO). destruct (dx_of p H) as (dx & DX). destruct (near_int_bounded (IZR off + a)) as (x0 & X0); [apply (conj (Rle_refl 0)) in AB; assert (0 <= IZR off <= 10000)%R by (split; apply IZR_le; lia); lra|]. exists off, dx, x0, (off - 4). unfold grid2. rewrite GO. cbn [src_gt case_at src_xs src_ys]. rewrite Ropp_involutive, DX. cbn [with_int].
  assert (P0 : p <> 0%R) by (unfold PIXELSIZE, PIXELSIZE_HRV in H; destruct H; subst; lra).
  replace (IZR off + a * p / p)%R with (IZR off + a)%R by (field; exact P0). rewrite X0. replace (IZR off - 4 * p / p)%R with (IZR (off - 4)) by (rewrite minus_IZR; field; exact P0).
  rewrite !near_int_ok by (unfold int_fits; lia). reflexivity.
Qed.
Lemma case_product a p nd v ct : ct = codes "4" -> exists z, product2 (case_at a p nd v) (Some ct) =
  [AL "productDefinitionTemplateNumber" 31; AL "parameterCategory" 0; AL "parameterNumber" 0; AL "typeOfGeneratingProcess" 0; AL "generatingProcessIdentifier" 254; AL "NB" 1;
   AL "satelliteSeries" 333; AL "satelliteNumber" 57; AL "instrumentType" 207; AL "scaleFactorOfCentralWaveNumber" 0; AL "scaledValueOfCentralWaveNumber" z].
Proof.
  intros ->. unfold product2. cbn [src_sat case_at]. replace (strtol_md (codes "57")) with 57 by (vm_compute; reflexivity). replace (strtol_md (codes "4")) with 4 by (vm_compute; reflexivity). change (to_int 57) with 57. change (to_int 4) with 4.
  destruct (wave_number_back 57 4) as (q & Q & _); [unfold msg_sat; lia|lia|]. rewrite Q. exists (Qround q). reflexivity.
Qed.
Lemma case_create_at a p nd v : (-1000 <= a <= 1000)%R -> p = PIXELSIZE \/ p = PIXELSIZE_HRV -> v <> nd -> exists m, create L0 true WMO (case_at a p nd v) = Ok (Some m) /\ names_ok L0 WMO m.
Proof.
  intros AB H V. unfold create. change (src_srs (case_at a p nd v)) with (Some (true, 35785831%R, 9%R)). change (src_band (case_at a p nd v)) with (Some (Some (codes "4"), Some nd, Some 10%R, Some 2%R, Some (map Some [nd; v]))). cbn [negb traced]. replace (35785831 - 35785831)%R with 0%R by ring. rewrite nonzero_0. rewrite scale_values_reals. cbn [sample_of]. change (sample L0 "GRIB2") with (Some (([("editionNumber", 2)], @nil (string * R)), @nil num)).
  match goal with |- context [grid2 _ ?n ?lo] => destruct (case_grid a p nd v n lo AB H) as (off & dx & x0 & y0 & G) end. rewrite G. destruct (case_product a p nd v (codes "4") eq_refl) as (z & PR). rewrite PR.
  assert (C : Z.of_nat (List.length (filter (is_missing nd) [nd; v])) = 1) by (cbn [filter]; unfold is_missing; destruct (Req_EM_T nd nd); [|contradiction]; destruct (Req_EM_T v nd); [contradiction|reflexivity]). rewrite C.
  match goal with |- exists m, run L0 true ?l ?m0 = _ /\ _ => destruct (L0_run l m0 2) as (m & E) end; [| |reflexivity|now right|].
  - intros a0 I. cbn in I. repeat (destruct I as [<-|I]; [repeat split; try discriminate; intros t E; try discriminate; injection E as <-; reflexivity|]). contradiction.
  - reflexivity.
  - exists m. split; [exact E|]. assert (K : forall k l m m', existsb (String.eqb k) time_keys = false -> run L0 true l m = Ok (Some m') -> forallb (fun a => match a with AL k' _ => negb (String.eqb k k') | AOne k' _ => negb (String.eqb k k') | _ => true end) l = true -> g_long L0 m' k = g_long L0 m k) by (intros; eapply L0_absent; eassumption). split; [rewrite (K "channelNumber" _ _ _ eq_refl E eq_refl)|rewrite (K "level" _ _ _ eq_refl E eq_refl)]; reflexivity.
Qed.
Lemma case_source_at a p nd v : source_at (case_at a p nd v) (codes "57") (codes "4") 2006 11 13 12 10 5 p p a (IZR 4).
Proof.
  constructor; [reflexivity|reflexivity|reflexivity|lia|unfold two; lia..| | |reflexivity].
  - split; [reflexivity|]. split; [split; [discriminate|apply Forall_forall; intros c I; cbn in I; lia]|]. right. right. left. vm_compute. reflexivity.
  - split; [do 4 eexists; reflexivity|]. split; [split; [discriminate|apply Forall_forall; intros c I; cbn in I; lia]|]. replace (decimal (codes "4")) with 4 by (vm_compute; reflexivity). lia.
Qed.
Lemma case_create p nd v : p = PIXELSIZE \/ p = PIXELSIZE_HRV -> v <> nd -> exists m, create L0 true WMO (case_src p nd v) = Ok (Some m) /\ names_ok L0 WMO m.
Proof. apply case_create_at. lra. Qed.
Lemma case_source p nd v : source (case_src p nd v) (codes "57") (codes "4") 2006 11 13 12 10 5 p p (-3) 4.
Proof. apply case_source_at. Qed.
(** A corner in the middle of a pixel. *)
Example C112_corner_case nd v : v <> nd -> faithful L0 /\ source_at (case_at (1 / 2) PIXELSIZE nd v) (codes "57") (codes "4") 2006 11 13 12 10 5 PIXELSIZE PIXELSIZE (1 / 2) (IZR 4) /\ (forall k, (1 / 2)%R <> IZR k) /\
  exists m, create L0 true WMO (case_at (1 / 2) PIXELSIZE nd v) = Ok (Some m) /\ names_ok L0 WMO m.
Proof.
  intros V. split; [apply st_faithful|]. split; [apply case_source_at|]. split; [|apply case_create_at; [lra|now left|exact V]].
  intros k E. assert (A : (0 < IZR k)%R) by lra. assert (B : (IZR k < 1)%R) by lra. apply (lt_IZR 0) in A. apply (lt_IZR k 1) in B. lia.
Qed.
(** The hypotheses of the statements hold: a copy is made, for both sizes of pixels. *)
Example C112_case p nd v : p = PIXELSIZE \/ p = PIXELSIZE_HRV -> v <> nd -> faithful L0 /\ packing L0 eq /\ (forall m0 v, s_long L0 m0 "second" v <> None) /\ (forall m0 v, s_double L0 m0 "missingValue" v <> None) /\
  source (case_src p nd v) (codes "57") (codes "4") 2006 11 13 12 10 5 p p (-3) 4 /\ exists m, create L0 true WMO (case_src p nd v) = Ok (Some m) /\ names_ok L0 WMO m.
Proof.
  intros H V. split; [apply st_faithful|]. split; [exact case_packing|]. split; [cbn; discriminate|]. split; [intros m0 w; cbn; destruct w; discriminate|]. split; [apply case_source|apply case_create; assumption].
Qed.
End Case.

(** ** C115 *)
(** Reading a message whose channel is told by its wave number, of a satellite or
    with a wave number that is not known, throws out of the open function. *)
Theorem C115_refuted_open L m xs ys text sat lon sc v : get_long L true m "numberOfPointsAlongXAxis" = Ok (Some xs) -> get_long L true m "numberOfPointsAlongYAxis" = Ok (Some ys) -> formatTime L true m = Ok (Some text) ->
  get_long_oneof L true m ["satelliteNumber"; "satelliteIdentifier"; "indicatorOfTypeOfLevel"] = Ok (Some sat) -> get_double_oneof L true m ["longitudeOfSubSatellitePointInDegrees"; "geography.lop"] = Ok (Some lon) ->
  g_long L m "channelNumber" = NotFound -> g_long L m "level" = NotFound -> g_long L m "scaleFactorOfCentralWaveNumber" = Got sc -> g_long L m "scaledValueOfCentralWaveNumber" = Got v ->
  ~ msg_sat (to_int sat) -> GRIBOpen L true (Some m) = Throw.
Proof.
  intros X Y T S1 D C LV SF SV NS. unfold GRIBOpen, traced, init. rewrite X, Y, T, S1, D. unfold band_channel, get_long_ifexists, get_long, traced. rewrite C, LV, SF, SV.
  unfold msg_sat in NS. unfold channel_from_central_wave_number. replace (seviri (to_int sat)) with false by (unfold seviri; cbn; lia). reflexivity.
Qed.
Print Assumptions C115_refuted_open.
(** Values that cannot be read, or are too many, throw out of the read function. *)
Theorem C115_refuted_values L ds : int_fits (gd_xs L ds * gd_ys L ds) = true -> (forall l, g_values L (gd_msg L ds) = Got l -> gd_xs L ds * gd_ys L ds < Z.of_nat (List.length l)) -> IReadBlock L true ds 0 0 = Throw.
Proof. intros F H. unfold IReadBlock. cbn. rewrite F. cbn. destruct (g_values L (gd_msg L ds)) as [l| |] eqn:G; [|reflexivity|reflexivity]. replace (_ <? _) with true by (specialize (H l eq_refl); lia). reflexivity. Qed.
Print Assumptions C115_refuted_values.
(** Only the block 0, 0 can be read; a wrong count of values is an error. *)
Theorem C115_read_refused L ds x y : (x <> 0 \/ y <> 0 -> IReadBlock L true ds x y = Ok None) /\
  (forall l, int_fits (gd_xs L ds * gd_ys L ds) = true -> g_values L (gd_msg L ds) = Got l -> Z.of_nat (List.length l) < gd_xs L ds * gd_ys L ds -> IReadBlock L true ds 0 0 = Ok None).
Proof.
  split.
  - intros H. unfold IReadBlock. now replace (negb ((x =? 0) && (y =? 0))) with true by lia.
  - intros l F G H. unfold IReadBlock. cbn. rewrite F, G. cbn. replace (_ <? _) with false by lia. now replace (_ =? _) with false by lia.
Qed.
Print Assumptions C115_read_refused.
(** A source with another channel, in a GRIB2 copy, or one without reference system
    or bands. *)
Theorem C115_refuted_sources L old w s : (src_srs s = None -> forall t, create L true t s = UB) /\
  (forall h lo t, src_srs s = Some (true, h, lo) -> h = 35785831%R -> src_band s = None -> create L true t s = UB) /\
  (forall templ, template_of templ = None -> GRIBCreateCopy L true old w templ s = Ok None).
Proof.
  split; [|split].
  - intros E t. unfold create. now rewrite E.
  - intros h lo t E -> B. unfold create, traced. rewrite E, B. cbn [negb]. replace (35785831 - 35785831)%R with 0%R by ring. now rewrite nonzero_0.
  - intros templ T. unfold GRIBCreateCopy. now rewrite T.
Qed.
Print Assumptions C115_refuted_sources.

(** ** C116 *)
(** A copy that could not be written is reported as made when a GRIB file of this
    name was there before: what is returned is the old image. *)
Theorem C116_refuted_old_file L templ t s m old : template_of templ = Some t -> create L true t s = Ok (Some m) ->
  GRIBCreateCopy L true old (NotEncoded L) templ s = GRIBOpen L true old /\ GRIBCreateCopy L true old (NotOpened L) templ s = GRIBOpen L true old /\
  forall rest, GRIBCreateCopy L true old (Short L rest) templ s = GRIBOpen L true rest.
Proof. intros T C. unfold GRIBCreateCopy. rewrite T, C. repeat split. Qed.
Print Assumptions C116_refuted_old_file.
(** Written, what is returned is the copy; refused, nothing is written. *)
Theorem C116_written L templ t s old w : template_of templ = Some t ->
  (forall m, create L true t s = Ok (Some m) -> GRIBCreateCopy L true old (Written L) templ s = GRIBOpen L true (Some m)) /\
  (create L true t s = Ok None -> GRIBCreateCopy L true old w templ s = Ok None).
Proof. intros T. split; [intros m C|intros C]; unfold GRIBCreateCopy; rewrite T, C; reflexivity. Qed.
Print Assumptions C116_written.
(** The templates by the names users give them; without a name it is the one of WMO. *)
Theorem C116_templates : template_of None = Some WMO /\
  forall n t, template_of (Some n) = Some t <-> In (n, t) [(codes "msat/wmo", WMO); (codes "msat/ecmwf", ECMWF); (codes "msat/msat", MSAT)].
Proof.
  split; [reflexivity|]. intros n t. unfold template_of. cbn [In].
  destruct (str_eqb n (codes "msat/wmo")) eqn:E1; [apply str_eqb_eq in E1; subst n|].
  { split; [intros [= <-]; now left|]. intros [H | [H | [H | []]]]; [congruence|discriminate H|discriminate H]. }
  destruct (str_eqb n (codes "msat/ecmwf")) eqn:E2; [apply str_eqb_eq in E2; subst n|].
  { split; [intros [= <-]; right; now left|]. intros [H | [H | [H | []]]]; [discriminate H|congruence|discriminate H]. }
  destruct (str_eqb n (codes "msat/msat")) eqn:E3; [apply str_eqb_eq in E3; subst n|].
  { split; [intros [= <-]; right; right; now left|]. intros [H | [H | [H | []]]]; [discriminate H|discriminate H|congruence]. }
  split; [discriminate|]. intros [H | [H | [H | []]]]; injection H as <- _; [rewrite (proj2 (str_eqb_eq _ _) eq_refl) in E1|rewrite (proj2 (str_eqb_eq _ _) eq_refl) in E2|rewrite (proj2 (str_eqb_eq _ _) eq_refl) in E3]; discriminate.
Qed.
Print Assumptions C116_templates.
(** The old file of a case: another satellite, returned as the copy. *)
Example C116_case p nd v : p = PIXELSIZE \/ p = PIXELSIZE_HRV -> v <> nd ->
  exists m old ds, create L0 true WMO (case_src p nd v) = Ok (Some m) /\ GRIBCreateCopy L0 true (Some old) (NotOpened L0) None (case_src p nd v) = Ok (Some ds) /\ gd_sat L0 ds = 55.
Proof.
  intros H V. destruct (case_create p nd v H V) as (m & C & _). exists m, ([("editionNumber", 2); ("numberOfPointsAlongXAxis", 1); ("numberOfPointsAlongYAxis", 1); ("year", 2000); ("month", 1); ("day", 1); ("hour", 0); ("minute", 0); ("second", 0); ("satelliteNumber", 55); ("channelNumber", 3)], [("longitudeOfSubSatellitePointInDegrees", 0%R)], []).
  eexists. split; [exact C|]. unfold GRIBCreateCopy. cbn [template_of]. rewrite C. split; reflexivity.
Qed.
(** A message of Meteosat 7, and one with a value too many. *)
Example C115_case : GRIBOpen L0 true (Some ([("editionNumber", 2); ("numberOfPointsAlongXAxis", 1); ("numberOfPointsAlongYAxis", 1); ("year", 2000); ("month", 1); ("day", 1); ("hour", 0); ("minute", 0); ("second", 0); ("satelliteNumber", 54); ("scaleFactorOfCentralWaveNumber", 0); ("scaledValueOfCentralWaveNumber", 92593)], [("longitudeOfSubSatellitePointInDegrees", 0%R)], [])) = Throw.
Proof. eapply C115_refuted_open; try reflexivity. vm_compute. intuition discriminate. Qed.
Example C115_values_case a b : IReadBlock L0 true (mk_gds L0 ([], [], [Some a; Some b]) 1 1 [] 55 0%R 1 None) 0 0 = Throw.
Proof. apply C115_refuted_values; [reflexivity|]. intros l E. injection E as <-. reflexivity. Qed.
