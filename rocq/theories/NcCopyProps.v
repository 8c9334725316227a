(** C117 and C119: what is read from the NetCDF copies of an image. *)
From Coq Require Import ZArith Reals String List Lia Lra.
From Flocq Require Import Core.
From Verif Require Import Base BaseFacts IniModel IniProofs FactsModel FactsSpec GeoModel GeoProps ScanModel ToolModel ToolRunProps SunModel PixModel PixProps StretchFloat GribHrv GribModel GribProps GribCopyProps GribReadProps NcModel NcProps.
Import ListNotations.
Open Scope string_scope.
Open Scope list_scope.
Open Scope Z_scope.

(** ** Bands *)
(** A band that a copy can hold: a supported type, a no-data value that the signed
    type of the same width has, a name that the library accepts, readable pixels and
    a channel that is a number. *)
Definition good_band (valid : str -> bool) (b : nband) : Prop :=
  valid (b_name b) = true /\ value_of (b_type b) (b_nodata b) /\ low_half (b_type b) (b_nodata b) /\ (exists pix, b_pix b = Some pix) /\
  match b_chan b with Some c => all_digits c /\ decimal c < 2 ^ 31 | None => True end.
(** What is read from a band that has been copied. *)
Definition reads_as (xs ys : Z) (b : nband) (r : ncband) : Prop :=
  v_name (r_var r) = b_name b /\ r_type r = b_type b /\ r_chan r = (match b_chan b with Some c => decimal c | None => 0 end) /\
  r_offset r = b_offset b /\ band_scale (r_var r) = b_scale b /\ GetNoDataValue (r_var r) (r_chan r) = b_nodata b /\
  r_bx r = xs /\ r_by r = ys /\ b_pix b = Some (v_data (r_var r)).

Lemma fill_back b t u : target_type (b_type b) = Some (t, u) -> value_of (b_type b) (b_nodata b) -> low_half (b_type b) (b_nodata b) ->
  exists fv, fill_attr t (b_nodata b) = Ok fv /\ forall v ch, v_type v = t -> is_true (get_att (v_attrs v) "_Unsigned") = u -> get_att (v_attrs v) "_FillValue" = Some fv -> GetNoDataValue v ch = b_nodata b.
Proof.
  intros T VO LH. destruct b as [nm ty off sc nd chn pix]; cbn [b_type b_nodata] in *. destruct ty; try discriminate; injection T as <- <-; cbn in VO, LH; cbn [fill_attr].
  1, 3, 5: destruct VO as (z & -> & Z1); destruct LH as (z' & Q & Z2); injection Q as Q; apply eq_IZR in Q; subst z'.
  4, 5: destruct VO as (z & -> & Z1).
  1: rewrite (signed_ok 8 z) by lia. 2: rewrite (signed_ok 16 z) by lia. 3: rewrite (signed_ok 32 z) by lia. 4: rewrite (signed_ok 16 z) by lia. 5: rewrite (signed_ok 32 z) by lia.
  6: destruct nd as [r|]; [rewrite (float_back r VO)|].
  all: eexists; (split; [reflexivity|]); intros v ch TV UV FV; unfold GetNoDataValue; rewrite FV, UV, ?TV; cbn [as_byte as_short as_int as_double]; try reflexivity; rewrite Z.mod_small by lia; reflexivity.
Qed.
Definition chan_attrs (keys : list string) (b : nband) : list (string * attr) := match b_chan b with Some c => map (fun k => (k, AInt (strtoul_int c))) keys | None => [] end.
Definition stored (keys : list string) (xs ys : Z) (b : nband) (v : ncvar) : Prop :=
  exists t u fv pix, target_type (b_type b) = Some (t, u) /\ fill_attr t (b_nodata b) = Ok fv /\ b_pix b = Some pix /\
  v = mk_ncvar (b_name b) t [1; ys; xs] (([("add_offset", ADouble (b_offset b)); ("scale_factor", ADouble (b_scale b))] ++ (if u then [("_Unsigned", AText (codes "true"))] else []) ++ [("_FillValue", fv)]) ++ chan_attrs keys b) pix.
Lemma target_good valid b : good_band valid b -> exists t u, target_type (b_type b) = Some (t, u).
Proof. intros (_ & V & _). destruct (b_type b); cbn in V; try contradiction; cbn; eauto. Qed.
Lemma add_last_app vars v l : add_last (vars ++ [v]) l = vars ++ [mk_ncvar (v_name v) (v_type v) (v_dims v) (v_attrs v ++ l) (v_data v)].
Proof. unfold add_last. rewrite rev_app_distr. cbn [rev app]. now rewrite rev_involutive. Qed.
Lemma has_var_app vars v n : has_var (vars ++ [v]) n = (has_var vars n || str_eqb (v_name v) n)%bool.
Proof. unfold has_var. rewrite existsb_app. cbn. now rewrite Bool.orb_false_r. Qed.
Lemma write_bands_good valid keys xs ys bs : Forall (good_band valid) bs -> NoDup (map b_name bs) -> forall vars, (forall b, In b bs -> has_var vars (b_name b) = false) ->
  exists vs, write_bands valid keys bs xs ys vars = Ok (vars ++ vs) /\ Forall2 (stored keys xs ys) bs vs.
Proof.
  induction bs as [|b bs IH]; intros G N vars H; [exists []; split; [now rewrite app_nil_r|constructor]|].
  inversion G as [|? ? G1 G2]; subst. inversion N as [|? ? N1 N2]; subst. destruct (target_good _ _ G1) as (t & u & T). pose proof G1 as (V & VO & LH & (pix & P) & C). destruct (fill_back _ _ _ T VO LH) as (fv & F & _).
  assert (W : exists v, stored keys xs ys b v /\ write_bands valid keys (b :: bs) xs ys vars = write_bands valid keys bs xs ys (vars ++ [v])).
  { cbn [write_bands]. unfold rasterBandToNcVar. rewrite T, V, (H b (or_introl eq_refl)), F. cbn [negb orb bind]. rewrite P. cbn [bind]. destruct (b_chan b) as [c|] eqn:BC.
    - rewrite add_last_app. eexists. split; [|reflexivity]. exists t, u, fv, pix. repeat (split; [assumption|]). cbn [v_name v_type v_dims v_attrs v_data]. unfold chan_attrs. now rewrite BC.
    - eexists. split; [|reflexivity]. exists t, u, fv, pix. repeat (split; [assumption|]). unfold chan_attrs. now rewrite BC, app_nil_r. }
  destruct W as (v & ST & ->). assert (VN : v_name v = b_name b) by (destruct ST as (? & ? & ? & ? & _ & _ & _ & ->); reflexivity).
  destruct (IH G2 N2 (vars ++ [v])) as (vs & E & F2).
  { intros b' I. rewrite has_var_app, (H b' (or_intror I)), VN. cbn [orb]. destruct (str_eqb_spec (b_name b) (b_name b')) as [X|]; [|reflexivity]. exfalso. apply N1. rewrite X. now apply in_map. }
  exists (v :: vs). split; [rewrite E, <- app_assoc; reflexivity|now constructor].
Qed.
Lemma strtoul_int_decimal c : all_digits c -> decimal c < 2 ^ 31 -> strtoul_int c = decimal c.
Proof.
  intros A B. unfold strtoul_int. rewrite strtoul_digits by exact A. cbn [fst]. pose proof (decimal_nonneg _ (proj2 A)). replace (2 ^ 64 <=? decimal c) with false by lia. apply to_int_fits. unfold int_fits. lia.
Qed.
Lemma stored_reads valid keys key xs ys bug b v : good_band valid b -> stored keys xs ys b v -> 0 <= xs < 2 ^ 31 -> 0 <= ys < 2 ^ 31 -> bug = false -> (keys = ["chnum"] /\ key = "chnum" \/ keys = ["L1"; "channel"] /\ key = "L1") ->
  reads_as xs ys b (read_band key bug v) /\ v_dims v = [1; ys; xs] /\ v_name v = b_name b.
Proof.
  intros (V & VO & LH & _ & C) (t & u & fv & pix & T & F & P & ->) X Y -> K. destruct (fill_back _ _ _ T VO LH) as (fv' & F' & B). rewrite F in F'. injection F' as <-.
  assert (XI : to_int xs = xs) by (apply to_int_fits; unfold int_fits; lia). assert (YI : to_int ys = ys) by (apply to_int_fits; unfold int_fits; lia).
  set (att := (([("add_offset", ADouble (b_offset b)); ("scale_factor", ADouble (b_scale b))] ++ (if u then [("_Unsigned", AText (codes "true"))] else []) ++ [("_FillValue", fv)]) ++ chan_attrs keys b)).
  assert (A1 : get_att att "add_offset" = Some (ADouble (b_offset b))) by reflexivity. assert (A2 : get_att att "scale_factor" = Some (ADouble (b_scale b))) by reflexivity.
  assert (A3 : is_true (get_att att "_Unsigned") = u) by (subst att; unfold chan_attrs; destruct u; [reflexivity|]; destruct (b_chan b); [|reflexivity]; destruct K as [[-> _]|[-> _]]; reflexivity).
  assert (A4 : get_att att "_FillValue" = Some fv) by (subst att; destruct u; reflexivity).
  assert (A5 : match get_att att key with Some a => as_int a | None => 0 end = match b_chan b with Some c => decimal c | None => 0 end).
  { subst att. unfold chan_attrs. destruct (b_chan b) as [c|].
    - destruct C as [C1 C2]. destruct K as [[-> ->]|[-> ->]]; destruct u; cbn [app get_att String.eqb Ascii.eqb Bool.eqb map as_int]; now apply strtoul_int_decimal.
    - destruct K as [[-> ->]|[-> ->]]; destruct u; reflexivity. }
  clearbody att. split; [|split; reflexivity]. unfold reads_as, read_band, dim. cbn [v_name v_type v_dims v_attrs v_data r_var r_type r_chan r_offset r_bx r_by nth andb]. unfold band_offset, band_scale. cbn [v_attrs]. rewrite A1, A2, A3, A5, XI, YI. cbn [as_double].
  repeat split; try assumption.
  - destruct (b_type b); try discriminate; injection T as <- <-; reflexivity.
  - apply B; cbn [v_type v_attrs]; [reflexivity|exact A3|exact A4].
Qed.

(** ** Times *)
Lemma scan_iso_text y mo d h mi s r : 0 <= y <= 9999 -> two mo -> two d -> two h -> two mi -> two s -> scan_iso (iso_text y mo d h mi s ++ 32 :: r) = Some [y; mo; d; h; mi; s].
Proof.
  intros Y M D H MI S0. unfold scan_iso, iso_format, iso_text. rewrite <- !app_assoc. cbn [scan_fields].
  rewrite (scan_int_digits _ (dddd y)); [|cbn; lia|discriminate|now apply dddd_digits|cbn; lia]. cbn [app]. rewrite scan_char_other by lia.
  rewrite (scan_int_digits _ (dd mo)); [|cbn; lia|discriminate|now apply dd_digits|cbn; lia]. cbn [app]. rewrite scan_char_other by lia.
  rewrite (scan_int_digits _ (dd d)); [|cbn; lia|discriminate|now apply dd_digits|cbn; lia]. cbn [app]. rewrite scan_char_space, strskp_dd by assumption.
  rewrite (scan_int_digits _ (dd h)); [|cbn; lia|discriminate|now apply dd_digits|cbn; lia]. cbn [app]. rewrite scan_char_other by lia.
  rewrite (scan_int_digits _ (dd mi)); [|cbn; lia|discriminate|now apply dd_digits|cbn; lia]. cbn [app]. rewrite scan_char_other by lia.
  rewrite (scan_int_digits _ (dd s)); [|cbn; lia|discriminate|now apply dd_digits|cbn; lia].
  rewrite (proj2 (dddd_digits y Y)), (proj2 (dd_digits mo M)), (proj2 (dd_digits d D)), (proj2 (dd_digits h H)), (proj2 (dd_digits mi MI)), (proj2 (dd_digits s S0)). reflexivity.
Qed.
Lemma time_text_iso y mo d h mi s : 0 <= y <= 9999 -> two mo -> two d -> two h -> two mi -> two s -> time_text [y; mo; d; h; mi; s] = iso_text y mo d h mi s.
Proof. intros Y M D H MI S0. unfold time_text. rewrite zpad4, !zpad2 by assumption. reflexivity. Qed.

(** ** Pixel sizes *)
(** A nominal pixel size near another. *)
Definition nominal (p q : R) : Prop := (q = PIXELSIZE \/ q = PIXELSIZE_HRV) /\ (Rabs (p - q) < 1 / 1000)%R.
Definition factor (q : R) : Z := if Rlt_dec 2000 q then 13642337 else 40927000.
Lemma within_other a b c : (Rabs (a - b) < 1 / 1000)%R -> (1 < Rabs (b - c))%R -> within a c = false.
Proof. intros H D. unfold within. destruct (Rlt_dec _ _) as [N|]; [|reflexivity]. exfalso. assert (Rabs (b - c) <= Rabs (a - b) + Rabs (a - c))%R by (rewrite <- (Rabs_Ropp (a - b)); replace (b - c)%R with (- (a - b) + (a - c))%R by ring; apply Rabs_triang). lra. Qed.
Lemma within_near a b : (Rabs (a - b) < 1 / 1000)%R -> within a b = true.
Proof. intros H. unfold within. destruct (Rlt_dec _ _); [reflexivity|contradiction]. Qed.
Lemma nominal_factor p q : nominal p q -> (CFACFromPixelHSize p * 65536 = IZR (factor q))%R /\ pixelHSizeFromCFAC (IZR (factor q) / 65536) = Ok q.
Proof.
  intros [Q H]. unfold factor. destruct Q as [-> | ->].
  - destruct (Rlt_dec 2000 PIXELSIZE) as [_|N]; [|exfalso; apply N; unfold PIXELSIZE; lra]. split.
    + unfold CFACFromPixelHSize. rewrite within_near by exact H. field.
    + unfold pixelHSizeFromCFAC. replace (IZR 13642337 / 65536 * 65536)%R with (IZR 13642337) by field. rewrite int_of_int by lia. reflexivity.
  - destruct (Rlt_dec 2000 PIXELSIZE_HRV) as [N|_]; [exfalso; unfold PIXELSIZE_HRV in N; lra|]. split.
    + unfold CFACFromPixelHSize. rewrite (within_other _ _ PIXELSIZE H), (within_other _ _ (- PIXELSIZE) H), within_near by (exact H || (unfold PIXELSIZE, PIXELSIZE_HRV; (rewrite Rabs_left by lra) || (rewrite Rabs_right by lra); lra)). field.
    + unfold pixelHSizeFromCFAC. replace (IZR 40927000 / 65536 * 65536)%R with (IZR 40927000) by field. rewrite int_of_int by lia. reflexivity.
Qed.
Lemma nominal_pos p q : nominal p q -> (0 < p)%R.
Proof. intros [[-> | ->] H]; apply Rabs_def2 in H; unfold PIXELSIZE, PIXELSIZE_HRV in H; lra. Qed.

(** ** C117 *)
(** Images of the geostationary projection, north up, with whole pixels between
    their corner and the sub-satellite point, nominal pixel sizes, the name of a known
    satellite and bands with different names. *)
Record nc_source (valid : str -> bool) (s : nsrc) (name : string) (id : Z) (y mo d h mi sec : Z) (lon px qx py qy : R) (kx ky : Z) : Prop := {
  so_srs : n_srs s = Some (Geos 35785831 lon);
  so_geo : n_gt s = Some (IZR kx * px, px, 0, IZR ky * py, 0, - py)%R;
  so_px : nominal px qx; so_py : nominal py qy;
  so_kx : - 2 ^ 30 <= kx <= 2 ^ 30; so_ky : - 2 ^ 30 <= ky <= 2 ^ 30;
  so_size : 0 < n_xs s < 2 ^ 31 /\ 0 < n_ys s < 2 ^ 31;
  so_when : n_time s = Some (iso_text y mo d h mi sec);
  so_y : 0 <= y <= 9999; so_m : two mo; so_day : two d; so_hour : two h; so_minute : two mi; so_second : two sec;
  so_name : n_sat s = Some (codes name); so_named : In (name, id) named;
  so_good : Forall (good_band valid) (n_bands s); so_names : NoDup (map b_name (n_bands s)) }.
Lemma forecast_ok y mo d h mi s : 0 <= y <= 9999 -> two mo -> two d -> two h -> two mi -> two s -> exists t, forecastSeconds2000 (iso_text y mo d h mi s) = Ok t.
Proof.
  intros Y M D H MI S0. unfold forecastSeconds2000. rewrite scan_free_iso by assumption. replace (forallb int_fits _) with true by (symmetry; unfold two in *; cbn [forallb]; unfold int_fits; lia). eexists. reflexivity.
Qed.
Lemma area_offset_cases p : area_offset p = 3712 \/ area_offset p = 1856.
Proof. unfold area_offset. destruct (Rlt_dec _ _); auto. Qed.
Lemma area_ok lon kx px ky py : (px <> 0)%R -> (py <> 0)%R -> - 2 ^ 30 <= kx <= 2 ^ 30 -> - 2 ^ 30 <= ky <= 2 ^ 30 ->
  area 35785831 lon (IZR kx * px, px, 0, IZR ky * py, 0, - py)%R =
  Ok (Some [("Longitude", AFloat (to_float (Some lon)));
            ("Column_Scale_Factor", ADouble (Some (CFACFromPixelHSize px * 65536)%R));
            ("Line_Scale_Factor", ADouble (Some (CFACFromPixelHSize py * 65536)%R));
            ("AreaStartPix", AInt (area_offset px + kx + 1)); ("AreaStartLin", AInt (area_offset py - ky + 1));
            ("SampleX", ADouble (Some 1%R)); ("SampleY", ADouble (Some 1%R)); ("Column_Offset", AInt (area_offset px)); ("Line_Offset", AInt (area_offset py))]).
Proof.
  intros NX NY BX BY. unfold area. replace (35785831 - 35785831)%R with 0%R by ring. rewrite nonzero_0. rewrite Ropp_involutive. pose proof (area_offset_cases px) as CX. pose proof (area_offset_cases py) as CY.
  replace (IZR (area_offset px) + IZR kx * px / px)%R with (IZR (area_offset px + kx)) by (rewrite plus_IZR; field; exact NX). replace (IZR (area_offset py) - IZR ky * py / py)%R with (IZR (area_offset py - ky)) by (rewrite minus_IZR; field; exact NY).
  rewrite !near_int_ok by (unfold int_fits; lia). cbn [bind]. replace (int_fits (area_offset px + kx + 1) && int_fits (area_offset py - ky + 1))%bool with true by (unfold int_fits; lia). reflexivity.
Qed.
Lemma as_int_factor z : - 2 ^ 31 <= z < 2 ^ 31 -> as_int (ADouble (Some (IZR z))) = z.
Proof. intros H. unfold as_int, cast. rewrite Ztrunc_IZR. now replace ((- 2 ^ 31 <=? z) && (z <=? 2 ^ 31 - 1))%bool with true by lia. Qed.
Lemma float_one_1 : float_one (Some (ADouble (Some 1%R))) = true.
Proof.
  unfold float_one, as_float, as_double, num_is_one. rewrite float_back; [destruct (Req_EM_T 1 1); [reflexivity|contradiction]|]. unfold float. apply (generic_format_FLX_1 radix2 24 1%R) || (apply generic_format_FLX; exists (Float radix2 1 0); [unfold F2R; cbn; lra|cbn; lia]).
Qed.
Lemma named_text name id : In (name, id) named -> codes name <> [] /\ spacecraftID (string_of (codes name)) = id.
Proof. intros I. assert (A : forallb (fun p => negb (Nat.eqb (List.length (codes (fst p))) 0) && (spacecraftID (string_of (codes (fst p))) =? snd p)) named = true) by (vm_compute; reflexivity). rewrite forallb_forall in A. specialize (A _ I). cbn [fst snd] in A. destruct (codes name); [discriminate|]. split; [discriminate|lia]. Qed.
Lemma filter_bands skip xs ys vs : (forall v, In v vs -> v_dims v = [1; ys; xs] /\ existsb (fun k => str_eqb (v_name v) (codes k)) skip = false) -> filter (is_band skip) vs = vs.
Proof.
  induction vs as [|v vs IH]; intros H; [reflexivity|]. cbn [filter]. destruct (H v (or_introl eq_refl)) as [D N]. unfold is_band at 1. rewrite N, D. cbn [negb andb]. now rewrite IH by (intros w I; apply H; now right).
Qed.
(** Longitudes are kept with the precision of a float. *)
Definition rounded (x y : R) : Prop := (Rabs (y - x) <= Rabs x / 2 ^ 24)%R /\ (float x -> y = x).
Lemma rounded_rnd x : rounded x (StretchFloat.rnd x).
Proof.
  split; [|apply rnd_float]. destruct (rnd_err x) as (e & E & ->). replace (x * (1 + e) - x)%R with (e * x)%R by ring. rewrite Rabs_mult. pose proof (Rabs_pos x). unfold Rdiv. rewrite (Rmult_comm (Rabs x)). now apply Rmult_le_compat_r.
Qed.
Theorem C117_copy_partial valid nt s name id y mo d h mi sec lon px qx py qy kx ky : nc_source valid s name id y mo d h mi sec lon px qx py qy kx ky -> ~ In (codes "time") (map b_name (n_bands s)) ->
  exists f ds l, write_nc valid s = Ok (Some f) /\ open_nc nt f = Some ds /\ d_sat ds = Some (codes name) /\ d_satid ds = id /\ d_time ds = iso_text y mo d h mi sec /\ d_lon ds = Some (Some l) /\ rounded lon l /\
    (n_bands s <> [] -> d_size ds = Some (n_xs s, n_ys s)) /\ Forall2 (reads_as (n_xs s) (n_ys s)) (n_bands s) (d_bands ds) /\ gt_nc f = Ok (Some (IZR kx * qx, qx, IZR ky * qy, - qy)%R).
Proof.
  intros [SRS GEO PX PY KX KY [XS YS] WH Y M D H MI SE NA ND GO NN] NT. unfold write_nc. rewrite SRS, WH, NA, GEO. destruct (forecast_ok y mo d h mi sec Y M D H MI SE) as (t & ->). cbn [bind]. pose proof (nominal_pos _ _ PX). pose proof (nominal_pos _ _ PY). rewrite area_ok by (lra || lia). cbn [bind].
  destruct (write_bands_good valid ["chnum"] (n_xs s) (n_ys s) (n_bands s) GO NN ([] ++ [time_var t])) as (vs & -> & ST).
  { intros b I. cbn [app has_var existsb time_var v_name orb]. rewrite Bool.orb_false_r. destruct (str_eqb_spec (codes "time") (b_name b)) as [E|]; [|reflexivity]. exfalso. apply NT. rewrite E. now apply in_map. }
  cbn [bind]. eexists. assert (SR : Forall2 (fun b v => reads_as (n_xs s) (n_ys s) b (read_band "chnum" false v) /\ v_dims v = [1; n_ys s; n_xs s] /\ v_name v = b_name b) (n_bands s) vs).
  { clear NN NT. revert GO. induction ST as [|b v bs vs' S1 S2 IH]; intros GO; constructor; inversion GO; subst; [|now apply IH]. eapply stored_reads; eauto; lia. }
  assert (FB : filter (is_band ["time"]) vs = vs).
  { apply (filter_bands _ (n_xs s) (n_ys s)). intros v I. assert (exists b, In b (n_bands s) /\ v_dims v = [1; n_ys s; n_xs s] /\ v_name v = b_name b) as (b & IB & VD & VN).
    { clear - SR I. induction SR as [|b v0 bs vs' S1 S2 IH]; [contradiction|]. destruct I as [->|I]; [exists b; split; [now left|tauto]|]. destruct (IH I) as (b' & ? & ?). exists b'. split; [now right|assumption]. }
    split; [exact VD|]. cbn [existsb orb]. rewrite VN, Bool.orb_false_r. destruct (str_eqb_spec (b_name b) (codes "time")) as [E|]; [|reflexivity]. exfalso. apply NT. rewrite <- E. now apply in_map. }
  assert (FA : filter (is_band ["time"]) ([] ++ [time_var t] ++ vs) = vs) by (cbn [app filter]; change (is_band ["time"] (time_var t)) with false; exact FB).
  destruct (named_text _ _ ND) as [NE SID].
  eexists. exists (StretchFloat.rnd lon). split; [reflexivity|]. unfold open_nc. cbn [f_attrs f_vars app get_att String.eqb Ascii.eqb Bool.eqb]. rewrite float_one_1. cbn [negb]. unfold attr_text. cbn [get_att String.eqb Ascii.eqb Bool.eqb as_text]. 
  change (codes " UTC") with (32 :: codes "UTC"). rewrite scan_iso_text by assumption. change (str_eqb (codes "1") (codes "0")) with false. cbn [app] in FA. rewrite FA. split; [reflexivity|]. cbn [d_sat d_satid d_time d_lon d_size d_bands]. rewrite time_text_iso by assumption.
  split; [destruct (codes name); [contradiction|reflexivity]|]. split; [rewrite <- SID; destruct (codes name); [contradiction|reflexivity]|]. split; [reflexivity|]. split; [|split; [apply rounded_rnd|split; [|split]]].
  - unfold as_float, as_double, to_float. do 2 f_equal. unfold StretchFloat.rnd. apply round_generic; [typeclasses eauto|]. apply generic_format_round; [apply FLX_exp_valid; reflexivity|typeclasses eauto].
  - intros NB. destruct SR as [|b v bs vs' (S1 & _) _]; [contradiction|]. cbn [map]. destruct S1 as (_ & _ & _ & _ & _ & _ & -> & -> & _). reflexivity.
  - clear - SR. induction SR as [|b v bs vs' S1 S2 IH]; constructor; tauto.
  - unfold gt_nc, att_int. cbn [f_attrs app get_att String.eqb Ascii.eqb Bool.eqb]. destruct (nominal_factor _ _ PX) as [FX RX]. destruct (nominal_factor _ _ PY) as [FY RY]. rewrite FX, FY.
    assert (BX : 0 <= factor qx < 2 ^ 31) by (unfold factor; destruct (Rlt_dec _ _); lia). assert (BY : 0 <= factor qy < 2 ^ 31) by (unfold factor; destruct (Rlt_dec _ _); lia). rewrite !as_int_factor by lia. rewrite !Z.abs_eq by lia. cbn [as_int]. rewrite RX, RY. cbn [bind].
    pose proof (area_offset_cases px) as CX. pose proof (area_offset_cases py) as CY. set (ox := area_offset px) in *. set (oy := area_offset py) in *. replace (int_fits _ && _ && _ && _)%bool with true by (unfold int_fits; lia). cbn [negb]. do 2 f_equal. replace (ox - (ox + kx + 1 - 1)) with (- kx) by lia. replace (oy - (oy - ky + 1 - 1)) with ky by lia. rewrite opp_IZR. now rewrite Ropp_involutive.
Qed.
Print Assumptions C117_copy_partial.
(** An image for the theorem. *)
Definition case_nc : nsrc := mk_nsrc (Some (Geos 35785831 9)) (Some (IZR (- 3) * PIXELSIZE, PIXELSIZE, 0, IZR 4 * PIXELSIZE_HRV, 0, - PIXELSIZE_HRV)%R) 2 1 (Some (iso_text 2006 11 13 12 10 5)) (Some (codes "MSG2")) (Some (codes "56"))
  [mk_nband (codes "IR_039") GUInt16 (Some 5%R) (Some 2%R) (Some 0%R) (Some (codes "4")) (Some [7; 8]); mk_nband (codes "jday") GFloat32 None (Some 1%R) None None (Some [0; 0])].
Example C117_case : nc_source (fun _ => true) case_nc "MSG2" 56 2006 11 13 12 10 5 9 PIXELSIZE PIXELSIZE PIXELSIZE_HRV PIXELSIZE_HRV (-3) 4 /\ ~ In (codes "time") (map b_name (n_bands case_nc)).
Proof.
  split; [constructor; try reflexivity; cbn; unfold two; try lia|intros [E|[E|[]]]; discriminate].
  - split; [now left|]. rewrite Rminus_eq_0, Rabs_R0. lra.
  - split; [now right|]. rewrite Rminus_eq_0, Rabs_R0. lra.
  - vm_compute. repeat (first [left; reflexivity|right]).
  - repeat constructor; cbn; try (exists 0; split; [reflexivity|lia]); try lia; try (eexists; reflexivity); discriminate.
  - constructor; [intros [E|[]]; discriminate|constructor; [intros []|constructor]].
Qed.

(** *** What a copy does not keep *)
Lemma write_nc_attrs valid s f : write_nc valid s = Ok (Some f) -> exists p a, n_srs s = Some p /\
  (p = LatLon /\ a = [] \/ exists hgt lon gt, p = Geos hgt lon /\ n_gt s = Some gt /\ area hgt lon gt = Ok (Some a)) /\
  f_attrs f = ((match n_sat s with Some v => [("Satellite", AText v)] | None => [] end) ++ (match n_time s with Some v => [("Time", AText (v ++ codes " UTC"))] | None => [] end)) ++ a ++ [("Version", AText (codes "1"))].
Proof.
  unfold write_nc. intros E. destruct (n_srs s) as [p|]; [|discriminate]. destruct (match n_time s with Some t => _ | None => _ end) as [tv| | | |]; try discriminate. cbn [bind] in E. destruct p as [hgt lon| |].
  - destruct (n_gt s) as [gt|]; [|discriminate]. destruct (area hgt lon gt) as [[a|]| | | |] eqn:AE; try discriminate. cbn [bind] in E. destruct (write_bands _ _ _ _ _ _) as [vars| | | |]; try discriminate. injection E as <-. exists (Geos hgt lon), a. split; [reflexivity|]. split; [right; eauto 6|reflexivity].
  - cbn [bind] in E. destruct (write_bands _ _ _ _ _ _) as [vars| | | |]; try discriminate. injection E as <-. exists LatLon, []. split; [reflexivity|]. split; [now left|reflexivity].
  - discriminate.
Qed.
(** Images with the south at the top read back with the north at the top, mirrored. *)
Theorem C117_refuted_south_up valid s f lon px qx py qy kx ky : n_srs s = Some (Geos 35785831 lon) -> n_gt s = Some (IZR kx * px, px, 0, IZR ky * py, 0, py)%R -> nominal px qx -> nominal py qy -> - 2 ^ 30 <= kx <= 2 ^ 30 -> - 2 ^ 30 <= ky <= 2 ^ 30 ->
  write_nc valid s = Ok (Some f) -> gt_nc f = Ok (Some (IZR kx * qx, qx, IZR (- ky) * qy, - qy)%R).
Proof.
  intros SRS GEO PX PY KX KY E. destruct (write_nc_attrs _ _ _ E) as (p & a & SP & [[-> _]|(hgt & l & gt & -> & G & AE)] & FA); [congruence|]. rewrite SRS in SP. injection SP as <- <-. rewrite GEO in G. injection G as <-. pose proof (nominal_pos _ _ PX). pose proof (nominal_pos _ _ PY).
  assert (E1 : (IZR (- ky) * - py = IZR ky * py)%R) by (rewrite opp_IZR; ring). assert (AE' : area 35785831 lon (IZR kx * px, px, 0, IZR (- ky) * (- py), 0, - - py)%R = Ok (Some a)) by (rewrite Ropp_involutive, E1; exact AE). clear AE. rename AE' into AE. rewrite area_ok in AE by (lra || lia). injection AE as <-.
  assert (NF : (CFACFromPixelHSize (- py) * 65536 = IZR (- factor qy))%R).
  { destruct PY as [Q B]. assert (B' : (Rabs (- py - - qy) < 1 / 1000)%R) by (replace (- py - - qy)%R with (- (py - qy))%R by ring; now rewrite Rabs_Ropp). unfold factor, CFACFromPixelHSize. destruct Q as [-> | ->].
    - destruct (Rlt_dec 2000 PIXELSIZE) as [_|N]; [|exfalso; apply N; unfold PIXELSIZE; lra]. rewrite (within_other _ _ PIXELSIZE B'), within_near by (exact B' || (unfold PIXELSIZE, PIXELSIZE_HRV; (rewrite Rabs_left by lra) || (rewrite Rabs_right by lra); lra)). change (- (13642337))%Z with (-13642337)%Z. field.
    - destruct (Rlt_dec 2000 PIXELSIZE_HRV) as [N|_]; [exfalso; unfold PIXELSIZE_HRV in N; lra|]. rewrite (within_other _ _ PIXELSIZE B'), (within_other _ _ (- PIXELSIZE) B'), (within_other _ _ PIXELSIZE_HRV B'), within_near by (exact B' || (unfold PIXELSIZE, PIXELSIZE_HRV; (rewrite Rabs_left by lra) || (rewrite Rabs_right by lra); lra)). change (- (40927000))%Z with (-40927000)%Z. field. }
  destruct (nominal_factor _ _ PX) as [FX RX]. destruct (nominal_factor _ _ PY) as [_ RY].
  unfold gt_nc, att_int. rewrite FA. assert (K : forall k, String.eqb k "Satellite" = false -> String.eqb k "Time" = false -> forall l, get_att (((match n_sat s with Some v => [("Satellite", AText v)] | None => [] end) ++ (match n_time s with Some v => [("Time", AText (v ++ codes " UTC"))] | None => [] end)) ++ l) k = get_att l k).
  { intros k K1 K2 l. destruct (n_sat s), (n_time s); cbn [app get_att]; rewrite ?K1, ?K2; reflexivity. }
  rewrite !K by reflexivity. cbn [app get_att String.eqb Ascii.eqb Bool.eqb]. rewrite FX, NF.
  assert (BX : 0 <= factor qx < 2 ^ 31) by (unfold factor; destruct (Rlt_dec _ _); lia). assert (BY : 0 <= factor qy < 2 ^ 31) by (unfold factor; destruct (Rlt_dec _ _); lia). rewrite !as_int_factor by lia. rewrite Z.abs_opp, !Z.abs_eq by lia. cbn [as_int]. rewrite RX, RY. cbn [bind].
  pose proof (area_offset_cases px) as CX. pose proof (area_offset_cases (- py)) as CY. set (ox := area_offset px) in *. set (oy := area_offset (- py)) in *. replace (int_fits _ && _ && _ && _)%bool with true by (unfold int_fits; lia). cbn [negb]. do 2 f_equal. replace (ox - (ox + kx + 1 - 1)) with (- kx) by lia. replace (oy - (oy - - ky + 1 - 1)) with (- ky) by lia. rewrite opp_IZR. now rewrite Ropp_involutive.
Qed.
Print Assumptions C117_refuted_south_up.
(** Images on latitudes and longitudes read back as seen from above longitude 0 and
    without geotransform. *)
Theorem C117_refuted_lat_lon valid nt s f ds : n_srs s = Some LatLon -> write_nc valid s = Ok (Some f) -> open_nc nt f = Some ds -> d_lon ds = Some (Some 0%R) /\ gt_nc f = Ok None.
Proof.
  intros SRS E O. destruct (write_nc_attrs _ _ _ E) as (p & a & SP & [[-> ->]|(hgt & l & gt & -> & _)] & FA); [|congruence]. split.
  - unfold open_nc in O. rewrite FA in O. cbn [app] in O. destruct (n_sat s) as [v|], (n_time s) as [t|]; cbn [app get_att String.eqb Ascii.eqb Bool.eqb negb float_one] in O; try discriminate; destruct (scan_iso _); try discriminate; injection O as <-; reflexivity.
  - unfold gt_nc. rewrite FA. destruct (n_sat s), (n_time s); reflexivity.
Qed.
Print Assumptions C117_refuted_lat_lon.
(** Without the name of a satellite the copy cannot be opened. *)
Theorem C117_refuted_nameless valid nt s f : n_sat s = None -> write_nc valid s = Ok (Some f) -> open_nc nt f = None.
Proof.
  intros NS E. destruct (write_nc_attrs _ _ _ E) as (p & a & SP & K & FA). unfold open_nc. rewrite FA, NS. destruct K as [[-> ->]|(hgt & lon & gt & -> & _ & AE)].
  - destruct (n_time s); reflexivity.
  - unfold area in AE. destruct gt as [[[[[g0 g1] g2] g3] g4] g5]. destruct (nonzero _); [discriminate|]. destruct (nonzero _); [discriminate|]. destruct (nonzero _); [discriminate|]. destruct (near_int _); try discriminate. destruct (near_int _); try discriminate. cbn [bind] in AE. destruct (negb _); [discriminate|]. injection AE as <-. destruct (n_time s); reflexivity.
Qed.
Print Assumptions C117_refuted_nameless.
(** Bands of other types, with a name that the library refuses or that is taken are
    left out, and are undefined behaviour when they have a channel. *)
Theorem C117_refuted_dropped valid keys b bs xs ys vars : target_type (b_type b) = None \/ valid (b_name b) = false \/ has_var vars (b_name b) = true ->
  write_bands valid keys (b :: bs) xs ys vars = match b_chan b with Some _ => UB | None => write_bands valid keys bs xs ys vars end.
Proof.
  intros H. assert (W : rasterBandToNcVar valid b xs ys vars = Ok (vars, false)).
  { unfold rasterBandToNcVar. destruct (target_type (b_type b)) as [[t u]|]; [|reflexivity]. destruct H as [H|H]; [discriminate|]. replace (negb (valid (b_name b)) || has_var vars (b_name b))%bool with true; [reflexivity|]. destruct H as [-> | ->]; [reflexivity|now rewrite Bool.orb_true_r]. }
  cbn [write_bands]. rewrite W. cbn [bind]. now destruct (b_chan b).
Qed.
Print Assumptions C117_refuted_dropped.
(** A band whose pixels cannot be read becomes an image of no-data values. *)
Theorem C117_refuted_unreadable valid keys b bs xs ys vars z : valid (b_name b) = true -> has_var vars (b_name b) = false -> b_type b = GInt16 -> b_nodata b = Some (IZR z) -> -32768 <= z <= 32767 -> b_pix b = None -> b_chan b = None ->
  exists v, v_data v = repeat z (Z.to_nat (xs * ys)) /\ v_name v = b_name b /\ write_bands valid keys (b :: bs) xs ys vars = write_bands valid keys bs xs ys (vars ++ [v]).
Proof.
  intros V H T N B P C. cbn [write_bands]. unfold rasterBandToNcVar. rewrite T, V, H, N, P, C. cbn [target_type negb orb fill_attr]. rewrite (signed_ok 16) by lia. cbn [bind filler]. eexists. split; [|split; [|reflexivity]]; reflexivity.
Qed.
Print Assumptions C117_refuted_unreadable.
Example C117_dropped_case : target_type GComplex = None /\ has_var [time_var 0] (codes "time") = true.
Proof. split; reflexivity. Qed.

(** ** C119: NetCDF copies in the way of the old GRIB files *)
Record nc24_source (valid : str -> bool) (s : nsrc) (st : str) (y mo d h mi sec : Z) (lon px py : R) (kx ky : Z) : Prop := {
  sg_srs : n_srs s = Some (Geos 35785831 lon);
  sg_geo : n_gt s = Some (IZR kx * px, px, 0, IZR ky * py, 0, - py)%R;
  sg_sizes : (Rabs (px - PIXELSIZE) <= 1 / 10000 /\ Rabs (py - PIXELSIZE) <= 1 / 10000 \/ Rabs (px - PIXELSIZE_HRV) <= 1 / 10000 /\ Rabs (py - PIXELSIZE_HRV) <= 1 / 10000)%R;
  sg_kx : - 2 ^ 30 <= kx <= 2 ^ 30; sg_ky : - 2 ^ 30 <= ky <= 2 ^ 30;
  sg_size : 0 < n_xs s < 2 ^ 31 /\ 0 < n_ys s < 2 ^ 31;
  sg_when : n_time s = Some (iso_text y mo d h mi sec);
  sg_y : 0 <= y <= 9999; sg_m : two mo; sg_day : two d; sg_hour : two h; sg_minute : two mi; sg_second : two sec;
  sg_sat : n_satid s = Some st; sg_digits : all_digits st;
  sg_good : Forall (good_band valid) (n_bands s); sg_names : NoDup (map b_name (n_bands s)) }.
Lemma dx_near p : (Rabs (p - PIXELSIZE) <= 1 / 10000 \/ Rabs (p - PIXELSIZE_HRV) <= 1 / 10000)%R -> exists dx, seviriDXFromPixelHSize p = Ok dx.
Proof.
  unfold seviriDXFromPixelHSize. intros [H|H]; [rewrite near_within by exact H; eauto|].
  unfold CFACFromPixelHSize. rewrite !(far_within _ _ PIXELSIZE H), (far_within _ _ (- PIXELSIZE) H), (near_within _ _ H) by (unfold PIXELSIZE, PIXELSIZE_HRV; (rewrite Rabs_left by lra) || (rewrite Rabs_right by lra); lra). rewrite hrv_dx. eauto.
Qed.
Lemma far_near a b : (Rabs (a - b) <= 1 / 10000)%R -> far a b = false.
Proof. intros H. unfold far. destruct (Rlt_dec _ _); [exfalso; lra|reflexivity]. Qed.
Lemma far_other a b c : (Rabs (a - b) <= 1 / 10000)%R -> (1 < Rabs (b - c))%R -> far a c = true.
Proof. intros H D. unfold far. destruct (Rlt_dec _ _) as [|N]; [reflexivity|]. exfalso. apply N. assert (Rabs (b - c) <= Rabs (a - b) + Rabs (a - c))%R by (rewrite <- (Rabs_Ropp (a - b)); replace (b - c)%R with (- (a - b) + (a - c))%R by ring; apply Rabs_triang). lra. Qed.
Theorem C119_copy_partial valid s st y mo d h mi sec lon px py kx ky : nc24_source valid s st y mo d h mi sec lon px py kx ky -> decimal st = 55 \/ decimal st = 56 -> ~ In (codes "time") (map b_name (n_bands s)) -> ~ In (codes "Projection") (map b_name (n_bands s)) ->
  exists f ds l p q, write_nc24 valid s = Ok (Some f) /\ open_nc24 f = Ok (Some (ds, Some (IZR kx * p, p, IZR ky * q, - q)%R)) /\ read_size px p /\ read_size py q /\
    d_satid ds = decimal st /\ d_sat ds = Some (codes (spacecraftName (decimal st))) /\ d_time ds = iso_text y mo d h mi sec /\ d_lon ds = Some (Some l) /\ rounded lon l /\
    (n_bands s <> [] -> d_size ds = Some (n_xs s, n_ys s)) /\ Forall2 (reads_as (n_xs s) (n_ys s)) (n_bands s) (d_bands ds).
Proof.
  intros [SRS GEO SZ KX KY [XS YS] WH Y M D H MI SE SA AD GO NN] SV NT NP. unfold write_nc24. rewrite SA, WH. destruct (forecast_ok y mo d h mi sec Y M D H MI SE) as (t & ->). rewrite scan_free_iso by assumption. cbn [bind]. rewrite SRS, GEO. replace (35785831 - 35785831)%R with 0%R by ring. rewrite nonzero_0.
  assert (PN : (px <> 0 /\ py <> 0)%R). { destruct SZ as [[A B]|[A B]]; apply Rabs_le_inv in A, B; unfold PIXELSIZE, PIXELSIZE_HRV in *; lra. } destruct PN as [PX PY].
  assert (GRID : exists off, 0 <= off <= 10000 /\ grid_offset (IZR kx * px, px, 0, IZR ky * py, 0, - py)%R = Some off).
  { unfold grid_offset. rewrite nonzero_0. assert (OP : forall b, (Rabs (- py - - b) = Rabs (py - b))%R) by (intros b; rewrite <- Rabs_Ropp; f_equal; ring). destruct SZ as [[A B]|[A B]].
    - rewrite (far_other _ _ PIXELSIZE_HRV A), (far_near _ _ A), far_near by (first [rewrite OP; exact B|unfold PIXELSIZE, PIXELSIZE_HRV; (rewrite Rabs_left by lra) || (rewrite Rabs_right by lra); lra]). exists 1856. split; [lia|reflexivity].
    - rewrite (far_near _ _ A), far_near by (rewrite OP; exact B). exists 5568. split; [lia|reflexivity]. }
  destruct GRID as (off & OB & ->). rewrite Ropp_involutive.
  replace (IZR off + IZR kx * px / px)%R with (IZR (off + kx)) by (rewrite plus_IZR; field; exact PX). replace (IZR off - IZR ky * py / py)%R with (IZR (off - ky)) by (rewrite minus_IZR; field; exact PY).
  rewrite !near_int_ok by (unfold int_fits; lia). cbn [bind].
  destruct (dx_near px ltac:(tauto)) as (dx & DX). destruct (dx_near py ltac:(tauto)) as (dy & DY). rewrite DX, DY. cbn [bind]. destruct (size_back px dx ltac:(tauto) DX) as (DXC & p & P1 & P2). destruct (size_back py dy ltac:(tauto) DY) as (DYC & q & Q1 & Q2).
  replace (int_fits (off + kx + 1) && int_fits (off - ky + 1))%bool with true by (unfold int_fits; lia). cbn [negb].
  destruct (write_bands_good valid ["L1"; "channel"] (n_xs s) (n_ys s) (n_bands s) GO NN [mk_ncvar (codes "Projection") NcInt [] [("Lop", AFloat (to_float (Some lon))); ("X0", AInt (off + kx + 1)); ("Y0", AInt (off - ky + 1)); ("DX", AInt dx); ("DY", AInt dy); ("Xp", AInt off); ("Yp", AInt off)] []; time_var t]) as (vs & -> & ST).
  { intros b I. cbn [app has_var existsb time_var v_name orb]. rewrite Bool.orb_false_r. destruct (str_eqb_spec (codes "Projection") (b_name b)) as [E|]; [exfalso; apply NP; rewrite E; now apply in_map|]. destruct (str_eqb_spec (codes "time") (b_name b)) as [E|]; [|reflexivity]. exfalso. apply NT. rewrite E. now apply in_map. }
  cbn [bind]. assert (SR : Forall2 (fun b v => reads_as (n_xs s) (n_ys s) b (read_band "L1" false v) /\ v_dims v = [1; n_ys s; n_xs s] /\ v_name v = b_name b) (n_bands s) vs).
  { clear NN NT NP. revert GO. induction ST as [|b v bs vs' S1 S2 IH]; intros GO; constructor; inversion GO; subst; [|now apply IH]. eapply stored_reads; eauto; lia. }
  assert (FB : filter (is_band ["Projection"; "time"]) vs = vs).
  { apply (filter_bands _ (n_xs s) (n_ys s)). intros v I. assert (exists b, In b (n_bands s) /\ v_dims v = [1; n_ys s; n_xs s] /\ v_name v = b_name b) as (b & IB & VD & VN).
    { clear - SR I. induction SR as [|b v0 bs vs' S1 S2 IH]; [contradiction|]. destruct I as [->|I]; [exists b; split; [now left|tauto]|]. destruct (IH I) as (b' & ? & ?). exists b'. split; [now right|assumption]. }
    split; [exact VD|]. cbn [existsb orb]. rewrite VN, Bool.orb_false_r. destruct (str_eqb_spec (b_name b) (codes "Projection")) as [E|]; [exfalso; apply NP; rewrite <- E; now apply in_map|]. destruct (str_eqb_spec (b_name b) (codes "time")) as [E|]; [|reflexivity]. exfalso. apply NT. rewrite <- E. now apply in_map. }
  assert (DS : n_bands s <> [] -> match map (read_band "L1" false) vs with b :: _ => Some (r_bx b, r_by b) | [] => None end = Some (n_xs s, n_ys s)).
  { intros NB. destruct SR as [|b v bs vs' (S1 & _) _]; [contradiction|]. cbn [map]. destruct S1 as (_ & _ & _ & _ & _ & _ & -> & -> & _). reflexivity. }
  assert (SI : strtoul_int st = decimal st) by (apply strtoul_int_decimal; [exact AD|lia]).
  eexists. eexists. exists (StretchFloat.rnd lon), p, q. split; [reflexivity|]. unfold open_nc24, att_int. cbn [f_attrs f_vars app get_att String.eqb Ascii.eqb Bool.eqb as_int Z.eqb Pos.eqb negb map]. rewrite SI. replace ((decimal st =? 55) || (decimal st =? 56))%bool with true by lia. cbn [negb].
  cbn [find_var v_name]. change (str_eqb (codes "Projection") (codes "Projection")) with true. cbn [v_attrs get_att String.eqb Ascii.eqb Bool.eqb]. unfold gt_nc24. cbn [get_att String.eqb Ascii.eqb Bool.eqb as_int].
  replace (int_fits (off + kx + 1 - 1) && int_fits (off - ky + 1 - 1))%bool with true by (unfold int_fits; lia). cbn [negb]. rewrite P1, Q1. cbn [bind]. cbn [filter]. unfold is_band at 1 2. cbn [v_name v_dims time_var]. change (existsb (fun k => str_eqb (codes "Projection") (codes k)) ["Projection"; "time"]) with true. change (existsb (fun k => str_eqb (codes "time") (codes k)) ["Projection"; "time"]) with true. cbn [negb andb]. rewrite FB.
  replace (off - (off + kx + 1 - 1)) with (- kx) by lia. replace (off - (off - ky + 1 - 1)) with ky by lia. rewrite (opp_IZR kx), (Ropp_involutive (IZR kx)). split; [reflexivity|cbn [d_satid d_sat d_time d_lon d_size d_bands]; split; [exact P2|split; [exact Q2|split; [reflexivity|split; [now replace (decimal st =? 0) with false by lia|split; [now apply time_text_iso|split; [|split; [apply rounded_rnd|split]]]]]]]].
  - unfold as_float, as_double, to_float. do 2 f_equal. unfold StretchFloat.rnd. apply round_generic; [typeclasses eauto|]. apply generic_format_round; [apply FLX_exp_valid; reflexivity|typeclasses eauto].
  - exact DS.
  - clear - SR. induction SR as [|b v bs vs' S1 S2 IH]; constructor; tauto.
Qed.
Print Assumptions C119_copy_partial.
(** The copies of the other two satellites are refused. *)
Theorem C119_refuted_later valid s f st : n_satid s = Some st -> all_digits st -> decimal st < 2 ^ 31 -> decimal st <> 55 -> decimal st <> 56 -> write_nc24 valid s = Ok (Some f) -> open_nc24 f = Ok None.
Proof.
  intros SA AD B N1 N2 E. unfold write_nc24 in E. rewrite SA in E. rewrite strtoul_int_decimal in E by assumption.
  assert (L : exists ta, f_attrs f = [("GribEditionNumber", AInt 1); ("LevelType", AInt (decimal st)); ("SatelliteID", AInt (decimal st))] ++ ta).
  { match type of E with match ?x with _ => _ end = _ => destruct x as [[[t ta]|]| | | |]; try discriminate end. cbn [bind] in E. destruct (n_srs s) as [[hgt lon| |]|]; try discriminate. destruct (nonzero _); [discriminate|]. destruct (n_gt s) as [gt|]; [|discriminate]. destruct (grid_offset gt) as [off|]; [|discriminate]. destruct gt as [[[[[g0 g1] g2] g3] g4] g5].
    destruct (near_int _) as [x0| | | |]; try discriminate. cbn [bind] in E. destruct (near_int _) as [y0| | | |]; try discriminate. cbn [bind] in E. destruct (seviriDXFromPixelHSize g1) as [dx| | | |]; try discriminate. cbn [bind] in E. destruct (seviriDXFromPixelHSize (- g5)) as [dy| | | |]; try discriminate. cbn [bind] in E. destruct (negb _); [discriminate|]. destruct (write_bands _ _ _ _ _ _) as [vars| | | |]; try discriminate. injection E as <-. exists ta. reflexivity. }
  destruct L as (ta & FA). unfold open_nc24, att_int. rewrite FA. cbn [app get_att String.eqb Ascii.eqb Bool.eqb as_int Z.eqb Pos.eqb negb]. now replace ((decimal st =? 55) || (decimal st =? 56))%bool with false by lia.
Qed.
Print Assumptions C119_refuted_later.
(** Files that look like such a copy but have no variable for the projection. *)
Theorem C119_refuted_projection f level : get_att (f_attrs f) "GribEditionNumber" = Some (AInt 1) -> get_att (f_attrs f) "LevelType" = Some (AInt level) -> level = 55 \/ level = 56 -> (forall v, In v (f_vars f) -> v_name v <> codes "Projection") -> open_nc24 f = UB.
Proof.
  intros A B L N. unfold open_nc24, att_int. rewrite A, B. cbn [as_int]. cbn [Z.eqb Pos.eqb negb]. replace ((level =? 55) || (level =? 56))%bool with true by lia. cbn [negb]. replace (find_var (f_vars f) (codes "Projection")) with (@None ncvar); [reflexivity|].
  symmetry. revert N. generalize (f_vars f). induction l as [|v l IH]; intros N; [reflexivity|]. cbn [find_var]. destruct (str_eqb_spec (v_name v) (codes "Projection")) as [E|]; [exfalso; now apply (N v (or_introl eq_refl))|]. apply IH. intros w I. apply N. now right.
Qed.
Print Assumptions C119_refuted_projection.
Definition case_nc24 (st : str) : nsrc := mk_nsrc (Some (Geos 35785831 9)) (Some (IZR (- 3) * PIXELSIZE, PIXELSIZE, 0, IZR 4 * PIXELSIZE, 0, - PIXELSIZE)%R) 2 1 (Some (iso_text 2006 11 13 12 10 5)) None (Some st) (n_bands case_nc).
Example C119_case st : st = codes "56" \/ st = codes "57" -> nc24_source (fun _ => true) (case_nc24 st) st 2006 11 13 12 10 5 9 PIXELSIZE PIXELSIZE (-3) 4.
Proof.
  intros H. pose proof C117_case as [C _]. constructor; try reflexivity; try (cbn; unfold two; lia).
  - left. split; rewrite Rminus_eq_0, Rabs_R0; lra.
  - destruct H as [-> | ->]; (split; [discriminate|change (codes "56") with [53; 54]; change (codes "57") with [53; 55]; apply Forall_cons; [lia|apply Forall_cons; [lia|apply Forall_nil]]]).
  - apply (so_good _ _ _ _ _ _ _ _ _ _ _ _ _ _ _ _ _ C).
  - apply (so_names _ _ _ _ _ _ _ _ _ _ _ _ _ _ _ _ _ C).
Qed.
Example C117_refuted_cases : (exists f, write_nc (fun _ => true) (mk_nsrc (Some (Geos 35785831 9)) (Some (IZR (- 3) * PIXELSIZE, PIXELSIZE, 0, IZR 4 * PIXELSIZE, 0, PIXELSIZE)%R) 2 1 None (Some (codes "MSG2")) None []) = Ok (Some f)) /\
  (exists f ds, write_nc (fun _ => true) (mk_nsrc (Some LatLon) None 2 1 None (Some (codes "MSG2")) None []) = Ok (Some f) /\ open_nc (fun _ => []) f = Some ds) /\
  (exists f, write_nc (fun _ => true) (mk_nsrc (Some LatLon) None 2 1 None None None []) = Ok (Some f)) /\
  (exists f, write_nc24 (fun _ => true) (mk_nsrc (Some (Geos 35785831 9)) (Some (IZR (- 3) * PIXELSIZE, PIXELSIZE, 0, IZR 4 * PIXELSIZE, 0, - PIXELSIZE)%R) 2 1 None None (Some (codes "57")) []) = Ok (Some f)).
Proof.
  assert (NP : PIXELSIZE <> 0%R) by (unfold PIXELSIZE; lra). repeat split.
  - unfold write_nc. cbn [n_srs n_gt n_time n_sat n_bands n_xs n_ys bind write_bands]. replace (IZR (-3) * PIXELSIZE, PIXELSIZE, 0%R, IZR 4 * PIXELSIZE, 0%R, PIXELSIZE)%R with (IZR (-3) * PIXELSIZE, PIXELSIZE, 0, IZR 4 * PIXELSIZE, 0, - - PIXELSIZE)%R by (rewrite Ropp_involutive; reflexivity).
    assert (E1 : (IZR 4 * PIXELSIZE = IZR (-4) * - PIXELSIZE)%R) by ring. rewrite E1. rewrite area_ok by (lra || lia). eexists. reflexivity.
  - eexists. eexists. split; [reflexivity|]. unfold open_nc. cbn. reflexivity.
  - eexists. reflexivity.
  - unfold write_nc24. cbn [n_satid n_srs n_gt n_time n_sat n_bands n_xs n_ys bind write_bands]. replace (35785831 - 35785831)%R with 0%R by ring. unfold grid_offset. rewrite nonzero_0.
    rewrite (far_other PIXELSIZE PIXELSIZE PIXELSIZE_HRV), (far_near PIXELSIZE PIXELSIZE), (far_near (- PIXELSIZE) (- PIXELSIZE)) by (first [rewrite Rminus_eq_0, Rabs_R0; lra|unfold PIXELSIZE, PIXELSIZE_HRV; rewrite Rabs_right by lra; lra]).
    rewrite Ropp_involutive. replace (IZR 1856 + IZR (-3) * PIXELSIZE / PIXELSIZE)%R with (IZR 1853) by (field; exact NP). replace (IZR 1856 - IZR 4 * PIXELSIZE / PIXELSIZE)%R with (IZR 1852) by (field; exact NP). rewrite !near_int_ok by reflexivity. cbn [bind]. destruct (dx_near PIXELSIZE) as (dx & ->); [left; rewrite Rminus_eq_0, Rabs_R0; lra|]. cbn [bind]. eexists. reflexivity.
Qed.
