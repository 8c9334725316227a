(** Properties C123-C129: from counts to physical values. *)
From Coq Require Import Reals Lra Qreals.
From Verif Require Import Base BaseFacts MachineModel HriModel OmtpModel OmtpSpec OmtpProofs CalibModel CalibSpec CalibProofs.
From Verif Require HriImageModel HriImageSpec HriImageProps.
Local Open Scope Z_scope.

(** ** C123. Brightness temperatures of the thermal channels of SEVIRI *)
Lemma cal_at (cal : list (R * R)) ch : List.length cal = 12%nat -> 1 <= ch <= 12 ->
  calibration_of cal ch = Ok (nth (Z.to_nat (ch - 1)) cal (0, 0)%R).
Proof.
  intros L C. unfold calibration_of. destruct (Z.ltb_spec ch 1); [lia|].
  rewrite (nth_error_nth' cal (0, 0)%R) by lia. reflexivity.
Qed.
Lemma ncal_ok bpp : 0 <= bpp < 31 -> ncal bpp = Ok (2 ^ bpp).
Proof. intros H. unfold ncal. destruct (Z.ltb_spec bpp 31); [reflexivity|lia]. Qed.
(** The radiance of a count, with the coefficients of the channel. *)
Definition radiance (cal : list (R * R)) (ch i : Z) : R :=
  let c := nth (Z.to_nat (ch - 1)) cal (0, 0)%R in (IZR i * fst c + snd c)%R.
Lemma table_cold neg cal ch bpp i nu a b : List.length cal = 12%nat -> thermal ch = Some (nu, a, b) -> 0 <= bpp < 31 -> 0 <= i < 2 ^ bpp ->
  table_value neg cal ch bpp i = Ok (formula neg nu a b (radiance cal ch i)).
Proof.
  intros L T B I. destruct (cold_formula neg ch (radiance cal ch i) nu a b T) as (E & C & R1 & _).
  unfold table_value. rewrite ncal_ok by assumption. cbn [bind].
  destruct (Z.leb_spec 0 i); [|lia]. destruct (Z.ltb_spec i (2 ^ bpp)); [|lia]. cbn [andb].
  unfold msg_entry. rewrite cal_at by (assumption || lia). cbn [bind]. rewrite C. f_equal. exact E.
Qed.
(** A count of positive radiance has the temperature at which a black body has that
    radiance, and there is only one. *)
Theorem C123_temperature : forall neg cal ch bpp i nu a b,
  List.length cal = 12%nat -> thermal ch = Some (nu, a, b) -> 0 <= bpp < 31 -> 0 <= i < 2 ^ bpp -> (0 < radiance cal ch i)%R ->
  exists t, table_value neg cal ch bpp i = Ok (Fin t) /\ brightness nu a b (radiance cal ch i) t /\
    forall t', brightness nu a b (radiance cal ch i) t' -> t' = t.
Proof.
  intros neg cal ch bpp i nu a b L T B I P. rewrite (table_cold _ _ _ _ _ _ _ _ L T B I).
  destruct (cold_formula neg ch (radiance cal ch i) nu a b T) as (_ & _ & _ & N & A & B0 & _).
  rewrite formula_positive by lra. set (l := radiance cal ch i) in *.
  assert (LN : (0 < ln (119104 / 10 ^ 10 * nu ^ 3 / l + 1))%R).
  { apply ln_pos. assert (0 < 119104 / 10 ^ 10 * nu ^ 3 / l)%R; [|lra]. apply Rdiv_lt_0_compat; [|assumption]. apply Rmult_lt_0_compat; [lra|apply pow_lt; lra]. }
  eexists. split; [reflexivity|]. split.
  - unfold brightness.
    replace (a * ((143877 / 10 ^ 5 * nu / ln (119104 / 10 ^ 10 * nu ^ 3 / l + 1) - b) / a) + b)%R
      with (143877 / 10 ^ 5 * nu / ln (119104 / 10 ^ 10 * nu ^ 3 / l + 1))%R by (field; lra).
    split; [apply Rdiv_lt_0_compat; lra|apply planck_inverse; lra].
  - intros t' [P1 P2]. destruct (planck_unique nu _ l ltac:(lra) P1 P2) as [_ E]. rewrite <- E. field. lra.
Qed.
Print Assumptions C123_temperature.
(** It is a temperature above absolute zero unless the radiance is absurdly small. *)
Theorem C123_positive : forall neg cal ch bpp i nu a b t,
  List.length cal = 12%nat -> thermal ch = Some (nu, a, b) -> 0 <= bpp < 31 -> 0 <= i < 2 ^ bpp -> (/ 10 ^ 300 <= radiance cal ch i)%R ->
  table_value neg cal ch bpp i = Ok (Fin t) -> (0 < t)%R /\ xrit_pixel neg cal ch bpp i = Ok (Fin t).
Proof.
  intros neg cal ch bpp i nu a b t L T B I P.
  destruct (cold_formula neg ch (radiance cal ch i) nu a b T) as (_ & C & R1 & N & A & B0 & M).
  assert (P0 : (0 < / 10 ^ 300)%R) by (apply Rinv_0_lt_compat, pow_lt; lra).
  pose proof (log_bound nu _ N P) as LB. intro E. pose proof E as E0. rewrite (table_cold _ _ _ _ _ _ _ _ L T B I) in E.
  rewrite formula_positive in E by lra. injection E as E.
  assert (Pt : (0 < t)%R).
  { rewrite <- E. apply Rdiv_lt_0_compat; [|lra]. set (g := ln _) in *. assert (b < 143877 / 10 ^ 5 * nu / g)%R; [|lra].
    apply Rmult_lt_reg_r with g; [lra|]. unfold Rdiv at 1. rewrite Rmult_assoc, Rinv_l by lra. unfold c2 in M. nra. }
  split; [assumption|]. unfold xrit_pixel, xrit_band, slope_offset. rewrite C. cbn [bind].
  rewrite ncal_ok by assumption. cbn [bind]. rewrite cal_at by (assumption || lia). cbn [bind b_linear]. rewrite E0. cbn [bind cleaned].
  destruct (Rlt_dec t 0); [lra|reflexivity].
Qed.
Print Assumptions C123_positive.
(** Counts without radiance are stored as 0, the no-data value of the band. *)
Theorem C123_no_radiance : forall neg cal ch bpp i nu a b,
  List.length cal = 12%nat -> thermal ch = Some (nu, a, b) -> 0 <= bpp < 31 -> 0 <= i < 2 ^ bpp -> (radiance cal ch i <= 0)%R ->
  xrit_pixel neg cal ch bpp i = Ok (Fin 0) /\ exists bd, xrit_band cal ch bpp = Ok bd /\ b_nodata bd = 0%R.
Proof.
  intros neg cal ch bpp i nu a b L T B I P.
  destruct (cold_formula neg ch (radiance cal ch i) nu a b T) as (_ & C & R1 & N & A & B0 & M).
  assert (E : xrit_band cal ch bpp = Ok (mk_band false 1 0 0)).
  { unfold xrit_band, slope_offset. rewrite C. cbn [bind]. rewrite ncal_ok by assumption. cbn [bind]. rewrite cal_at by (assumption || lia). reflexivity. }
  split; [|rewrite E; eexists; split; reflexivity].
  unfold xrit_pixel. rewrite E. cbn [bind b_linear]. rewrite (table_cold _ _ _ _ _ _ _ _ L T B I). cbn [bind].
  rewrite formula_none by lra. reflexivity.
Qed.
Print Assumptions C123_no_radiance.
(** More radiance, higher temperature. *)
Theorem C123_increasing : forall neg cal ch bpp i j nu a b t t',
  List.length cal = 12%nat -> thermal ch = Some (nu, a, b) -> 0 <= bpp < 31 -> 0 <= i < 2 ^ bpp -> 0 <= j < 2 ^ bpp ->
  (0 < radiance cal ch i < radiance cal ch j)%R ->
  table_value neg cal ch bpp i = Ok (Fin t) -> table_value neg cal ch bpp j = Ok (Fin t') -> (t < t')%R.
Proof.
  intros neg cal ch bpp i j nu a b t t' L T B I J P E E'.
  destruct (C123_temperature neg cal ch bpp i nu a b L T B I ltac:(lra)) as (u & U & [U1 U2] & _).
  destruct (C123_temperature neg cal ch bpp j nu a b L T B J ltac:(lra)) as (v & V & [V1 V2] & _).
  rewrite E in U. rewrite E' in V. injection U as <-. injection V as <-.
  destruct (cold_formula neg ch 0 nu a b T) as (_ & _ & _ & N & A & B0 & _).
  assert (G : (a * t + b < a * t' + b)%R) by (apply (planck_increasing nu); [lra|assumption|assumption|rewrite U2, V2; lra]).
  apply Rmult_lt_reg_l with a; lra.
Qed.
Print Assumptions C123_increasing.
Definition sample_cal : list (R * R) := repeat (0.2, -10)%R 12.
Example C123_case : List.length sample_cal = 12%nat /\ thermal 9 = Some (930.659, 0.9983, 0.627)%R /\
  (/ 10 ^ 300 <= radiance sample_cal 9 300)%R /\ (radiance sample_cal 9 40 <= 0)%R.
Proof.
  split; [reflexivity|]. split; [reflexivity|].
  assert (E : forall i, radiance sample_cal 9 i = (IZR i * 0.2 + -10)%R) by (intro; reflexivity). rewrite !E. split; [|lra].
  apply Rle_trans with (/ 10 ^ 0)%R; [|cbn [pow]; lra]. apply Rinv_le_contravar; [cbn; lra|]. apply Rle_pow; [lra|lia].
Qed.

(** ** C124. Bands of HRIT products are in the unit they announce, for the channels
    that exist *)
(** The physical value of a pixel is value * scale + offset. *)
Theorem C124_values_partial : forall neg cal ch bpp sample,
  List.length cal = 12%nat -> 1 <= ch <= 12 -> 0 <= bpp < 31 -> 0 <= sample < 2 ^ bpp ->
  exists bd v, xrit_band cal ch bpp = Ok bd /\ xrit_pixel neg cal ch bpp sample = Ok v /\
    match thermal ch with
    | None => exists r, v = Fin r /\ (r * b_scale bd + b_offset bd = radiance cal ch sample)%R
    | Some (nu, a, b) => b_scale bd = 1%R /\ b_offset bd = 0%R /\
        ((/ 10 ^ 300 <= radiance cal ch sample)%R -> exists t, v = Fin t /\ brightness nu a b (radiance cal ch sample) t) /\
        ((radiance cal ch sample <= 0)%R -> v = Fin 0)
    end.
Proof.
  intros neg cal ch bpp sample L C B I. destruct (thermal ch) as [[[nu a] b]|] eqn:T.
  - destruct (cold_formula neg ch 0 nu a b T) as (_ & C1 & R1 & N & A & B0 & M).
    assert (E : xrit_band cal ch bpp = Ok (mk_band false 1 0 0)).
    { unfold xrit_band, slope_offset. rewrite C1. cbn [bind]. rewrite ncal_ok by assumption. cbn [bind]. rewrite cal_at by (assumption || lia). reflexivity. }
    exists (mk_band false 1 0 0), (cleaned (formula neg nu a b (radiance cal ch sample))). split; [assumption|].
    split; [unfold xrit_pixel; rewrite E; cbn [bind b_linear]; rewrite (table_cold _ _ _ _ _ _ _ _ L T B I); reflexivity|].
    split; [reflexivity|]. split; [reflexivity|]. split.
    + intros P. assert (P0 : (0 < / 10 ^ 300)%R) by (apply Rinv_0_lt_compat, pow_lt; lra).
      destruct (C123_temperature neg cal ch bpp sample nu a b L T B I ltac:(lra)) as (t & Et & Br & _).
      exists t. split; [|exact Br]. pose proof Et as Et0. rewrite (table_cold _ _ _ _ _ _ _ _ L T B I) in Et. injection Et as Et. rewrite Et.
      destruct (C123_positive neg cal ch bpp sample nu a b t L T B I P Et0) as [Pt _]. cbn [cleaned]. destruct (Rlt_dec t 0); [lra|reflexivity].
    + intros P. apply formula_none; lra.
  - assert (C1 : is_cold ch = false).
    { unfold is_cold. assert (D : ch = 1 \/ ch = 2 \/ ch = 3 \/ ch = 4 \/ ch = 5 \/ ch = 6 \/ ch = 7 \/ ch = 8 \/ ch = 9 \/ ch = 10 \/ ch = 11 \/ ch = 12) by lia.
      repeat (destruct D as [->|D]; [discriminate T || reflexivity|]). now subst. }
    eexists. eexists. split; [unfold xrit_band, slope_offset; rewrite C1, cal_at by assumption; cbn [bind]; reflexivity|].
    split; [unfold xrit_pixel, xrit_band, slope_offset; rewrite C1, cal_at by assumption; cbn [bind b_linear]; reflexivity|].
    eexists. split; [reflexivity|]. reflexivity.
Qed.
Print Assumptions C124_values_partial.
(** A channel number that the prologue has no coefficients for is not refused, and
    neither is a number of bits that no int can hold the number of counts of, nor a
    sample above the counts of the table. *)
Theorem C124_refuted_channels : forall cal ch bpp, List.length cal = 12%nat -> (ch < 1 \/ 12 < ch) -> xrit_band cal ch bpp = UB.
Proof.
  intros cal ch bpp L C. unfold xrit_band, slope_offset. replace (is_cold ch) with false by (unfold is_cold; lia).
  unfold calibration_of. destruct (Z.ltb_spec ch 1); [reflexivity|].
  replace (nth_error cal (Z.to_nat (ch - 1))) with (@None (R * R)); [reflexivity|]. symmetry. apply nth_error_None. lia.
Qed.
Print Assumptions C124_refuted_channels.
Theorem C124_refuted_bits : forall cal ch bpp, 4 <= ch <= 11 -> 31 <= bpp -> xrit_band cal ch bpp = UB.
Proof.
  intros cal ch bpp C B. unfold xrit_band, slope_offset. replace (is_cold ch) with true by (unfold is_cold; lia). cbn [bind].
  unfold ncal. destruct (Z.ltb_spec bpp 31); [lia|reflexivity].
Qed.
Print Assumptions C124_refuted_bits.
Theorem C124_refuted_samples : forall neg cal ch bpp sample, List.length cal = 12%nat -> 4 <= ch <= 11 -> 0 <= bpp < 31 -> 2 ^ bpp <= sample ->
  xrit_pixel neg cal ch bpp sample = UB.
Proof.
  intros neg cal ch bpp s L C B H. unfold xrit_pixel, xrit_band, slope_offset. replace (is_cold ch) with true by (unfold is_cold; lia). cbn [bind].
  rewrite ncal_ok by assumption. cbn [bind]. rewrite cal_at by (assumption || lia). cbn [bind b_linear]. unfold table_value.
  rewrite ncal_ok by assumption. cbn [bind]. replace ((0 <=? s) && (s <? 2 ^ bpp)) with false by lia. reflexivity.
Qed.
Print Assumptions C124_refuted_samples.
Example C124_case : forall neg, xrit_pixel neg sample_cal 1 10 1023 = Ok (Fin 1023) /\ xrit_band sample_cal 13 10 = UB.
Proof. intro neg. split; [reflexivity|apply C124_refuted_channels; [reflexivity|lia]]. Qed.

(** ** C125. First generation temperatures in OpenMTP files *)
(** What the table of a radiometer with constants [ab] must hold at a count. *)
Definition right_at (ab : R * R) (cc sc : R) (table : Z -> xr) (i : Z) : Prop :=
  ((0 < cc)%R -> (sc < IZR i)%R -> exists t, table i = Fin t /\ emits (fst ab) (snd ab) t (cc * (IZR i - sc)) /\
     forall t', emits (fst ab) (snd ab) t' (cc * (IZR i - sc)) -> t' = t) /\
  (cc = 0%R \/ (IZR i <= sc)%R -> table i = Fin 0).
Lemma radiometer neg a b cc sc i : (6.7348 <= a)%R -> (0 < b)%R -> (0 <= cc <= 1)%R -> (0 <= sc)%R -> 0 <= i <= 255 ->
  right_at (a, b) cc sc (fun i => temp neg a b (rad cc sc i)) i.
Proof.
  intros A B C S1 I. pose proof (rad_range cc sc i C S1 I) as RR. pose proof (exp_above a A) as EA. split.
  - intros C0 P. assert (E : rad cc sc i = (cc * (IZR i - sc))%R) by (unfold rad; destruct (Rlt_dec (IZR i) sc); lra).
    rewrite E in *. assert (0 < cc * (IZR i - sc))%R by (apply Rmult_lt_0_compat; lra).
    exists (b / (a - ln (cc * (IZR i - sc))))%R. cbn [fst snd]. split; [apply temp_value; lra|]. split; [apply emits_value; lra|].
    intros t' H'. apply (emits_unique a b _ _ _ B H'). apply emits_value; lra.
  - intros H. assert (E : rad cc sc i = 0%R) by (unfold rad; destruct (Rlt_dec (IZR i) sc); [reflexivity|]; destruct H as [->|H]; [lra|replace (IZR i) with sc by lra; lra]).
    rewrite E. apply temp_zero. lra.
Qed.
Lemma digit_same b : HriImageSpec.digit_or_blank b -> forall w, digit w b = HriImageSpec.digit b * w /\ 0 <= HriImageSpec.digit b <= 9.
Proof.
  intros H w. unfold digit, HriImageSpec.digit, HriImageSpec.digit_or_blank in *.
  destruct (Z.eqb_spec b 32); cbn [negb]; split; lia.
Qed.
Lemma header_number5 h off c : bytes_at h off 5 = Ok c -> Forall HriImageSpec.digit_or_blank c -> List.length c = 5%nat ->
  OmtpModel.r4_from_char5 h off = Ok (HriImageSpec.decimal c) /\ 0 <= HriImageSpec.decimal c < 100000.
Proof.
  intros E F L. unfold OmtpModel.r4_from_char5, chars. cbn [List.length]. rewrite E. cbn [bind].
  do 5 (destruct c as [|? c]; [discriminate|]). destruct c; [|discriminate]. HriImageProps.digits.
  repeat match goal with H : HriImageSpec.digit_or_blank ?x |- _ => pose proof (fun w => proj1 (digit_same x H w)); pose proof (proj2 (digit_same x H 0)); clear H end.
  cbn [sum_digits HriImageSpec.decimal List.length Z.of_nat Pos.of_succ_nat Pos.succ].
  change (10 ^ 0) with 1; change (10 ^ 1) with 10; change (10 ^ 2) with 100; change (10 ^ 3) with 1000; change (10 ^ 4) with 10000.
  split; [f_equal|lia]. repeat match goal with H : forall w, digit w ?x = _ |- _ => rewrite !H; clear H end. lia.
Qed.
Lemma header_number3 h off c : bytes_at h off 3 = Ok c -> Forall HriImageSpec.digit_or_blank c -> List.length c = 3%nat ->
  OmtpModel.r4_from_char3 h off = Ok (HriImageSpec.decimal c) /\ 0 <= HriImageSpec.decimal c < 1000.
Proof.
  intros E F L. unfold OmtpModel.r4_from_char3, chars. cbn [List.length]. rewrite E. cbn [bind].
  do 3 (destruct c as [|? c]; [discriminate|]). destruct c; [|discriminate]. HriImageProps.digits.
  repeat match goal with H : HriImageSpec.digit_or_blank ?x |- _ => pose proof (fun w => proj1 (digit_same x H w)); pose proof (proj2 (digit_same x H 0)); clear H end.
  cbn [sum_digits HriImageSpec.decimal List.length Z.of_nat Pos.of_succ_nat Pos.succ].
  change (10 ^ 0) with 1; change (10 ^ 1) with 10; change (10 ^ 2) with 100.
  split; [f_equal|lia]. repeat match goal with H : forall w, digit w ?x = _ |- _ => rewrite !H; clear H end. lia.
Qed.
Lemma bytes_at_length h off n c : bytes_at h off n = Ok c -> List.length c = n.
Proof.
  unfold bytes_at. intro H. destruct (Nat.leb_spec (off + n) (List.length h)); [|discriminate]. injection H as <-. rewrite firstn_length, skipn_length. lia.
Qed.
Theorem C125_meteosat7_partial : forall neg hs h c5 c3,
  (139 <= List.length h)%nat -> bytes_at h 32 2 = Ok (codes "M7") ->
  bytes_at h 44 5 = Ok c5 -> Forall HriImageSpec.digit_or_blank c5 -> bytes_at h 49 3 = Ok c3 -> Forall HriImageSpec.digit_or_blank c3 ->
  exists table, omtp_calibration neg hs h = Ok table /\
    (word h 40 = 4 \/ word h 40 = 5 -> forall i, 0 <= i <= 255 -> right_at meteosat_ir (coefficient c5) (space_count c3) table i) /\
    (word h 40 = 6 \/ word h 40 = 7 -> forall i, 0 <= i <= 255 -> right_at meteosat_wv (coefficient c5) (space_count c3) table i) /\
    (1 <= word h 40 <= 3 -> forall i, table i = Fin (IZR i * 100 / 255)).
Proof.
  intros neg hs h c5 c3 L M E5 F5 E3 F3. unfold omtp_calibration, text_at. rewrite M. cbn [bind].
  change (str_eq (c_string (codes "M7")) (codes "M7")) with true. cbn [negb].
  destruct (header_number5 _ _ _ E5 F5 (bytes_at_length _ _ _ _ E5)) as [N5 B5].
  destruct (header_number3 _ _ _ E3 F3 (bytes_at_length _ _ _ _ E3)) as [N3 B3].
  rewrite N5, N3. cbn [bind]. unfold is_ir_data, is_wv_data, is_vis_data, is_visible_composite, chan_is.
  rewrite int4_word by lia. cbn [bind].
  assert (CC : (0 <= coefficient c5 <= 1)%R).
  { unfold coefficient. assert (0 <= IZR (HriImageSpec.decimal c5) <= 100000)%R by (split; apply IZR_le; lia). lra. }
  assert (SC : (0 <= space_count c3)%R).
  { unfold space_count. assert (0 <= IZR (HriImageSpec.decimal c3))%R by (apply IZR_le; lia). lra. }
  fold (coefficient c5) (space_count c3). set (cc := coefficient c5) in *. set (sc := space_count c3) in *. set (k := word h 40).
  assert (EQ : forall ab ab' t i, fst ab = fst ab' -> snd ab = snd ab' -> right_at ab cc sc t i -> right_at ab' cc sc t i).
  { intros ab ab' t i H1 H2 H. unfold right_at in *. now rewrite <- H1, <- H2. }
  destruct ((k =? 4) || (k =? 5)) eqn:IR; [|destruct ((k =? 6) || (k =? 7)) eqn:WV; [|destruct ((k =? 1) || (k =? 2) || (k =? 3)) eqn:VIS]].
  - eexists. split; [reflexivity|]. split; [|split; [lia|lia]]. intros _ i I.
    eapply EQ; [| |apply radiometer; try assumption; lra]; cbn [fst snd meteosat_ir]; lra.
  - eexists. split; [reflexivity|]. split; [lia|split; [|lia]]. intros _ i I.
    eapply EQ; [| |apply radiometer; try assumption; lra]; cbn [fst snd meteosat_wv]; lra.
  - eexists. split; [reflexivity|]. split; [lia|split; [lia|]]. intros _ i. unfold visible. f_equal. lra.
  - eexists. split; [reflexivity|]. split; [lia|split; [lia|lia]].
Qed.
Print Assumptions C125_meteosat7_partial.
(** Brighter counts are warmer. *)
Theorem C125_increasing : forall ab cc sc table i j t t', (0 < snd ab)%R -> (0 < cc)%R -> (sc < IZR i)%R -> i < j ->
  right_at ab cc sc table i -> right_at ab cc sc table j -> table i = Fin t -> table j = Fin t' -> (0 < t < t')%R.
Proof.
  intros ab cc sc table i j t t' B C S1 IJ [HI _] [HJ _] E E'. apply IZR_lt in IJ.
  destruct (HI C S1) as (u & U & EU & _). destruct (HJ C ltac:(lra)) as (v & V & EV & _).
  rewrite E in U. rewrite E' in V. injection U as <-. injection V as <-. split; [exact (proj1 EU)|].
  apply (emits_increasing _ _ _ _ _ _ B EU EV). apply Rmult_lt_compat_l; lra.
Qed.
Print Assumptions C125_increasing.
(** Files of any other satellite get a table of ones, in kelvin all the same. *)
Theorem C125_refuted_other_satellites : forall neg hs h n, (139 <= List.length h)%nat -> bytes_at h 32 2 = Ok n -> c_string n <> codes "M7" ->
  exists table, omtp_calibration neg hs h = Ok table /\ (forall i, table i = Fin 1) /\
    (word h 40 = 4 -> get_chunit hs h = Ok "K"%string).
Proof.
  intros neg hs h n L E D. unfold omtp_calibration, text_at. rewrite E. cbn [bind].
  unfold str_eq. destruct (list_eq_dec Z.eq_dec (c_string n) (codes "M7")); [contradiction|]. cbn [negb].
  eexists. split; [reflexivity|]. split; [reflexivity|]. intros W.
  unfold get_chunit, is_vis_data, is_ir_data, is_visible_composite, chan_is. rewrite int4_word by lia. cbn [bind]. rewrite W. reflexivity.
Qed.
Print Assumptions C125_refuted_other_satellites.
Definition sample_sec1 : list Z :=
  repeat 0 8 ++ be 4 2004 ++ repeat 0 12 ++ be 4 40229 ++ be 4 1830 ++ codes "M7" ++ [0; 0] ++ be 4 0 ++ be 4 4 ++ codes "0769 050100 7" ++ repeat 0 82.
Example C125_case : (139 <= List.length sample_sec1)%nat /\ bytes_at sample_sec1 32 2 = Ok (codes "M7") /\
  bytes_at sample_sec1 44 5 = Ok (codes "0769 ") /\ bytes_at sample_sec1 49 3 = Ok (codes "050") /\ word sample_sec1 40 = 4 /\
  coefficient (codes "0769 ") = 0.0769%R /\ space_count (codes "050") = 5%R.
Proof.
  split; [vm_compute; lia|]. split; [vm_compute; reflexivity|]. split; [vm_compute; reflexivity|]. split; [vm_compute; reflexivity|]. split; [vm_compute; reflexivity|].
  unfold coefficient, space_count.
  replace (HriImageSpec.decimal (codes "0769 ")) with 7690 by (vm_compute; reflexivity).
  replace (HriImageSpec.decimal (codes "050")) with 50 by (vm_compute; reflexivity). split; lra.
Qed.

(** ** C126. HRI images are calibrated with their own coefficients *)
(** The constants of the radiometers flown on the satellites. *)
Definition constants (sat : hsat) (b : hband) : option (R * R) :=
  match sat, b with
  | METEOSAT, HIR => Some meteosat_ir
  | METEOSAT, HWV => Some meteosat_wv
  | INDOX, HIR => Some indoex_ir
  | INDOX, HWV => Some indoex_wv
  | _, _ => None
  end.
(** The pair of the header that belongs to a band. *)
Definition own_pair (ir wv : R * R) (b : hband) : R * R := match b with HIR => ir | _ => wv end.
Definition formats : list string := ["AV"; "AVH"; "AW"; "AIW"; "AIVH"; "BW"; "BIV"; "BIVH"; "BIW"; "XI"; "XW"; "XVH"]%string.
Definition valid_pair (p : R * R) : Prop := (0 <= fst p <= 1)%R /\ (0 <= snd p)%R.
Lemma hri_radiometer neg sat b ab p i : constants sat b = Some ab -> valid_pair p -> 0 <= i <= 255 ->
  right_at ab (fst p) (snd p) (hri_calibration neg sat b (Some p)) i.
Proof.
  intros C [V1 V2] I. destruct p as [cc sc]. cbn [fst snd] in *.
  assert (EQ : forall a b' ab' t, a = fst ab' -> b' = snd ab' -> right_at (a, b') cc sc t i -> right_at ab' cc sc t i).
  { intros a b' ab' t H1 H2 H. unfold right_at in *. cbn [fst snd] in H. now rewrite <- H1, <- H2. }
  destruct sat, b; try discriminate C; injection C as <-; cbn [hri_calibration];
    (eapply EQ; [| |apply radiometer; try assumption; lra]); cbn [fst snd meteosat_ir meteosat_wv indoex_ir indoex_wv]; lra.
Qed.
Lemma bind_inv {A B} (x : outcome A) (f : A -> outcome B) r : bind x f = Ok r -> exists a, x = Ok a /\ f a = Ok r.
Proof. destruct x; try discriminate. eauto. Qed.
Theorem C126_own_coefficients_partial : forall neg format x ims ir wv junk sat b src ab i,
  hri_images format x = Some ims -> format <> "XW"%string -> In (sat, b, src) ims -> constants sat b = Some ab ->
  valid_pair ir -> valid_pair wv -> 0 <= i <= 255 ->
  let own := own_pair ir wv b in right_at ab (fst own) (snd own) (image_table neg ir wv junk (sat, b, src)) i.
Proof.
  intros neg format x ims ir wv junk sat b src ab i E NX IN C VI VW I own.
  assert (G : src = match b with HIR => FromIR | _ => FromWV end).
  { unfold hri_images in E. repeat match type of E with (if ?c then _ else _) = _ => destruct c eqn:? end; try discriminate;
      injection E as <-; cbn [In] in IN; repeat (destruct IN as [IN|IN]; [injection IN as ? ? ?; subst; try reflexivity; try discriminate C|]); try contradiction.
    all: try (destruct sat; discriminate C).
    exfalso. apply NX. match goal with H : String.eqb _ "XW" = true |- _ => now apply String.eqb_eq in H end. }
  unfold own, own_pair. cbn [image_table]. rewrite G. destruct b; cbn [own_pair]; try (now apply hri_radiometer); destruct sat; discriminate C.
Qed.
Print Assumptions C126_own_coefficients_partial.
(** The coefficients are the characters 51-58 and 64-71 of the interpretation data. *)
Lemma hri_pair_value hsi off c5 c3 : bytes_at hsi off 5 = Ok c5 -> bytes_at hsi (off + 5) 3 = Ok c3 ->
  Forall HriImageSpec.digit_or_blank c5 -> Forall HriImageSpec.digit_or_blank c3 ->
  hri_pair hsi off = Ok (coefficient c5, space_count c3) /\ valid_pair (coefficient c5, space_count c3).
Proof.
  intros E5 E3 F5 F3. pose proof (bytes_at_length _ _ _ _ E5) as L5. pose proof (bytes_at_length _ _ _ _ E3) as L3.
  destruct (HriImageProps.C50_fixed_point c5 F5) as (_ & _ & G & _). destruct (G L5) as (q & Q1 & Q2).
  destruct (HriImageProps.C50_fixed_point c3 F3) as (_ & _ & _ & _ & G3). destruct (G3 L3) as (q3 & Q31 & Q32).
  destruct (header_number5 _ _ _ E5 F5 L5) as [_ B5]. destruct (header_number3 _ _ _ E3 F3 L3) as [_ B3].
  assert (V5 : Q2R q = coefficient c5).
  { rewrite (Qeq_eqR _ _ Q2). unfold HriImageSpec.decimals, coefficient. rewrite Q2R_div by (cbn; discriminate).
    unfold Q2R, inject_Z. cbn [Qnum Qden]. change (10 ^ Z.of_nat 5) with 100000. rewrite Rinv_1. unfold Rdiv. now rewrite !Rmult_1_r. }
  assert (V3 : Q2R q3 = space_count c3).
  { rewrite (Qeq_eqR _ _ Q32). unfold HriImageSpec.decimals, space_count. rewrite Q2R_div by (cbn; discriminate).
    unfold Q2R, inject_Z. cbn [Qnum Qden]. change (10 ^ Z.of_nat 1) with 10. rewrite Rinv_1. unfold Rdiv. now rewrite !Rmult_1_r. }
  split.
  - unfold hri_pair. rewrite E5. cbn [bind]. rewrite E3. cbn [bind]. rewrite Q1. cbn [bind]. rewrite Q31. cbn [bind]. now rewrite V5, V3.
  - unfold valid_pair, coefficient, space_count. cbn [fst snd].
    assert (0 <= IZR (HriImageSpec.decimal c5) <= 100000)%R by (split; apply IZR_le; lia).
    assert (0 <= IZR (HriImageSpec.decimal c3))%R by (apply IZR_le; lia). lra.
Qed.
Theorem C126_header_coefficients : forall hsi i5 i3 w5 w3,
  bytes_at hsi 51 5 = Ok i5 -> bytes_at hsi 56 3 = Ok i3 -> bytes_at hsi 64 5 = Ok w5 -> bytes_at hsi 69 3 = Ok w3 ->
  Forall HriImageSpec.digit_or_blank (i5 ++ i3 ++ w5 ++ w3) ->
  hri_ir hsi = Ok (coefficient i5, space_count i3) /\ valid_pair (coefficient i5, space_count i3) /\
  hri_wv hsi = Ok (coefficient w5, space_count w3) /\ valid_pair (coefficient w5, space_count w3).
Proof.
  intros hsi i5 i3 w5 w3 A1 A2 A3 A4 F. rewrite !Forall_app in F. destruct F as (F1 & F2 & F3 & F4).
  destruct (hri_pair_value hsi 51 i5 i3 A1 A2 F1 F2). destruct (hri_pair_value hsi 64 w5 w3 A3 A4 F3 F4). auto.
Qed.
Print Assumptions C126_header_coefficients.
(** Every format the reader knows is covered. *)
Theorem C126_formats : forall format x, hri_images format x <> None <-> In format formats.
Proof.
  intros format x. split.
  - intro H. unfold hri_images in H. repeat match type of H with (if ?c then _ else _) <> _ => destruct c eqn:? end; try (now contradiction H);
      repeat match goal with K : (_ || _)%bool = true |- _ => apply orb_true_iff in K; destruct K as [K|K] end;
      repeat match goal with K : String.eqb _ _ = true |- _ => apply String.eqb_eq in K end; subst; cbn; tauto.
  - intro H. cbn in H. repeat (destruct H as [<-|H]; [discriminate|]). contradiction.
Qed.
Print Assumptions C126_formats.
(** Water vapour images of the X formats are calibrated with a structure that nothing
    was written to: whatever the header says, the table depends on what was there. *)
Theorem C126_refuted_xw : forall neg ir wv i, (0 < fst wv <= 1)%R -> (0 <= snd wv < IZR i)%R -> 0 <= i <= 255 ->
  exists im junk junk', hri_images "XW" INDOX = Some [im] /\
    image_table neg ir wv junk im i <> image_table neg ir wv junk' im i /\
    ~ right_at indoex_wv (fst wv) (snd wv) (image_table neg ir wv junk im) i.
Proof.
  intros neg ir wv i C S1 I. exists (INDOX, HWV, Unwritten), (0, 0)%R, wv. split; [reflexivity|]. cbn [image_table].
  pose proof (hri_radiometer neg INDOX HWV _ wv i eq_refl ltac:(split; lra) I) as [HW _].
  destruct (HW ltac:(lra) ltac:(lra)) as (t & Et & [Pt _] & _).
  pose proof (hri_radiometer neg INDOX HWV _ (0, 0)%R i eq_refl ltac:(split; cbn [fst snd]; lra) I) as [_ H0].
  assert (E0 : hri_calibration neg INDOX HWV (Some (0, 0)%R) i = Fin 0) by (apply H0; left; reflexivity).
  rewrite E0, Et. split; [intro H; injection H as H; lra|].
  intros [H1 _]. destruct (H1 ltac:(lra) ltac:(lra)) as (u & Eu & [Pu _] & _). rewrite E0 in Eu. injection Eu as <-. lra.
Qed.
Print Assumptions C126_refuted_xw.
(** Water vapour images of the other satellites of the X formats are ones, in kelvin. *)
Theorem C126_refuted_goes_wv : forall neg sat coeff i, sat = GOES_E \/ sat = GOES_W \/ sat = GMS ->
  hri_calibration neg sat HWV coeff i = Fin 1 /\ hri_unit HWV = "K"%string.
Proof. intros neg sat coeff i [->|[->| ->]]; split; reflexivity. Qed.
Print Assumptions C126_refuted_goes_wv.
(** Infrared counts of the other satellites: tables that never decrease, between 130
    and 331 kelvin. *)
Fixpoint sorted_to (k : Z) (l : list Z) : bool := match l with [] => true | x :: l' => (k <=? x) && sorted_to x l' end.
Lemma sorted_nth l k : sorted_to k l = true -> forall i j, (i <= j < List.length l)%nat -> k <= nth i l 0 <= nth j l 0.
Proof.
  revert k. induction l as [|x l IH]; intros k H i j IJ; [cbn in IJ; lia|]. cbn [sorted_to] in H. apply andb_true_iff in H. destruct H as [H1 H2].
  apply Z.leb_le in H1. cbn [List.length] in IJ. destruct i as [|i], j as [|j]; cbn [nth]; try lia.
  - specialize (IH x H2 j j ltac:(lia)). lia.
  - specialize (IH x H2 i j ltac:(lia)). lia.
Qed.
Theorem C126_infrared_tables : forall neg sat coeff i j, sat = GOES_E \/ sat = GOES_W \/ sat = GMS -> 0 <= i <= j -> j <= 255 ->
  exists t t', hri_calibration neg sat HIR coeff i = Fin t /\ hri_calibration neg sat HIR coeff j = Fin t' /\ (130 <= t <= t' /\ t' <= 331)%R.
Proof.
  intros neg sat coeff i j H IJ J.
  assert (RI : (0 <= IZR i <= IZR j /\ IZR j <= 255)%R) by (repeat split; apply IZR_le; lia).
  destruct H as [->|[->| ->]]; cbn [hri_calibration].
  - destruct (Z.ltb_spec i 79) as [A|A], (Z.ltb_spec j 79) as [B|B]; eexists; eexists; (split; [reflexivity|]); (split; [reflexivity|]);
      try (assert (IZR i <= 78)%R by (apply IZR_le; lia)); try (assert (IZR j <= 78)%R by (apply IZR_le; lia)); try (assert (79 <= IZR i)%R by (apply IZR_le; lia)); try (assert (79 <= IZR j)%R by (apply IZR_le; lia)); try lra; lia.
  - eexists. eexists. split; [reflexivity|]. split; [reflexivity|]. lra.
  - eexists. eexists. split; [reflexivity|]. split; [reflexivity|].
    pose proof (sorted_nth gms_ir_cal 13000 eq_refl (Z.to_nat i) (Z.to_nat j) ltac:(change (List.length gms_ir_cal) with 256%nat; lia)) as [S1 S2].
    pose proof (sorted_nth gms_ir_cal 13000 eq_refl (Z.to_nat j) 255%nat ltac:(change (List.length gms_ir_cal) with 256%nat; lia)) as [_ S3].
    change (nth 255 gms_ir_cal 0) with 32773 in S3.
    apply IZR_le in S1. apply IZR_le in S2. apply IZR_le in S3. lra.
Qed.
Print Assumptions C126_infrared_tables.
(** Visible counts are per cent of the range, but for GMS, whose counts are squares of
    a fraction: never above 1, in the same unit. *)
Theorem C126_visible : forall neg sat b coeff i, (b = HVIS -> sat = METEOSAT) -> b = HVIS \/ b = HVH -> sat <> GMS ->
  hri_calibration neg sat b coeff i = Fin (IZR i * 100 / 255) /\ hri_unit b = "%"%string.
Proof.
  intros neg sat b coeff i H1 H2 H3. assert (E : visible i = Fin (IZR i * 100 / 255)) by (unfold visible; f_equal; lra).
  rewrite <- E. destruct H2 as [->| ->]; [rewrite H1 by reflexivity; split; reflexivity|]. destruct sat; try (split; reflexivity). contradiction.
Qed.
Print Assumptions C126_visible.
Fixpoint squares (k : Z) (l : list Z) : bool :=
  match l with [] => true | x :: l' => (Z.abs (x * 3969 - (k / 4) ^ 2 * 1000000) <=? 3969) && squares (k + 1) l' end.
Lemma squares_nth l k : squares k l = true -> forall i, (i < List.length l)%nat -> Z.abs (nth i l 0 * 3969 - ((k + Z.of_nat i) / 4) ^ 2 * 1000000) <= 3969.
Proof.
  revert k. induction l as [|x l IH]; intros k H i I; [cbn in I; lia|]. cbn [squares] in H. apply andb_true_iff in H. destruct H as [H1 H2]. apply Z.leb_le in H1.
  destruct i as [|i]; cbn [nth]; [now replace (k + Z.of_nat 0) with k by lia|]. cbn [List.length] in I.
  specialize (IH (k + 1) H2 i ltac:(lia)). now replace (k + Z.of_nat (S i)) with (k + 1 + Z.of_nat i) by lia.
Qed.
Theorem C126_refuted_gms_visible : forall neg coeff i, 0 <= i <= 255 ->
  exists r, hri_calibration neg GMS HVH coeff i = Fin r /\ (Rabs (r - (IZR (i / 4) / 63) ^ 2) <= / 1000000)%R /\ (r < 1.1)%R /\ hri_unit HVH = "%"%string.
Proof.
  intros neg coeff i I. cbn [hri_calibration]. eexists. split; [reflexivity|].
  pose proof (squares_nth gms_vh_cal 0 eq_refl (Z.to_nat i) ltac:(change (List.length gms_vh_cal) with 256%nat; lia)) as H.
  rewrite Z2Nat.id, Z.add_0_l in H by lia. set (x := nth (Z.to_nat i) gms_vh_cal 0) in *. set (k := i / 4) in *.
  assert (K : 0 <= k <= 63) by lia.
  assert (H2 : - 3969 <= x * 3969 - k ^ 2 * 1000000 <= 3969) by lia.
  assert (K2 : k ^ 2 <= 3969) by nia. rewrite Z.pow_2_r in *.
  destruct H2 as [H2 H3]. apply IZR_le in H2. apply IZR_le in H3. apply IZR_le in K2. rewrite minus_IZR, !mult_IZR in *. rewrite ?opp_IZR in *.
  assert (E : (IZR x / 1000000 - (IZR k / 63) ^ 2 = (IZR x * 3969 - IZR k * IZR k * 1000000) / 3969000000)%R) by (field).
  split; [rewrite E; apply Rabs_le; lra|]. split; [|reflexivity]. lra.
Qed.
Print Assumptions C126_refuted_gms_visible.
Example C126_case : hri_images "AIW" INDOX = Some [(METEOSAT, HIR, FromIR); (METEOSAT, HWV, FromWV)] /\ valid_pair (0.0769, 5)%R /\
  hri_pair (repeat 32 51 ++ codes "07690050" ++ repeat 32 20) 51 = Ok (coefficient (codes "07690"), space_count (codes "050")).
Proof.
  split; [reflexivity|]. split; [unfold valid_pair; cbn [fst snd]; lra|].
  apply hri_pair_value; try (vm_compute; reflexivity); repeat constructor; unfold HriImageSpec.digit_or_blank; cbn; lia.
Qed.

(** ** C127. Calibrated datasets *)
(** Pixels hold the physical values of the source, and the scale and offset say so. *)
Theorem C127_values_partial : forall b x y l, r_u16 b = true -> r_block b x y = Some l ->
  exists l', r_block (calibrated b) x y = Some l' /\
    map (fun v => v * r_scale (calibrated b) + r_offset (calibrated b))%R l' = map (fun v => v * r_scale b + r_offset b)%R l.
Proof.
  intros b x y l U E. unfold calibrated. rewrite U. cbn [r_block r_scale r_offset]. rewrite E. eexists. split; [reflexivity|].
  rewrite map_map. apply map_ext. intro v. lra.
Qed.
Print Assumptions C127_values_partial.
(** Other types are passed on, so that calibrating again changes nothing. *)
Theorem C127_idempotent : forall b, calibrated (calibrated b) = calibrated b.
Proof. intro b. unfold calibrated. destruct (r_u16 b) eqn:E; cbn [r_u16]; [reflexivity|now rewrite E]. Qed.
Print Assumptions C127_idempotent.
(** The announced minimum and maximum bound the pixels when the scale is positive. *)
Theorem C127_bounds_partial : forall b x y l l', r_u16 b = true -> (0 <= r_scale b)%R -> r_block b x y = Some l ->
  (forall v, In v l -> r_min b <= v <= r_max b)%R -> r_block (calibrated b) x y = Some l' ->
  (forall v, In v l' -> r_min (calibrated b) <= v <= r_max (calibrated b))%R.
Proof.
  intros b x y l l' U P E H. unfold calibrated. rewrite U. cbn [r_block r_min r_max]. rewrite E. intro E'. injection E' as <-.
  intros v V. apply in_map_iff in V. destruct V as (u & <- & V). specialize (H u V). nra.
Qed.
Print Assumptions C127_bounds_partial.
(** With a negative scale they are the wrong way round. *)
Theorem C127_refuted_bounds : forall b, r_u16 b = true -> (r_scale b < 0)%R -> (r_min b < r_max b)%R -> (r_max (calibrated b) < r_min (calibrated b))%R.
Proof. intros b U P H. unfold calibrated. rewrite U. cbn [r_min r_max]. nra. Qed.
Print Assumptions C127_refuted_bounds.
(** Missing pixels are found again only if the calibrated no-data count happens to be 0. *)
Theorem C127_refuted_nodata : forall b, r_u16 b = true ->
  (r_nodata b * r_scale b + r_offset b = r_nodata (calibrated b) <-> r_offset b = - (r_nodata b * r_scale b))%R.
Proof. intros b U. unfold calibrated. rewrite U. cbn [r_nodata]. lra. Qed.
Print Assumptions C127_refuted_nodata.
Definition sample_raster : raster := mk_raster true (-0.5) 40 0 1 10 (fun _ _ => Some [1; 0; 10]%R).
Example C127_case : (r_max (calibrated sample_raster) < r_min (calibrated sample_raster))%R /\
  (r_nodata sample_raster * r_scale sample_raster + r_offset sample_raster <> r_nodata (calibrated sample_raster))%R.
Proof. split; cbn; lra. Qed.

(** ** C128. The reflectance of a radiance: no channel is accepted. *)
Theorem C128_refuted_terminates : forall chnum body, radiance_to_reflectance chnum body = Terminate.
Proof. intros chnum body. unfold radiance_to_reflectance. replace (_ || _)%bool with true by lia. reflexivity. Qed.
Print Assumptions C128_refuted_terminates.

(** ** C129. Zenith angle of a scan angle: the sine rule up to the limb, the horizon
    beyond. *)
Theorem C129_zenith_partial : forall scan h, (0 <= scan <= PI / 2)%R -> (0 <= h)%R ->
  exists z, scan2zen scan h = Fin z /\ (0 <= z <= PI / 2)%R /\
    ((6357 + h) * sin scan <= 6357 -> 6357 * sin z = (6357 + h) * sin scan)%R /\
    (6357 < (6357 + h) * sin scan -> z = PI / 2)%R.
Proof.
  intros scan h S1 H. assert (P : (0 <= sin scan)%R) by (apply sin_ge_0; pose proof PI_RGT_0; lra).
  unfold scan2zen. set (t := ((6357 + h) * (sin scan / 6357))%R).
  assert (T : (t * 6357 = (6357 + h) * sin scan)%R) by (unfold t; field). assert (T0 : (0 <= t)%R) by nra. clearbody t.
  destruct (Rlt_dec 1 t).
  - destruct (Rlt_dec 1 (-1)); [lra|]. rewrite asin_1. eexists. split; [reflexivity|]. pose proof PI_RGT_0. repeat split; lra.
  - destruct (Rlt_dec t (-1)); [lra|]. eexists. split; [reflexivity|].
    assert (B : (-1 <= t <= 1)%R) by lra. pose proof (sin_asin t B) as E. pose proof (asin_bound t) as AB.
    assert (A0 : (0 <= asin t)%R). { destruct (Rlt_dec (asin t) 0) as [N|]; [|lra]. pose proof (sin_lt_0_var (asin t) ltac:(pose proof PI_RGT_0; lra) N). lra. }
    split; [lra|]. split; [rewrite E; lra|]. intro. lra.
Qed.
Print Assumptions C129_zenith_partial.
(** Towards the other side of the disc there is no angle at all beyond the limb. *)
Theorem C129_refuted_negative : forall scan h, (0 <= h)%R -> ((6357 + h) * sin scan < -6357)%R -> scan2zen scan h = Nan.
Proof.
  intros scan h H P. unfold scan2zen. set (t := ((6357 + h) * (sin scan / 6357))%R).
  assert (T : (t * 6357 = (6357 + h) * sin scan)%R) by (unfold t; field). clearbody t.
  destruct (Rlt_dec 1 t); [lra|]. destruct (Rlt_dec t (-1)); [reflexivity|lra].
Qed.
Print Assumptions C129_refuted_negative.
Example C129_case : scan2zen (- (PI / 2)) 35785 = Nan.
Proof. apply C129_refuted_negative; [lra|]. rewrite sin_neg, sin_PI2. lra. Qed.
