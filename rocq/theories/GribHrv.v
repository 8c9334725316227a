(** Numerical bounds: the pixel size of high resolution images through the
    apparent size of the earth. *)
From Coq Require Import ZArith Reals Ratan Lra Lia Psatz List.
From Flocq Require Import Core.
From Verif Require Import Base GeoFloat SunModel PixModel PixProps.
Import ListNotations.
Open Scope R_scope.

Lemma PI_bounds : 3.1415926 < PI < 3.1415927.
Proof.
  destruct (PI_2_3_7_ineq 4) as [A B]. cbn [Nat.mul Nat.add sum_f_R0] in A, B. unfold tg_alt, PI_2_3_7_tg, Ratan_seq in A, B. cbn [Nat.mul Nat.add pow INR] in A, B. lra.
Qed.
Lemma asin_gt b : 0 <= b <= 1 -> sin b < rrh -> b < asin rrh.
Proof.
  intros B H. pose proof PI_bounds as P. assert (R1 : -1 <= rrh <= 1) by (unfold rrh, EARTH_RADIUS, ORBIT_RADIUS; lra). destruct (asin_bound rrh) as [A1 A2]. destruct (Rlt_le_dec b (asin rrh)) as [L|L]; [exact L|]. exfalso. assert (sin (asin rrh) <= sin b) by (apply sin_incr_1; lra). rewrite sin_asin in H0 by exact R1. lra.
Qed.
Lemma asin_lt b : 0 <= b <= 1 -> rrh < sin b -> asin rrh < b.
Proof.
  intros B H. pose proof PI_bounds as P. assert (R1 : -1 <= rrh <= 1) by (unfold rrh, EARTH_RADIUS, ORBIT_RADIUS; lra). destruct (asin_bound rrh) as [A1 A2]. destruct (Rlt_le_dec (asin rrh) b) as [L|L]; [exact L|]. exfalso. assert (sin b <= sin (asin rrh)) by (apply sin_incr_1; lra). rewrite sin_asin in H0 by exact R1. lra.
Qed.
Lemma asin_bounds : 0.151852 < asin rrh < 0.151853.
Proof.
  split.
  - apply asin_gt; [lra|]. destruct (pre_sin_bound 0.151852 0) as [_ B]; [lra|lra|]. eapply Rle_lt_trans; [exact B|]. unfold sin_approx, sin_term. cbn [Nat.mul Nat.add sum_f_R0]. rewrite !INR_IZR_INZ. replace (Z.of_nat (fact 5)) with 120%Z by (vm_compute; reflexivity). replace (Z.of_nat (fact 3)) with 6%Z by (vm_compute; reflexivity). replace (Z.of_nat (fact 1)) with 1%Z by (vm_compute; reflexivity). cbn [pow]. unfold rrh, EARTH_RADIUS, ORBIT_RADIUS. lra.
  - apply asin_lt; [lra|]. destruct (pre_sin_bound 0.151853 1) as [B _]; [lra|lra|]. eapply Rlt_le_trans; [|exact B]. unfold sin_approx, sin_term. cbn [Nat.mul Nat.add sum_f_R0]. rewrite !INR_IZR_INZ. replace (Z.of_nat (fact 7)) with 5040%Z by (vm_compute; reflexivity). replace (Z.of_nat (fact 5)) with 120%Z by (vm_compute; reflexivity). replace (Z.of_nat (fact 3)) with 6%Z by (vm_compute; reflexivity). replace (Z.of_nat (fact 1)) with 1%Z by (vm_compute; reflexivity). cbn [pow]. unfold rrh, EARTH_RADIUS, ORBIT_RADIUS. lra.
Qed.
Lemma tan_bounds y : 0 < y <= 1 / 100 -> y <= tan y <= y / (1 - y * y / 2).
Proof.
  intros H. pose proof PI_bounds as P. assert (C : 1 - y * y / 2 <= cos y). { destruct (pre_cos_bound y 0) as [B _]; [lra|lra|]. unfold cos_approx, cos_term in B. cbn [Nat.mul Nat.add sum_f_R0 pow fact INR] in B. lra. }
  assert (C1 : 0 < 1 - y * y / 2) by nra. split.
  - assert (T : 0 < tan y) by (apply tan_gt_0; lra). destruct (atan_upper _ T) as [_ A]. rewrite atan_tan in A by lra. lra.
  - unfold tan. assert (S : sin y < y) by (apply sin_lt_x; lra). unfold Rdiv. apply Rmult_le_compat; [apply Rlt_le, sin_gt_0; lra|apply Rlt_le, Rinv_0_lt_compat; lra|lra|]. apply Rinv_le_contravar; lra.
Qed.
(** The high resolution factor is stored as 10867 pixels across the earth. *)
Lemma hrv_dx : dx_exact (40927000 / 65536) = Ok 10867%Z.
Proof.
  pose proof PI_bounds as P. pose proof asin_bounds as A. unfold dx_exact, int_of. rewrite (round_away_near 10867); [reflexivity|]. set (a := asin rrh) in *.
  assert (X : 10866.6 < a * (40927000 / 65536) * 360 / PI < 10867.1). { split; (apply Rmult_lt_reg_r with PI; [lra|]); replace (a * (40927000 / 65536) * 360 / PI * PI) with (a * (40927000 / 65536) * 360) by (field; lra); lra. }
  apply Rabs_def1; lra.
Qed.
(** ... which is read as a pixel of another size. *)
Lemma hrv_size : exists r, pixelHSizeFromSeviriDX 10867 = Ok r /\ 1000.12 < r < 1000.13.
Proof.
  pose proof PI_bounds as P. pose proof asin_bounds as A. unfold pixelHSizeFromSeviriDX. cbn [Z.eqb Pos.eqb orb]. unfold pixelHSizeFromCFAC, cfac_exact. set (a := asin rrh) in *.
  assert (X : 40927100 < 10867 * PI / (a * 360) * 65536 < 40928000). { split; apply Rmult_lt_reg_r with (a * 360); try lra; replace (10867 * PI / (a * 360) * 65536 * (a * 360)) with (10867 * PI * 65536) by (field; lra); lra. }
  unfold int_of. set (t := round_away _). assert (T : (40927100 <= t <= 40928000)%Z).
  { unfold t. split; [rewrite <- (round_away_near 40927100 (IZR 40927100)) by (replace (IZR 40927100 - IZR 40927100) with 0 by ring; rewrite Rabs_R0; lra); apply Zrnd_le; [apply valid_rnd_N|lra]|rewrite <- (round_away_near 40928000 (IZR 40928000)) by (replace (IZR 40928000 - IZR 40928000) with 0 by ring; rewrite Rabs_R0; lra); apply Zrnd_le; [apply valid_rnd_N|lra]]. }
  clearbody t. replace ((- 2 ^ 31 <=? t) && (t <? 2 ^ 31))%Z with true by lia. cbn [bind]. replace (t =? 13642337)%Z with false by lia. replace (t =? -13642337)%Z with false by lia. replace (t =? 40927000)%Z with false by lia. replace (t =? -40927000)%Z with false by lia.
  eexists. split; [reflexivity|]. replace (PI / 180 / (10867 * PI / (a * 360))) with (2 * a / 10867) by (field; lra). set (y := 2 * a / 10867). assert (Y : 2 * 0.151852 / 10867 < y < 2 * 0.151853 / 10867) by (unfold y; lra). destruct (tan_bounds y) as [T1 T2]; [lra|]. unfold height, ORBIT_RADIUS, EARTH_RADIUS.
  assert (T3 : y / (1 - y * y / 2) <= y * 1.000001). { assert (0 < 1 - y * y / 2) by nra. apply Rmult_le_reg_r with (1 - y * y / 2); [assumption|]. replace (y / (1 - y * y / 2) * (1 - y * y / 2)) with y by (field; lra). nra. }
  lra.
Qed.
