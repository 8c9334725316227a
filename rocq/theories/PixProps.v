(** C108, C109: apparent size of the earth and pixel sizes. *)
From Coq Require Import ZArith Reals Lra Lia Psatz.
From Flocq Require Import Core.
From Verif Require Import Base GeoFloat SunModel PixModel.
Open Scope R_scope.

Lemma near_div k l a b x y : 0 <= k <= 9 -> 0 <= l <= 8 -> y <> 0 -> near k a x -> near l b y -> near (k + l + 2) (a / b) (x / y).
Proof. intros K L Y A B. unfold Rdiv. replace (k + l + 2) with (k + (l + 1) + 1) by ring. apply near_mul; [lra|lra|exact A|]. apply near_inv; [lra|exact Y|exact B]. Qed.
Lemma round_away_near z x : Rabs (x - IZR z) < / 2 -> round_away x = z.
Proof. intros H. apply Znearest_imp. exact H. Qed.
(** The number of pixels across the earth survives the conversion to a factor and
    back, in double arithmetic, whatever the values of pi and of the arc sine. *)
Theorem C108_round_trip a p dx : a <> 0 -> p <> 0 -> (- 2 ^ 31 <= dx < 2 ^ 31)%Z -> seviriDXFromCFAC a p (CFACFromSeviriDX a p dx) = Ok dx.
Proof.
  intros A P D. unfold seviriDXFromCFAC, CFACFromSeviriDX.
  assert (N1 : near 1 (rnd (IZR dx * p)) (IZR dx * p)) by apply rnd_near. assert (N2 : near 1 (rnd (a * 360)) (a * 360)) by apply rnd_near.
  assert (N3 : near 4 (rnd (IZR dx * p) / rnd (a * 360)) (IZR dx * p / (a * 360))). { replace 4 with (1 + 1 + 2) by ring. apply near_div; try lra; try assumption. }
  apply near_rnd in N3; [|lra]. set (c := rnd (rnd (IZR dx * p) / rnd (a * 360))) in *. assert (N4 : near 7 (a * c) (a * (IZR dx * p / (a * 360)))). { replace 7 with (0 + (4 + 2) + 1) by ring. apply near_mul; try lra; [apply near_refl|exact N3]. }
  apply near_rnd in N4; [|lra]. assert (N5 : near 10 (rnd (a * c) * 360) (a * (IZR dx * p / (a * 360)) * 360)). { replace 10 with (7 + 2 + 0 + 1) by ring. apply near_mul; try lra; [exact N4|apply near_refl]. }
  apply near_rnd in N5; [|lra]. assert (N6 : near 14 (rnd (rnd (a * c) * 360) / p) (IZR dx)). { assert (N7 : near 14 (rnd (rnd (a * c) * 360) * / p) (a * (IZR dx * p / (a * 360)) * 360 * / p)) by (replace 14 with (10 + 2 + (0 + 1) + 1) by ring; apply near_mul; try lra; [exact N5|apply near_inv; [lra|exact P|apply near_refl]]). replace (a * (IZR dx * p / (a * 360)) * 360 * / p) with (IZR dx) in N7 by (field; split; assumption). exact N7. }
  apply near_rnd in N6; [|lra]. destruct N6 as (e & E1 & E2). rewrite E2. unfold int_of. rewrite (round_away_near dx).
  - now replace ((- 2 ^ 31 <=? dx) && (dx <? 2 ^ 31))%Z with true by lia.
  - replace (IZR dx * (1 + e) - IZR dx) with (IZR dx * e) by ring. rewrite Rabs_mult. pose proof u_pos as U. assert (Rabs (IZR dx) <= 2147483648). { rewrite <- abs_IZR. apply IZR_le. lia. } pose proof (Rabs_pos e). pose proof (Rabs_pos (IZR dx)). assert (Rabs e <= 16 * / 10 ^ 15) by lra. assert (Rabs (IZR dx) * Rabs e <= 2147483648 * (16 * / 10 ^ 15)) by (apply Rmult_le_compat; assumption). lra.
Qed.
Print Assumptions C108_round_trip.

(** ** C109: pixel sizes *)
Lemma within_t a b : within a b = true -> Rabs (a - b) < 1 / 1000.
Proof. unfold within. destruct (Rlt_dec _ _); [auto|discriminate]. Qed.
Lemma int_of_int z : (- 2 ^ 31 <= z < 2 ^ 31)%Z -> int_of (IZR z) = Ok z.
Proof. intros H. unfold int_of. rewrite (round_away_near z) by (replace (IZR z - IZR z) with 0 by ring; rewrite Rabs_R0; lra). now replace ((- 2 ^ 31 <=? z) && (z <? 2 ^ 31))%Z with true by lia. Qed.
Lemma tan_atan x : tan (atan x) = x.
Proof. apply tan_atan. Qed.
Lemma height_pos : 35785862 < height < 35785864.
Proof. unfold height, ORBIT_RADIUS, EARTH_RADIUS. lra. Qed.
(** The nominal sizes read back as such. *)
Theorem C109_nominal psx : within psx PIXELSIZE = true \/ within psx (- PIXELSIZE) = true \/ within psx PIXELSIZE_HRV = true \/ within psx (- PIXELSIZE_HRV) = true -> exists r, pixelHSizeFromCFAC (CFACFromPixelHSize psx) = Ok r /\ Rabs (psx - r) < 1 / 1000.
Proof.
  intros H. unfold CFACFromPixelHSize. assert (K : forall z : Z, (- 2 ^ 31 <= z < 2 ^ 31)%Z -> int_of (IZR z / 65536 * 65536) = Ok z) by (intros z Z0; replace (IZR z / 65536 * 65536) with (IZR z) by field; now apply int_of_int).
  destruct (within psx PIXELSIZE) eqn:W1; [apply within_t in W1; exists PIXELSIZE; split; [unfold pixelHSizeFromCFAC; rewrite (K 13642337%Z) by lia; reflexivity|exact W1]|].
  destruct (within psx (- PIXELSIZE)) eqn:W2; [apply within_t in W2; exists (- PIXELSIZE); split; [unfold pixelHSizeFromCFAC; rewrite (K (-13642337)%Z) by lia; reflexivity|exact W2]|].
  destruct (within psx PIXELSIZE_HRV) eqn:W3; [apply within_t in W3; exists PIXELSIZE_HRV; split; [unfold pixelHSizeFromCFAC; rewrite (K 40927000%Z) by lia; reflexivity|exact W3]|].
  destruct (within psx (- PIXELSIZE_HRV)) eqn:W4; [apply within_t in W4; exists (- PIXELSIZE_HRV); split; [unfold pixelHSizeFromCFAC; rewrite (K (-40927000)%Z) by lia; reflexivity|exact W4]|].
  exfalso. destruct H as [H|[H|[H|H]]]; discriminate.
Qed.
Print Assumptions C109_nominal.
(** Every other size reads back exactly, unless its factor rounds to a nominal
    one or does not fit an int. *)
Theorem C109_other_partial psx t : psx <> 0 -> within psx PIXELSIZE = false -> within psx (- PIXELSIZE) = false -> within psx PIXELSIZE_HRV = false -> within psx (- PIXELSIZE_HRV) = false ->
  int_of (PI / atan (psx / height) / 180 * 65536) = Ok t -> ~ In t [13642337; -13642337; 40927000; -40927000]%Z -> pixelHSizeFromCFAC (CFACFromPixelHSize psx) = Ok psx.
Proof.
  intros N W1 W2 W3 W4 I NI. unfold CFACFromPixelHSize. rewrite W1, W2, W3, W4. unfold pixelHSizeFromCFAC. rewrite I. cbn [bind]. cbn [In] in NI. replace (t =? 13642337)%Z with false by lia. replace (t =? -13642337)%Z with false by lia. replace (t =? 40927000)%Z with false by lia. replace (t =? -40927000)%Z with false by lia.
  f_equal. pose proof height_pos as H. pose proof PI_RGT_0 as P. assert (A : atan (psx / height) <> 0). { intros A. assert (T : tan (atan (psx / height)) = 0) by (rewrite A; apply tan_0). rewrite tan_atan in T. apply N. apply Rmult_eq_reg_r with (/ height); [unfold Rdiv in T; lra|]. apply Rinv_neq_0_compat. lra. }
  replace (PI / 180 / (PI / atan (psx / height) / 180)) with (atan (psx / height)) by (field; repeat split; lra). rewrite tan_atan. field. lra.
Qed.
Print Assumptions C109_other_partial.
(** The factor of pixels of 18 metres or less does not fit the int it is converted
    to. *)
Lemma atan_upper x : 0 < x -> 0 < atan x < x.
Proof.
  intros H. split; [rewrite <- atan_0; now apply atan_increasing|]. destruct (MVT_cor2 atan (fun x => / (1 + x ^ 2)) 0 x H) as (c & E & C); [intros y _; apply derivable_pt_lim_atan|]. rewrite atan_0, !Rminus_0_r in E. rewrite E. assert (1 < 1 + c ^ 2) by nra. assert (/ (1 + c ^ 2) < 1) by (rewrite <- Rinv_1; apply Rinv_lt_contravar; lra). nra.
Qed.
Theorem C109_refuted_small psx : 0 < psx <= 18 -> pixelHSizeFromCFAC (CFACFromPixelHSize psx) = UB.
Proof.
  intros H. assert (W : forall b, 900 <= Rabs b -> within psx b = false). { intros b B. unfold within. destruct (Rlt_dec _ _) as [L|]; [|reflexivity]. exfalso. assert (Rabs b <= Rabs (psx - b) + Rabs psx) by (replace b with (- (psx - b) + psx) at 1 by ring; eapply Rle_trans; [apply Rabs_triang|]; rewrite Rabs_Ropp; lra). rewrite (Rabs_pos_eq psx) in H0 by lra. lra. }
  unfold CFACFromPixelHSize. rewrite !W by (rewrite ?Rabs_Ropp; rewrite Rabs_pos_eq; unfold PIXELSIZE, PIXELSIZE_HRV; lra). unfold pixelHSizeFromCFAC. pose proof height_pos as HP. pose proof PI2_3_2 as P. assert (Q : 0 < psx / height) by (apply Rmult_lt_0_compat; [lra|apply Rinv_0_lt_compat; lra]). destruct (atan_upper _ Q) as [A1 A2]. set (t := atan (psx / height)) in *.
  assert (B : 2147483648 <= PI / t / 180 * 65536). { assert (t <= 18 / 35785862). { apply Rlt_le. eapply Rlt_le_trans; [exact A2|]. apply Rmult_le_reg_r with height; [lra|]. unfold Rdiv at 1. rewrite Rmult_assoc, Rinv_l by lra. nra. }
    apply Rmult_le_reg_r with t; [exact A1|]. replace (PI / t / 180 * 65536 * t) with (PI * (65536 / 180)) by (field; lra). nra. }
  unfold int_of. assert (Z0 : (2147483648 <= round_away (PI / t / 180 * 65536))%Z). { rewrite <- (round_away_near 2147483648 (IZR 2147483648)) by (replace (IZR 2147483648 - IZR 2147483648) with 0 by ring; rewrite Rabs_R0; lra). apply Zrnd_le; [apply valid_rnd_N|exact B]. } set (z := round_away _) in *. clearbody z. now replace ((- 2 ^ 31 <=? z) && (z <? 2 ^ 31))%Z with false by lia.
Qed.
Print Assumptions C109_refuted_small.
(** The pixel size of the standard images survives the conversion to the size of
    the earth and back. *)
Theorem C109_seviri psx : within psx PIXELSIZE = true -> exists dx, seviriDXFromPixelHSize psx = Ok dx /\ pixelHSizeFromSeviriDX dx = Ok PIXELSIZE.
Proof. intros W. exists 3622%Z. unfold seviriDXFromPixelHSize, pixelHSizeFromSeviriDX. rewrite W. split; reflexivity. Qed.
Print Assumptions C109_seviri.
Example C109_case : within 3000.403 PIXELSIZE = true /\ within 5000 PIXELSIZE = false.
Proof. unfold within, PIXELSIZE. split; [destruct (Rlt_dec _ _) as [|N]; [reflexivity|exfalso; apply N; apply Rabs_def1; lra]|destruct (Rlt_dec _ _) as [L|]; [exfalso; apply Rabs_def2 in L; lra|reflexivity]]. Qed.
