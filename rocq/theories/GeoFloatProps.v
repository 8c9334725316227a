(** C54 in double precision (see GeoFloat.v). *)
From Coq Require Import ZArith Reals Lra Lia Psatz.
From Flocq Require Import Core Relative.
From Verif Require Import GeoFloat.
Open Scope R_scope.

(** In double precision too, every pixel of int coordinates comes back. The
    origin may be 2^40 pixels away. *)
Theorem C54_double_round_trip g i (x y : Z) px py : double (f0 g) -> double (f1 g) -> double (f3 g) -> double (f5 g) -> f2 g = 0 -> f4 g = 0 ->
  Rabs (f0 g) <= 2 ^ 40 * Rabs (f1 g) -> Rabs (f3 g) <= 2 ^ 40 * Rabs (f5 g) -> (Z.abs x <= 2 ^ 31)%Z -> (Z.abs y <= 2 ^ 31)%Z ->
  finvert g = Some i -> fpixelToProjected g x y = (px, py) -> fprojectedToPixel i px py = (x, y).
Proof.
  intros D0 D1 D3 D5 E2 E4 B0 B3 X Y I P. unfold finvert in I. destruct (Rlt_dec _ _) as [L|L]; [discriminate|]. injection I as <-. unfold fpixelToProjected in P. injection P as <- <-.
  unfold fprojectedToPixel. cbn [f0 f1 f2 f3 f4 f5]. rewrite E2, E4 in *. unfold fdet in *. rewrite E2, E4 in *. destruct g as [a0 a1 a2 a3 a4 a5]. cbn [f0 f1 f2 f3 f4 f5] in *. clear E2 E4 a2 a4.
  rewrite !Ropp_0, !Rmult_0_l, !Rmult_0_r, !rnd_0, !Rmult_0_r, !rnd_0, !Rminus_0_l, !Rminus_0_r, !Rplus_0_r in *. rewrite (rnd_double a3) by assumption.
  rewrite !(rnd_double (rnd _)) in * by apply rnd_is_double.
  assert (N : a1 * a5 <> 0). { intros Z. rewrite Z, rnd_0, Rabs_R0 in L. apply L. destruct (rnd_near (/ 10 ^ 15)) as (e & E & ->). pose proof u_pos. assert (Rabs e <= / 2) by nra. apply Rabs_le_inv in H0. apply Rmult_lt_0_compat; lra. }
  assert (N1 : a1 <> 0) by (intros Z; apply N; rewrite Z; ring). assert (N5 : a5 <> 0) by (intros Z; apply N; rewrite Z; ring).
  assert (V : near 4 (rnd (1 / rnd (a1 * a5))) (/ (a1 * a5))). { replace 4 with (1 + 1 + 2) by ring. apply near_rnd; [lra|]. unfold Rdiv. rewrite Rmult_1_l. apply near_inv; [lra|assumption|apply rnd_near]. }
  set (inv := rnd (1 / rnd (a1 * a5))) in *. clearbody inv.
  f_equal.
  - apply axis; try assumption.
    + replace (- (a0 / a1)) with (- (a0 * a5) * / (a1 * a5)) by (field; auto). replace 12 with (3 + 4 + 1 + 2 + 2) by ring.
      assert (K : near 10 (rnd (rnd (- rnd (a0 * a5)) * inv)) (- (a0 * a5) * / (a1 * a5))).
      { replace 10 with (3 + 4 + 1 + 2) by ring. apply near_rnd; [lra|]. apply near_mul; [lra|lra| |exact V]. replace 3 with (1 + 2) by ring. apply near_rnd; [lra|]. apply near_opp, rnd_near. }
      destruct K as (e & E & K). exists e. pose proof u_pos. split; [nra|exact K].
    + replace (/ a1) with (a5 * / (a1 * a5)) by (field; auto). assert (K : near 7 (rnd (a5 * inv)) (a5 * / (a1 * a5))).
      { replace 7 with (0 + 4 + 1 + 2) by ring. apply near_rnd; [lra|]. apply near_mul; [lra|lra|apply near_refl|exact V]. }
      destruct K as (e & E & K). exists e. pose proof u_pos. split; [nra|exact K].
  - apply axis; try assumption.
    + replace (- (a3 / a5)) with (- a1 * a3 * / (a1 * a5)) by (field; auto).
      assert (K : near 8 (rnd (rnd (- a1 * a3) * inv)) (- a1 * a3 * / (a1 * a5))).
      { replace 8 with (1 + 4 + 1 + 2) by ring. apply near_rnd; [lra|]. apply near_mul; [lra|lra|apply rnd_near|exact V]. }
      destruct K as (e & E & K). exists e. pose proof u_pos. split; [nra|exact K].
    + replace (/ a5) with (a1 * / (a1 * a5)) by (field; auto). assert (K : near 7 (rnd (a1 * inv)) (a1 * / (a1 * a5))).
      { replace 7 with (0 + 4 + 1 + 2) by ring. apply near_rnd; [lra|]. apply near_mul; [lra|lra|apply near_refl|exact V]. }
      destruct K as (e & E & K). exists e. pose proof u_pos. split; [nra|exact K].
Qed.
Print Assumptions C54_double_round_trip.

(** The geotransform of a SEVIRI image (metres, 3 km pixels) meets every
    hypothesis. *)
Definition seviri : fgeo := mk_fgeo (-5570248) 3000 0 5570248 0 (-3000).
Lemma double_int (n : Z) : (Z.abs n < 2 ^ 53)%Z -> double (IZR n).
Proof.
  intros N. apply generic_format_FLX. exists (Float radix2 n 0); [unfold F2R; cbn; ring|exact N].
Qed.
Example C54_double_case : exists i px py, finvert seviri = Some i /\ fpixelToProjected seviri 100 200 = (px, py) /\
  fprojectedToPixel i px py = (100, 200)%Z /\ px = -5270248 /\ py = 4970248.
Proof.
  assert (D : fdet seviri = -9000000).
  { unfold fdet, seviri. cbn [f1 f2 f4 f5]. replace (3000 * -3000) with (IZR (-9000000)) by (rewrite <- mult_IZR; reflexivity). rewrite (rnd_double (IZR _)) by (apply double_int; reflexivity).
    rewrite Rmult_0_r, rnd_0, Rminus_0_r. apply rnd_double, double_int. reflexivity. }
  destruct (finvert seviri) as [i|] eqn:I.
  - exists i. eexists. eexists. split; [reflexivity|]. split; [unfold fpixelToProjected; reflexivity|]. split.
    + refine (C54_double_round_trip seviri i 100 200 _ _ _ _ _ _ _ _ _ _ _ _ I eq_refl); unfold seviri; cbn [f0 f1 f2 f3 f4 f5]; try reflexivity; try (apply double_int; reflexivity); try lia.
      * rewrite <- !abs_IZR. replace (2 ^ 40) with (IZR (2 ^ 40)) by (cbn; lra). rewrite <- mult_IZR. apply IZR_le. vm_compute. discriminate.
      * rewrite <- !abs_IZR. replace (2 ^ 40) with (IZR (2 ^ 40)) by (cbn; lra). rewrite <- mult_IZR. apply IZR_le. vm_compute. discriminate.
    + unfold seviri. cbn [f0 f1 f2 f3 f4 f5]. rewrite !Rmult_0_l, rnd_0, !Rplus_0_r. rewrite <- !mult_IZR.
      rewrite !(rnd_double (IZR _)) by (apply double_int; reflexivity). rewrite <- !plus_IZR. rewrite !(rnd_double (IZR _)) by (apply double_int; reflexivity).
      split; reflexivity.
  - exfalso. unfold finvert in I. destruct (Rlt_dec _ _) as [L|L]; [|discriminate]. rewrite D in L.
    destruct (rnd_near (/ 10 ^ 15)) as (e & E & R). rewrite R in L. pose proof u_pos. assert (Rabs e <= 1) by nra. apply Rabs_le_inv in H0.
    rewrite Rabs_left in L by lra. nra.
Qed.
