(** C54 with rounding: the pixel conversions of msat/gdal/dataset.cpp:146-236 in
    binary64 arithmetic, for transforms without rotation (the ones all the
    drivers of gdal/ produce).

    Every operation is rounded to nearest even with 53 bits of precision;
    simplified: the exponent range is unbounded, so overflow and underflow do not
    occur. Real numbers bring the axioms of the standard library (listed by Print
    Assumptions). *)
From Coq Require Import ZArith Reals Lra Lia Psatz.
From Flocq Require Import Core Relative.
Open Scope R_scope.

(** One operation of the machine. *)
Definition rnd (x : R) : R := round radix2 (FLX_exp 53) ZnearestE x.
(** Numbers held by doubles. *)
Definition double (x : R) : Prop := generic_format radix2 (FLX_exp 53) x.

(** dataset.cpp:146-177, in the order the operations are performed; None is
    CE_Failure. *)
Record fgeo := mk_fgeo { f0 : R; f1 : R; f2 : R; f3 : R; f4 : R; f5 : R }.
Definition fdet (g : fgeo) : R := rnd (rnd (f1 g * f5 g) - rnd (f2 g * f4 g)).
Definition finvert (g : fgeo) : option fgeo :=
  if Rlt_dec (Rabs (fdet g)) (rnd (/ 10 ^ 15)) then None
  else
    let inv_det := rnd (1 / fdet g) in
    Some {| f1 := rnd (f5 g * inv_det); f4 := rnd (- f4 g * inv_det);
            f2 := rnd (- f2 g * inv_det); f5 := rnd (f1 g * inv_det);
            f0 := rnd (rnd (rnd (f2 g * f3 g) - rnd (f0 g * f5 g)) * inv_det);
            f3 := rnd (rnd (rnd (- f1 g * f3 g) + rnd (f0 g * f4 g)) * inv_det) |}.
(** dataset.cpp:224-230; the int coordinates are doubles exactly. *)
Definition fpixelToProjected (g : fgeo) (x y : Z) : R * R :=
  (rnd (rnd (f0 g + rnd (f1 g * IZR x)) + rnd (f2 g * IZR y)), rnd (rnd (f3 g + rnd (f4 g * IZR x)) + rnd (f5 g * IZR y))).
(** dataset.cpp:232-236; lrint is rounding to the nearest integer, ties to even. *)
Definition fprojectedToPixel (i : fgeo) (px py : R) : Z * Z :=
  (ZnearestE (rnd (rnd (f0 i + rnd (px * f1 i)) + rnd (py * f2 i))), ZnearestE (rnd (rnd (f3 i + rnd (px * f4 i)) + rnd (py * f5 i)))).

(** ** Relative errors *)
Definition u : R := / 2 ^ 53.
Definition near (k x y : R) : Prop := exists e, Rabs e <= k * u /\ x = y * (1 + e).
Lemma u_pos : 0 < u < / 10 ^ 15.
Proof. unfold u. split; [apply Rinv_0_lt_compat; lra|]. apply Rinv_lt_contravar; lra. Qed.
Lemma rnd_near x : near 1 (rnd x) x.
Proof.
  unfold near, rnd. destruct (relative_error_N_FLX_ex radix2 53 eq_refl (fun n => negb (Z.even n)) x) as (e & E & ->). exists e. split; [|reflexivity].
  eapply Rle_trans; [exact E|]. unfold u, u_ro. cbn -[pow IZR]. lra.
Qed.
Lemma rnd_0 : rnd 0 = 0.
Proof. apply round_0, valid_rnd_N. Qed.
Lemma rnd_double x : double x -> rnd x = x.
Proof. apply round_generic, valid_rnd_N. Qed.
Lemma rnd_is_double x : double (rnd x).
Proof. apply generic_format_round; [apply FLX_exp_valid; reflexivity|apply valid_rnd_N]. Qed.
(** Errors accumulate: the constants below leave room for the products. *)
Lemma near_mul a b k l x y : 0 <= k <= 20 -> 0 <= l <= 20 -> near k a x -> near l b y -> near (k + l + 1) (a * b) (x * y).
Proof.
  intros K L (e & E & ->) (f & F & ->). exists (e + f + e * f). split; [|ring]. pose proof u_pos as U.
  eapply Rle_trans; [apply Rabs_triang|]. eapply Rle_trans; [apply Rplus_le_compat_r, Rabs_triang|]. rewrite Rabs_mult.
  assert (Rabs e * Rabs f <= 1 * u). { pose proof (Rabs_pos e). pose proof (Rabs_pos f). assert (Rabs f <= / 100) by nra. assert (Rabs e <= 20 * u) by nra. nra. } nra.
Qed.
Lemma near_refl x : near 0 x x.
Proof. exists 0. rewrite Rabs_R0. split; [lra|ring]. Qed.
Lemma near_opp k a x : near k a x -> near k (- a) (- x).
Proof. intros (e & E & ->). exists e. split; [exact E|ring]. Qed.
Lemma near_rnd a k x : 0 <= k <= 20 -> near k a x -> near (k + 2) (rnd a) x.
Proof.
  intros K (e & E & ->). destruct (rnd_near (x * (1 + e))) as (f & F & ->). exists (e + f + e * f). split; [|ring]. pose proof u_pos as U.
  eapply Rle_trans; [apply Rabs_triang|]. eapply Rle_trans; [apply Rplus_le_compat_r, Rabs_triang|]. rewrite Rabs_mult.
  assert (Rabs e * Rabs f <= 1 * u). { pose proof (Rabs_pos e). pose proof (Rabs_pos f). assert (Rabs e <= / 100) by nra. nra. } nra.
Qed.
Lemma near_inv a k x : 0 <= k <= 20 -> x <> 0 -> near k a x -> near (k + 1) (/ a) (/ x).
Proof.
  intros K X (e & E & ->). pose proof u_pos as U. assert (S : Rabs e <= / 100000000) by nra. assert (P : 0 < 1 + e) by (apply Rabs_le_inv in S; lra).
  exists (- e / (1 + e)). split; [|field; lra]. unfold Rdiv. rewrite Rabs_mult, Rabs_Ropp. rewrite (Rabs_pos_eq (/ (1 + e))) by (left; now apply Rinv_0_lt_compat).
  assert (I : / (1 + e) <= 1 + / 40). { apply Rmult_le_reg_l with (1 + e); [assumption|]. rewrite Rinv_r by lra. apply Rabs_le_inv in S. nra. }
  pose proof (Rabs_pos e). assert (0 < / (1 + e)) by now apply Rinv_0_lt_compat. nra.
Qed.
(** One axis. *)
Lemma axis a0 a1 i0 i1 (x : Z) : a1 <> 0 -> near 12 i0 (- (a0 / a1)) -> near 9 i1 (/ a1) -> Rabs a0 <= 2 ^ 40 * Rabs a1 -> (Z.abs x <= 2 ^ 31)%Z ->
  ZnearestE (rnd (i0 + rnd (rnd (a0 + rnd (a1 * IZR x)) * i1))) = x.
Proof.
  intros N1 (F & HF & ->) N9 B X. set (G := a0 / a1) in *. assert (BG : Rabs G <= 2 ^ 40).
  { unfold G, Rdiv. rewrite Rabs_mult, Rabs_inv. apply Rmult_le_reg_r with (Rabs a1); [now apply Rabs_pos_lt|]. rewrite Rmult_assoc, Rinv_l by now apply Rabs_no_R0. lra. }
  assert (BX : Rabs (IZR x) <= 2 ^ 31). { rewrite <- abs_IZR. replace (2 ^ 31) with (IZR (2 ^ 31)) by (cbn; lra). now apply IZR_le. }
  destruct (rnd_near (a1 * IZR x)) as (e1 & E1 & R1). rewrite R1. clear R1.
  assert (NP : near 13 (rnd (rnd (a0 + a1 * IZR x * (1 + e1)) * i1)) (G + IZR x * (1 + e1))).
  { replace 13 with (1 + 9 + 1 + 2) by ring. apply near_rnd; [lra|]. replace (G + IZR x * (1 + e1)) with ((a0 + a1 * IZR x * (1 + e1)) * / a1) by (unfold G; field; assumption).
    apply near_mul; [lra|lra|apply rnd_near|exact N9]. }
  destruct NP as (E & HE & ->). set (t := - G * (1 + F) + (G + IZR x * (1 + e1)) * (1 + E)). pose proof u_pos as U.
  assert (D : Rabs (t - IZR x) <= / 8).
  { replace (t - IZR x) with (IZR x * e1 + (- (G * F)) + (G + IZR x * (1 + e1)) * E) by (unfold t; ring).
    eapply Rle_trans; [apply Rabs_triang|]. eapply Rle_trans; [apply Rplus_le_compat_r, Rabs_triang|]. rewrite Rabs_Ropp, !Rabs_mult.
    assert (T : Rabs (G + IZR x * (1 + e1)) <= 2 ^ 40 + 2 ^ 31 * 2). { eapply Rle_trans; [apply Rabs_triang|]. rewrite Rabs_mult. assert (Rabs (1 + e1) <= 2) by (eapply Rle_trans; [apply Rabs_triang|]; rewrite (Rabs_pos_eq 1) by lra; lra). pose proof (Rabs_pos (IZR x)). pose proof (Rabs_pos (1 + e1)). nra. }
    assert (U2 : u = / 2 ^ 53) by reflexivity.
    assert (M1 : Rabs (IZR x) * Rabs e1 <= 2 ^ 31 * (1 * u)) by (apply Rmult_le_compat; auto using Rabs_pos).
    assert (M2 : Rabs G * Rabs F <= 2 ^ 40 * (12 * u)) by (apply Rmult_le_compat; auto using Rabs_pos).
    assert (M3 : Rabs (G + IZR x * (1 + e1)) * Rabs E <= (2 ^ 40 + 2 ^ 31 * 2) * (13 * u)) by (apply Rmult_le_compat; auto using Rabs_pos).
    rewrite U2 in *. lra. }
  clearbody t. clear F HF E HE. destruct (rnd_near t) as (e & HE & ->). apply Znearest_imp.
  replace (t * (1 + e) - IZR x) with ((t - IZR x) + t * e) by ring. eapply Rle_lt_trans; [apply Rabs_triang|]. rewrite Rabs_mult.
  assert (Rabs t <= 2 ^ 32). { replace t with ((t - IZR x) + IZR x) by ring. eapply Rle_trans; [apply Rabs_triang|]. lra. }
  assert (Rabs t * Rabs e <= 2 ^ 32 * (1 * u)) by (apply Rmult_le_compat; auto using Rabs_pos). assert (U2 : u = / 2 ^ 53) by reflexivity. rewrite U2 in *. lra.
Qed.
