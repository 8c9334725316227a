(** Lemmas on logarithms, Planck's law and the special values. *)
From Coq Require Import Reals Lra Qreals.
From Verif Require Import Base BaseFacts MachineModel HriModel OmtpModel OmtpSpec OmtpProofs CalibModel CalibSpec.
From Verif Require HriImageModel HriImageSpec HriImageProps.
Local Open Scope R_scope.

Ltac dec := repeat match goal with
  | |- context [Rlt_dec ?a ?b] => destruct (Rlt_dec a b); try lra
  | |- context [Req_EM_T ?a ?b] => destruct (Req_EM_T a b); try lra
  end.

Lemma xdiv_fin neg x y : y <> 0 -> xdiv neg (Fin x) (Fin y) = Fin (x / y).
Proof. intro H. unfold xdiv. destruct (Req_EM_T y 0); [contradiction|reflexivity]. Qed.
Lemma xlog_pos x : 0 < x -> xlog (Fin x) = Fin (ln x).
Proof. intro H. unfold xlog. destruct (Rlt_dec 0 x); [reflexivity|contradiction]. Qed.

Lemma ln_pos x : 1 < x -> 0 < ln x.
Proof. intro H. rewrite <- ln_1. apply ln_increasing; lra. Qed.
Lemma ln_neg x : 0 < x < 1 -> ln x < 0.
Proof. intros [H1 H2]. rewrite <- ln_1. apply ln_increasing; lra. Qed.
Lemma ln_below r a : 0 < r -> r < exp a -> ln r < a.
Proof. intros H1 H2. rewrite <- (ln_exp a). apply ln_increasing; assumption. Qed.

(** ** First generation *)
Lemma temp_zero neg a b : b <> 0 -> temp neg a b 0 = Fin 0.
Proof.
  intro H. unfold temp, xlog. destruct (Rlt_dec 0 0); [lra|]. destruct (Req_EM_T 0 0); [|lra]. reflexivity.
Qed.
Lemma temp_value neg a b r : 0 < r -> r < exp a -> 0 < b -> temp neg a b r = Fin (b / (a - ln r)).
Proof.
  intros H1 H2 H3. pose proof (ln_below r a H1 H2). unfold temp. rewrite xlog_pos by assumption. cbn [xsub xopp xadd].
  rewrite xdiv_fin by lra. f_equal. field. lra.
Qed.
Lemma emits_value a b r : 0 < r -> r < exp a -> 0 < b -> emits a b (b / (a - ln r)) r.
Proof.
  intros H1 H2 H3. pose proof (ln_below r a H1 H2). split.
  - apply Rdiv_lt_0_compat; lra.
  - replace (a - b / (b / (a - ln r))) with (ln r) by (field; lra). now apply exp_ln.
Qed.
Lemma emits_unique a b t t' r : 0 < b -> emits a b t r -> emits a b t' r -> t = t'.
Proof.
  intros H [H1 E1] [H2 E2]. rewrite <- E2 in E1. apply exp_inv in E1.
  assert (E : b / t = b / t') by lra.
  assert (b * t' = b * t).
  { replace (b * t') with (b / t * (t * t')) by (field; lra). rewrite E. field. lra. }
  nra.
Qed.
Lemma emits_increasing a b t t' l l' : 0 < b -> emits a b t l -> emits a b t' l' -> l < l' -> t < t'.
Proof.
  intros H [H1 E1] [H2 E2] L. rewrite <- E1, <- E2 in L. apply exp_lt_inv in L.
  assert (E : b / t' < b / t) by lra.
  assert (b * t < b * t').
  { replace (b * t) with (b / t' * (t * t')) by (field; lra). replace (b * t') with (b / t * (t * t')) by (field; lra).
    apply Rmult_lt_compat_r; [nra|assumption]. }
  nra.
Qed.
Lemma exp_above a : 6.7348 <= a -> 255 < exp a.
Proof.
  intro H. replace a with (16 * (a / 16)) by lra.
  assert (E : forall x, exp (16 * x) = (exp x) ^ 16).
  { intro x. replace (16 * x) with (x+x+x+x+x+x+x+x+x+x+x+x+x+x+x+x) by lra. rewrite !exp_plus. ring. }
  rewrite E. apply Rlt_le_trans with (1.42 ^ 16); [lra|].
  apply pow_incr. split; [lra|]. destruct (Req_dec (a / 16) 0); [lra|].
  pose proof (exp_ineq1 (a / 16)). lra.
Qed.
Lemma rad_range cc sc i : 0 <= cc <= 1 -> 0 <= sc -> (0 <= i <= 255)%Z -> 0 <= rad cc sc i <= 255.
Proof.
  intros C S1 I. unfold rad. destruct (Rlt_dec (IZR i) sc); [lra|].
  assert (0 <= IZR i <= 255) by (split; apply IZR_le; lia). nra.
Qed.

(** ** Planck's law *)
Lemma planck_inverse nu l : 0 < nu -> 0 < l -> planck nu (143877 / 10 ^ 5 * nu / ln (119104 / 10 ^ 10 * nu ^ 3 / l + 1)) = l.
Proof.
  intros N L. unfold planck. set (k := 119104 / 10 ^ 10 * nu ^ 3). assert (K : 0 < k) by (unfold k; apply Rmult_lt_0_compat; [lra|now apply pow_lt]).
  assert (Q : 0 < k / l) by (apply Rdiv_lt_0_compat; assumption).
  pose proof (ln_pos (k / l + 1) ltac:(lra)) as P.
  replace (143877 / 10 ^ 5 * nu / (143877 / 10 ^ 5 * nu / ln (k / l + 1))) with (ln (k / l + 1)) by (field; lra).
  rewrite exp_ln by lra. field. lra.
Qed.
Lemma planck_unique nu t l : 0 < nu -> 0 < t -> planck nu t = l -> 0 < l /\ t = 143877 / 10 ^ 5 * nu / ln (119104 / 10 ^ 10 * nu ^ 3 / l + 1).
Proof.
  intros N T E. unfold planck in E. set (k := 119104 / 10 ^ 10 * nu ^ 3) in *. assert (K : 0 < k) by (unfold k; apply Rmult_lt_0_compat; [lra|now apply pow_lt]).
  set (x := 143877 / 10 ^ 5 * nu / t) in *.
  assert (X : 0 < x) by (unfold x; apply Rdiv_lt_0_compat; lra).
  assert (X1 : 1 < exp x) by (rewrite <- exp_0; now apply exp_increasing).
  assert (L : 0 < l) by (rewrite <- E; apply Rdiv_lt_0_compat; lra).
  split; [assumption|]. replace (k / l + 1) with (exp x).
  - rewrite ln_exp. unfold x. field. split; lra.
  - rewrite <- E. field. lra.
Qed.
Lemma planck_increasing nu t t' : 0 < nu -> 0 < t -> 0 < t' -> planck nu t < planck nu t' -> t < t'.
Proof.
  intros N T T' H. destruct (Rlt_dec t t') as [|G]; [assumption|exfalso].
  assert (G' : t' <= t) by lra. apply (Rlt_irrefl (planck nu t)). apply Rlt_le_trans with (1 := H).
  unfold planck. assert (K : 0 < 119104 / 10 ^ 10 * nu ^ 3) by (apply Rmult_lt_0_compat; [lra|now apply pow_lt]).
  set (k := 119104 / 10 ^ 10 * nu ^ 3) in *.
  assert (B : forall s, 0 < s -> 1 < exp (143877 / 10 ^ 5 * nu / s)).
  { intros s S1. rewrite <- exp_0. apply exp_increasing. apply Rdiv_lt_0_compat; lra. }
  apply Rmult_le_compat_l; [lra|]. apply Rinv_le_contravar; [specialize (B _ T); lra|].
  apply Rplus_le_compat_r. destruct (Req_dec t t') as [->|D]; [lra|]. left. apply exp_increasing.
  unfold Rdiv. apply Rmult_lt_compat_l; [lra|]. apply Rinv_lt_contravar; [apply Rmult_lt_0_compat; assumption|lra].
Qed.
Definition formula (neg : bool) (nu a b l : R) : xr :=
  xdiv false (xsub (xdiv neg (Fin (nu * c2)) (xlog (xadd (xdiv neg (Fin (nu ^ 3 * c1)) (Fin l)) (Fin 1)))) (Fin b)) (Fin a).
Lemma cold_formula neg ch l nu a b : thermal ch = Some (nu, a, b) ->
  cold_entry neg ch l = formula neg nu a b l /\ is_cold ch = true /\ (4 <= ch <= 11)%Z /\
  752 < nu < 2570 /\ 0.99 < a <= 1 /\ 0 < b < 3.5 /\ 1034 * b < c2 * nu.
Proof.
  intro T.
  assert (G : forall cw A B, at_ cold_ccw (ch - 4) = cw -> at_ cold_A (ch - 4) = A -> at_ cold_B (ch - 4) = B -> cw = nu -> A = a -> B = b ->
     cold_entry neg ch l = formula neg nu a b l).
  { intros cw A B E1 E2 E3 <- <- <-. unfold cold_entry, formula. rewrite E1, E2, E3. reflexivity. }
  unfold thermal in T. destruct ch as [|p|p]; try discriminate;
  do 4 (try (destruct p as [p|p|]; try discriminate)); injection T as <- <- <-;
  (split; [eapply G; [cbv -[IZR Rdiv]; reflexivity|cbv -[IZR Rdiv]; reflexivity|cbv -[IZR Rdiv]; reflexivity|lra|lra|lra]|]); unfold c2; repeat split; (lia || lra).
Qed.
Lemma formula_positive neg nu a b l : 0 < nu -> 0 < a -> 0 < l ->
  formula neg nu a b l = Fin ((143877 / 10 ^ 5 * nu / ln (119104 / 10 ^ 10 * nu ^ 3 / l + 1) - b) / a).
Proof.
  intros N A L. unfold formula. replace (nu ^ 3 * c1) with (119104 / 10 ^ 10 * nu ^ 3) by (unfold c1; lra).
  replace (nu * c2) with (143877 / 10 ^ 5 * nu) by (unfold c2; lra).
  assert (K : 0 < 119104 / 10 ^ 10 * nu ^ 3) by (apply Rmult_lt_0_compat; [lra|now apply pow_lt]).
  set (k := 119104 / 10 ^ 10 * nu ^ 3) in *.
  assert (Q : 0 < k / l) by (apply Rdiv_lt_0_compat; assumption).
  pose proof (ln_pos (k / l + 1) ltac:(lra)) as P.
  rewrite xdiv_fin by lra. cbn [xadd]. rewrite xlog_pos by lra. rewrite xdiv_fin by lra. cbn [xsub xadd xopp].
  rewrite xdiv_fin by lra. f_equal.
Qed.
Lemma formula_none neg nu a b l : 0 < nu -> 0 < a -> 0 < b -> l <= 0 -> cleaned (formula neg nu a b l) = Fin 0.
Proof.
  intros N A B L. unfold formula. replace (nu ^ 3 * c1) with (119104 / 10 ^ 10 * nu ^ 3) by (unfold c1; lra).
  replace (nu * c2) with (143877 / 10 ^ 5 * nu) by (unfold c2; lra).
  assert (K : 0 < 119104 / 10 ^ 10 * nu ^ 3) by (apply Rmult_lt_0_compat; [lra|now apply pow_lt]).
  set (k := 119104 / 10 ^ 10 * nu ^ 3) in *.
  assert (M : 0 < 143877 / 10 ^ 5 * nu) by lra. set (m := 143877 / 10 ^ 5 * nu) in *.
  assert (Z0 : (0 + - b) / a < 0). { unfold Rdiv. pose proof (Rinv_0_lt_compat a A). nra. }
  destruct (Req_dec l 0) as [->|L0].
  - unfold xdiv at 3. destruct (Req_EM_T 0 0); [|lra]. destruct (Req_EM_T k 0); [lra|].
    unfold is_neg. destruct (Rlt_dec k 0); [lra|]. destruct neg; cbn [xorb sign_inf xadd xlog xdiv xsub xopp cleaned]; [reflexivity|].
    destruct (Req_EM_T a 0); [lra|]. cbn [cleaned]. destruct (Rlt_dec ((0 + - b) / a) 0); [reflexivity|lra].
  - rewrite xdiv_fin by assumption. cbn [xadd].
    assert (Q : k / l < 0). { unfold Rdiv. pose proof (Rinv_lt_0_compat l ltac:(lra)). nra. }
    set (q := k / l) in *. unfold xlog. destruct (Rlt_dec 0 (q + 1)).
    + pose proof (ln_neg (q + 1) ltac:(lra)) as P. rewrite xdiv_fin by lra. cbn [xsub xadd xopp]. rewrite xdiv_fin by lra. cbn [cleaned].
      destruct (Rlt_dec _ 0) as [|G]; [reflexivity|]. exfalso. apply G.
      assert (m / ln (q + 1) < 0). { unfold Rdiv. pose proof (Rinv_lt_0_compat _ P). nra. }
      unfold Rdiv at 1. pose proof (Rinv_0_lt_compat a A). nra.
    + destruct (Req_EM_T (q + 1) 0).
      * cbn [xdiv xsub xopp xadd]. destruct (Req_EM_T a 0); [lra|]. cbn [cleaned]. destruct (Rlt_dec ((0 + - b) / a) 0); [reflexivity|lra].
      * reflexivity.
Qed.
Lemma pow2_exp n : 2 ^ n <= exp (INR n).
Proof.
  induction n as [|n IH]; [cbn; rewrite exp_0; lra|]. rewrite S_INR, exp_plus. cbn [pow].
  pose proof (exp_ineq1 1 ltac:(lra)). pose proof (pow_lt 2 n ltac:(lra)). nra.
Qed.
Lemma log_bound nu l : 752 < nu < 2570 -> / 10 ^ 300 <= l -> 0 < ln (119104 / 10 ^ 10 * nu ^ 3 / l + 1) < 1034.
Proof.
  intros N L. assert (P0 : 0 < / 10 ^ 300) by (apply Rinv_0_lt_compat, pow_lt; lra).
  assert (K : 0 < 119104 / 10 ^ 10 * nu ^ 3) by (apply Rmult_lt_0_compat; [lra|apply pow_lt; lra]).
  assert (K2 : 119104 / 10 ^ 10 * nu ^ 3 < 1000000).
  { assert (nu ^ 3 <= 2570 ^ 3) by (apply pow_incr; lra). lra. }
  set (k := 119104 / 10 ^ 10 * nu ^ 3) in *.
  assert (Q : 0 < k / l) by (apply Rdiv_lt_0_compat; lra).
  split; [apply ln_pos; lra|]. apply ln_below; [lra|].
  apply Rlt_le_trans with (10 ^ 307).
  - assert (k / l <= k * 10 ^ 300).
    { unfold Rdiv. apply Rmult_le_compat_l; [lra|]. rewrite <- (Rinv_inv (10 ^ 300)). now apply Rinv_le_contravar. }
    replace (10 ^ 307) with (10 ^ 300 * 10 ^ 7) by (rewrite <- pow_add; reflexivity).
    assert (1 <= 10 ^ 300) by (apply pow_R1_Rle; lra). set (t := 10 ^ 300) in *. nra.
  - apply Rle_trans with (2 ^ 1034).
    + apply Rle_trans with (16 ^ 258); [|replace (2 ^ 1034) with (2 ^ (4 * 258) * 2 ^ 2) by (rewrite <- pow_add; reflexivity);
        rewrite pow_mult; replace (2 ^ 4) with 16 by lra; assert (0 < 16 ^ 258) by (apply pow_lt; lra); lra].
      replace (10 ^ 307) with (10 ^ (6 * 51) * 10) by (change (6 * 51)%nat with 306%nat; cbn [pow]; lra).
      replace (16 ^ 258) with (16 ^ (5 * 51) * 16 ^ 3) by (rewrite <- pow_add; reflexivity).
      rewrite !pow_mult. assert (H : (10 ^ 6) ^ 51 <= (16 ^ 5) ^ 51) by (apply pow_incr; lra).
      assert (0 < (10 ^ 6) ^ 51) by (apply pow_lt; lra). set (u := (10 ^ 6) ^ 51) in *. set (v := (16 ^ 5) ^ 51) in *. lra.
    + replace 1034 with (INR 1034) by (rewrite INR_IZR_INZ; reflexivity). apply pow2_exp.
Qed.
