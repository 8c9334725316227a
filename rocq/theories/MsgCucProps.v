(** C137: the values of times in unsegmented code. *)
From Coq Require Import ZArith Reals String List Lia Lra.
From Flocq Require Import Core.
From Verif Require Import Base BaseFacts MachineModel.
Import ListNotations.
Open Scope Z_scope.

(** MSG_time_cds.cpp:152-160 MSG_time_cuc::read_from in double arithmetic: sums from
    the left, each rounded to 53 bits; the powers and products are exact. *)
Definition rnd (x : R) : R := round radix2 (FLX_exp 53) ZnearestE x.
Definition cuc_value (t0 t1 t2 t3 t4 t5 t6 : Z) : R :=
  let a := rnd (rnd (bpow radix2 24 * IZR t0) + rnd (bpow radix2 16 * IZR t1)) in
  let b := rnd (a + IZR (256 * t2)) in
  let c := rnd (b + IZR t3) in
  let d := rnd (c + rnd (bpow radix2 (-8) * IZR t4)) in
  let e := rnd (d + rnd (bpow radix2 (-16) * IZR t5)) in
  rnd (e + rnd (bpow radix2 (-24) * IZR t6)).

Lemma rnd_exact m e : Z.abs m <= 2 ^ 53 -> rnd (IZR m * bpow radix2 e) = (IZR m * bpow radix2 e)%R.
Proof.
  intros H. unfold rnd. apply round_generic; [typeclasses eauto|]. destruct (Z.eq_dec (Z.abs m) (2 ^ 53)) as [E|E].
  - assert (Q : (IZR m * bpow radix2 e)%R = F2R (Float radix2 (Z.sgn m) (e + 53))).
    { unfold F2R. cbn [Fnum Fexp]. rewrite bpow_plus. change (bpow radix2 53) with (IZR (2 ^ 53)). rewrite <- E. rewrite (Z.sgn_abs m) at 1 || idtac. replace (IZR m) with (IZR (Z.sgn m) * IZR (Z.abs m))%R by (rewrite <- mult_IZR; f_equal; lia). ring. }
    rewrite Q. apply generic_format_FLX. exists (Float radix2 (Z.sgn m) (e + 53)); [reflexivity|]. cbn [Fnum]. change (Zpower radix2 53) with (2 ^ 53). destruct (Z.sgn_spec m) as [[_ ->]|[[_ ->]|[_ ->]]]; cbn; lia.
  - apply generic_format_FLX. exists (Float radix2 m e); [reflexivity|]. cbn [Fnum]. change (Zpower radix2 53) with (2 ^ 53). lia.
Qed.
Ltac pw := repeat match goal with
  | |- context [bpow radix2 0] => change (bpow radix2 0) with 1%R
  | |- context [bpow radix2 8] => change (bpow radix2 8) with 256%R
  | |- context [bpow radix2 (-8)] => change (bpow radix2 (-8)) with (/ 256)%R
  | |- context [bpow radix2 (-16)] => change (bpow radix2 (-16)) with (/ 65536)%R
  | |- context [bpow radix2 (-21)] => change (bpow radix2 (-21)) with (/ 2097152)%R
  | |- context [bpow radix2 (-24)] => change (bpow radix2 (-24)) with (/ 16777216)%R
  end.
Definition byte (z : Z) : Prop := 0 <= z < 256.
(** All the sums but the last are exact. *)
Lemma cuc_exact t0 t1 t2 t3 t4 t5 t6 : byte t0 -> byte t1 -> byte t2 -> byte t3 -> byte t4 -> byte t5 -> byte t6 ->
  cuc_value t0 t1 t2 t3 t4 t5 t6 = rnd (IZR (256 * (256 * (256 * (256 * (256 * t0 + t1) + t2) + t3) + t4) + t5) * bpow radix2 (-16) + IZR t6 * bpow radix2 (-24)).
Proof.
  unfold byte. intros H0 H1 H2 H3 H4 H5 H6. unfold cuc_value.
  replace (bpow radix2 24 * IZR t0)%R with (IZR t0 * bpow radix2 24)%R by ring. rewrite (rnd_exact t0) by lia.
  replace (bpow radix2 16 * IZR t1)%R with (IZR t1 * bpow radix2 16)%R by ring. rewrite (rnd_exact t1) by lia.
  replace (IZR t0 * bpow radix2 24 + IZR t1 * bpow radix2 16)%R with (IZR (256 * t0 + t1) * bpow radix2 16)%R by (rewrite plus_IZR, mult_IZR; change (bpow radix2 24) with 16777216%R; change (bpow radix2 16) with 65536%R; lra). rewrite (rnd_exact (256 * t0 + t1)) by lia.
  set (n1 := 256 * t0 + t1). assert (N1 : 0 <= n1 < 2 ^ 16) by (subst n1; lia). clearbody n1.
  replace (IZR n1 * bpow radix2 16 + IZR (256 * t2))%R with (IZR (256 * n1 + t2) * bpow radix2 8)%R by (rewrite plus_IZR, !mult_IZR; change (bpow radix2 8) with 256%R; change (bpow radix2 16) with 65536%R; lra). rewrite (rnd_exact (256 * n1 + t2)) by lia.
  set (n2 := 256 * n1 + t2). assert (N2 : 0 <= n2 < 2 ^ 24) by (subst n2; lia). clearbody n2.
  replace (IZR n2 * bpow radix2 8 + IZR t3)%R with (IZR (256 * n2 + t3) * bpow radix2 0)%R by (rewrite plus_IZR, mult_IZR; pw; lra). rewrite (rnd_exact (256 * n2 + t3)) by lia. set (n3 := 256 * n2 + t3). assert (N3 : 0 <= n3 < 2 ^ 32) by (subst n3; lia). clearbody n3.
  replace (bpow radix2 (-8) * IZR t4)%R with (IZR t4 * bpow radix2 (-8))%R by ring. rewrite (rnd_exact t4) by lia.
  replace (IZR n3 * bpow radix2 0 + IZR t4 * bpow radix2 (-8))%R with (IZR (256 * n3 + t4) * bpow radix2 (-8))%R by (rewrite plus_IZR, mult_IZR; pw; lra). rewrite (rnd_exact (256 * n3 + t4)) by lia. set (n4 := 256 * n3 + t4). assert (N4 : 0 <= n4 < 2 ^ 40) by (subst n4; lia). clearbody n4.
  replace (bpow radix2 (-16) * IZR t5)%R with (IZR t5 * bpow radix2 (-16))%R by ring. rewrite (rnd_exact t5) by lia.
  replace (IZR n4 * bpow radix2 (-8) + IZR t5 * bpow radix2 (-16))%R with (IZR (256 * n4 + t5) * bpow radix2 (-16))%R by (rewrite plus_IZR, mult_IZR; pw; lra). rewrite (rnd_exact (256 * n4 + t5)) by lia.
  replace (bpow radix2 (-24) * IZR t6)%R with (IZR t6 * bpow radix2 (-24))%R by ring. now rewrite (rnd_exact t6) by lia.
Qed.
Lemma horner t0 t1 t2 t3 t4 t5 t6 : be_val [t0; t1; t2; t3; t4; t5; t6] = 256 * (256 * (256 * (256 * (256 * (256 * t0 + t1) + t2) + t3) + t4) + t5) + t6.
Proof. cbn [be_val List.length]. rewrite !pow256_succ. change (Z.of_nat 0) with 0. rewrite Z.pow_0_r. lia. Qed.
(** Times in the first eighth of the range have their exact value, in seconds. *)
Theorem C137_cuc_partial t0 t1 t2 t3 t4 t5 t6 : 0 <= t0 < 32 -> byte t1 -> byte t2 -> byte t3 -> byte t4 -> byte t5 -> byte t6 ->
  cuc_value t0 t1 t2 t3 t4 t5 t6 = (IZR (be_val [t0; t1; t2; t3; t4; t5; t6]) / 2 ^ 24)%R.
Proof.
  intros H0 H1 H2 H3 H4 H5 H6. rewrite cuc_exact by (assumption || (unfold byte; lia)). rewrite horner. set (n := 256 * (256 * (256 * (256 * (256 * t0 + t1) + t2) + t3) + t4) + t5). unfold byte in *. assert (N : 0 <= n < 2 ^ 45) by (subst n; lia). clearbody n.
  replace (IZR n * bpow radix2 (-16) + IZR t6 * bpow radix2 (-24))%R with (IZR (256 * n + t6) * bpow radix2 (-24))%R by (rewrite plus_IZR, mult_IZR; pw; lra). rewrite rnd_exact by lia. pw; lra.
Qed.
Print Assumptions C137_cuc_partial.
(** In the second half of the range, from 68 years after the epoch, times that differ by less than a
    quarter of a microsecond have the same value. *)
Theorem C137_refuted_cuc t0 t1 t2 t3 t4 t5 t6 : 128 <= t0 < 256 -> byte t1 -> byte t2 -> byte t3 -> byte t4 -> byte t5 -> 0 <= t6 <= 3 ->
  cuc_value t0 t1 t2 t3 t4 t5 t6 = cuc_value t0 t1 t2 t3 t4 t5 0.
Proof.
  intros H0 H1 H2 H3 H4 H5 H6. rewrite !cuc_exact by (assumption || (unfold byte; lia)). set (n := 256 * (256 * (256 * (256 * (256 * t0 + t1) + t2) + t3) + t4) + t5). unfold byte in *. assert (N : 2 ^ 47 <= n < 2 ^ 48) by (subst n; lia). clearbody n. clear - N H6.
  rewrite Rmult_0_l, Rplus_0_r. rewrite (rnd_exact n) by lia. unfold rnd, round, F2R, scaled_mantissa, cexp.
  set (x := (IZR n * bpow radix2 (-16) + IZR t6 * bpow radix2 (-24))%R).
  assert (X : (x = (IZR n * 256 + IZR t6) / 16777216)%R) by (subst x; pw; lra).
  assert (N1 : (140737488355328 <= IZR n)%R) by (apply IZR_le; lia). assert (N2 : (IZR n <= 281474976710655)%R) by (apply IZR_le; lia). assert (T1 : (0 <= IZR t6)%R) by (apply IZR_le; lia). assert (T2 : (IZR t6 <= 3)%R) by (apply IZR_le; lia).
  assert (M : mag radix2 x = 32 :> Z). { apply mag_unique. rewrite Rabs_pos_eq by (rewrite X; lra). rewrite X. change (bpow radix2 (32 - 1)) with 2147483648%R. change (bpow radix2 32) with 4294967296%R. split; lra. }
  rewrite M. change (FLX_exp 53 32) with (-21). cbn [Fnum Fexp]. rewrite (Znearest_imp _ _ (32 * n)).
  - rewrite mult_IZR. pw; lra.
  - rewrite mult_IZR. change (bpow radix2 (- -21)) with 2097152%R. rewrite X. rewrite Rabs_pos_eq; lra.
Qed.
Print Assumptions C137_refuted_cuc.
Example C137_cuc_case : byte 255 /\ 128 <= 200 < 256 /\ 0 <= 31 < 32.
Proof. unfold byte. lia. Qed.
