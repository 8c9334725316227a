(** C60 for float samples. *)
From Coq Require Import Reals Lra Lia.
From Flocq Require Import Core Relative.
From Verif Require Import Base StretchFloat.
Open Scope R_scope.

(** vmin, vmax is the range of the samples that are not missing. *)
Definition frange_of (missing : R) (vals : list R) (vmin vmax : R) : Prop :=
  In vmin vals /\ In vmax vals /\ vmin <> missing /\ vmax <> missing /\ forall v, In v vals -> v <> missing -> vmin <= v <= vmax.

Lemma feq_t x y : feq (Num x) (Num y) = true <-> x = y.
Proof. cbn. destruct (Req_EM_T x y); split; congruence. Qed.
Lemma frange_some m vals : forall vmin vmax, vmin <> m -> vmax <> m -> vmin <= vmax -> exists a b, frange_loop (Num m) (Num vmin) (Num vmax) (map Num vals) = (Num a, Num b) /\
  (a = vmin \/ In a vals) /\ (b = vmax \/ In b vals) /\ a <> m /\ b <> m /\ a <= vmin /\ vmax <= b /\ forall v, In v vals -> v <> m -> a <= v <= b.
Proof.
  induction vals as [|v l IH]; intros vmin vmax A B C; cbn [frange_loop map].
  - exists vmin, vmax. repeat split; auto; try lra; contradiction.
  - cbn [feq flt]. destruct (Req_EM_T v m) as [E|E].
    + destruct (IH vmin vmax A B C) as (a & b & R & I1 & I2 & I3 & I4 & I5 & I6 & I7). exists a, b. cbn [In]. split; [exact R|]. split; [tauto|]. split; [tauto|]. do 4 (split; [assumption|]). intros w [<-|W] NW; [contradiction|auto].
    + destruct (Req_EM_T vmin m) as [F|_]; [contradiction|].
      set (x := if Rlt_dec v vmin then v else vmin). set (y := if Rlt_dec vmax v then v else vmax).
      replace (if if Rlt_dec v vmin then true else false then Num v else Num vmin) with (Num x) by (unfold x; destruct (Rlt_dec v vmin); reflexivity). replace (if if Rlt_dec vmax v then true else false then Num v else Num vmax) with (Num y) by (unfold y; destruct (Rlt_dec vmax v); reflexivity).
      assert (HX : x <> m /\ x <= vmin /\ x <= v /\ (x = v \/ x = vmin)) by (unfold x; destruct (Rlt_dec v vmin); repeat split; auto; lra). assert (HY : y <> m /\ vmax <= y /\ v <= y /\ (y = v \/ y = vmax)) by (unfold y; destruct (Rlt_dec vmax v); repeat split; auto; lra).
      destruct HX as (X1 & X2 & X3 & X4). destruct HY as (Y1 & Y2 & Y3 & Y4). destruct (IH x y X1 Y1 ltac:(lra)) as (a & b & R & I1 & I2 & I3 & I4 & I5 & I6 & I7). exists a, b. cbn [In]. split; [exact R|].
      split; [destruct I1 as [->|I1]; [destruct X4 as [->| ->]; auto|auto]|]. split; [destruct I2 as [->|I2]; [destruct Y4 as [->| ->]; auto|auto]|]. do 2 (split; [assumption|]). split; [lra|]. split; [lra|]. intros w [<-|W] NW; [lra|auto].
Qed.
Lemma frange_start m vals : (forall v, In v vals -> v = m) /\ frange_loop (Num m) (Num m) (Num m) (map Num vals) = (Num m, Num m) \/
  exists a b, frange_loop (Num m) (Num m) (Num m) (map Num vals) = (Num a, Num b) /\ frange_of m vals a b.
Proof.
  induction vals as [|v l IH]; cbn [frange_loop map]; [left; split; [intros ? []|reflexivity]|]. cbn [feq]. destruct (Req_EM_T v m) as [E|E].
  - destruct IH as [[I J]|(a & b & R & I1 & I2 & I3 & I4 & I5)]; [left; split; [intros w [<-|W]; auto|exact J]|right]. exists a, b. split; [exact R|]. unfold frange_of. cbn [In]. split; [now right|]. split; [now right|]. do 2 (split; [assumption|]). intros w [<-|W] NW; [contradiction|auto].
  - right. destruct (Req_EM_T m m) as [_|C]; [|now destruct C]. destruct (frange_some m l v v E E (Rle_refl v)) as (a & b & R & I1 & I2 & I3 & I4 & I5 & I6 & I7). exists a, b. split; [exact R|]. unfold frange_of. cbn [In].
    split; [destruct I1 as [->|I1]; auto|]. split; [destruct I2 as [->|I2]; auto|]. do 2 (split; [assumption|]). intros w [<-|W] NW; [lra|auto].
Qed.
Lemma frange_unique m vals a b a' b' : frange_of m vals a b -> frange_of m vals a' b' -> a = a' /\ b = b'.
Proof. intros (A1 & A2 & A3 & A4 & A5) (B1 & B2 & B3 & B4 & B5). pose proof (A5 a' B1 B3). pose proof (B5 a A1 A3). pose proof (A5 b' B2 B4). pose proof (B5 b A2 A4). lra. Qed.

(** Within 0..255, order preserving, the lowest to 0 and the highest to 255 or
    one less. *)
Definition fcontrast (vmin vmax : R) (f : R -> Z) : Prop :=
  (forall v, (0 <= f v <= 255)%Z) /\ (forall v w, v <= w -> (f v <= f w)%Z) /\ f vmin = 0%Z /\ (254 <= f vmax)%Z /\ (forall v, v < vmin -> f v = 0%Z) /\ (forall v, vmax < v -> f v = 255%Z).
Definition value (a b v : R) : Z := if Rlt_dec v a then 0 else if Rlt_dec b v then 255 else Ztrunc (rnd (rnd (rnd (v - a) * 255) / rnd (b - a))).
Lemma value_mid a b v : a < b -> a <= v <= b -> (0 <= Ztrunc (rnd (rnd (rnd (v - a) * 255) / rnd (b - a))) <= 255)%Z.
Proof.
  intros L V. assert (D : 0 < rnd (b - a)) by (apply rnd_pos; lra). assert (P : 0 <= rnd (v - a) <= rnd (b - a)) by (split; [rewrite <- rnd_0|]; apply rnd_mono; lra).
  destruct (quot_bounds _ _ D P) as [Q1 Q2]. pose proof (Ztrunc_bounds _ 0 256 Q1 Q2 ltac:(lia)). lia.
Qed.
Lemma value_contrast a b : a < b -> fcontrast a b (value a b).
Proof.
  intros L. assert (D : 0 < rnd (b - a)) by (apply rnd_pos; lra). assert (R : forall v, (0 <= value a b v <= 255)%Z) by (intros v; unfold value; destruct (Rlt_dec v a); [lia|]; destruct (Rlt_dec b v); [lia|]; apply value_mid; lra).
  split; [exact R|]. split.
  - intros v w V. pose proof (R v) as RV. pose proof (R w) as RW. unfold value in *. destruct (Rlt_dec v a), (Rlt_dec w a); try lra; try lia. destruct (Rlt_dec b v), (Rlt_dec b w); try lra; try lia. apply Ztrunc_mono, rnd_mono. unfold Rdiv. apply Rmult_le_compat_r; [left; now apply Rinv_0_lt_compat|]. apply rnd_mono. apply Rmult_le_compat_r; [lra|]. apply rnd_mono. lra.
  - unfold value. split; [|split; [|split]].
    + destruct (Rlt_dec a a); [reflexivity|]. destruct (Rlt_dec b a); [lra|]. replace (a - a) with 0 by ring. rewrite rnd_0, Rmult_0_l, rnd_0. unfold Rdiv. rewrite Rmult_0_l, rnd_0. exact (Ztrunc_IZR 0).
    + destruct (Rlt_dec b a); [lra|]. destruct (Rlt_dec b b); [lia|]. pose proof (quot_max _ D) as Q. assert (P : 0 <= rnd (b - a) <= rnd (b - a)) by lra. destruct (quot_bounds _ _ D P) as [_ Q2]. pose proof (Ztrunc_bounds _ 254 256 Q Q2 ltac:(lia)). lia.
    + intros v V. destruct (Rlt_dec v a); [reflexivity|lra].
    + intros v V. destruct (Rlt_dec v a); [lra|]. destruct (Rlt_dec b v); [reflexivity|lra].
Qed.
Lemma frescale_value a b v : a < b -> frescale1 (Num a) (Num b) (Num v) = Ok (value a b v).
Proof.
  intros L. unfold frescale1, value. cbn [feq flt]. destruct (Req_EM_T b a); [lra|]. destruct (Rlt_dec v a); [reflexivity|]. destruct (Rlt_dec b v); [reflexivity|]. cbn [fquot cast8].
  pose proof (value_mid a b v L ltac:(lra)) as M. set (z := Ztrunc _) in *. now replace ((0 <=? z) && (z <? 256))%Z with true by lia.
Qed.
Lemma fmap_values a b vals : a < b -> fmap (frescale1 (Num a) (Num b)) (map Num vals) = Ok (map (value a b) vals).
Proof. intros L. induction vals as [|v l IH]; [reflexivity|]. cbn [map fmap]. rewrite frescale_value by exact L. cbn [bind]. rewrite IH. reflexivity. Qed.
Theorem C60_float_partial nodata vals vmin vmax : frange_of (rnd nodata) vals vmin vmax -> vmin < vmax -> exists f, fpicture nodata (map Num vals) = Ok (map f vals) /\ fcontrast vmin vmax f.
Proof.
  intros R L. exists (value vmin vmax). split; [|now apply value_contrast]. unfold fpicture. destruct (frange_start (rnd nodata) vals) as [[A _]|(a & b & E & S)]; [exfalso; destruct R as (R1 & _ & R2 & _); apply R2, A, R1|].
  rewrite E. destruct (frange_unique _ _ _ _ _ _ R S) as [-> ->]. now apply fmap_values.
Qed.
Print Assumptions C60_float_partial.
(** The highest value does not always become 255: float rounding loses it. *)
Lemma rnd_16777725 : rnd 16777725 = 16777724.
Proof.
  unfold rnd, round, scaled_mantissa, cexp. assert (M : mag radix2 16777725 = 25%Z :> Z). { apply mag_unique. rewrite Rabs_pos_eq by lra. cbn -[pow IZR]. cbn. lra. }
  rewrite M. unfold F2R. cbn. assert (N : ZnearestE (16777725 * / 2) = 8388862%Z).
  - unfold Znearest. replace (16777725 * / 2) with (IZR 8388862 + / 2) by lra.
    assert (F : Zfloor (IZR 8388862 + / 2) = 8388862%Z) by (apply Zfloor_imp; change (8388862 + 1)%Z with 8388863%Z; lra). rewrite F. rewrite Rcompare_Eq by lra. reflexivity.
  - rewrite N. lra.
Qed.
Theorem C60_refuted_float_max : fpicture 0 [Num 1; Num 65796] = Ok [0; 254]%Z /\ frange_of (rnd 0) [1; 65796] 1 65796 /\ float 1 /\ float 65796.
Proof.
  assert (R : frange_of (rnd 0) [1; 65796] 1 65796). { rewrite rnd_0. unfold frange_of. cbn [In]. split; [auto|]. split; [auto|]. split; [lra|]. split; [lra|]. intros v [<-|[<-|[]]] _; lra. }
  split; [|split; [exact R|split; apply float_int; reflexivity]]. change [Num 1; Num 65796] with (map Num [1; 65796]).
  unfold fpicture. destruct (frange_start (rnd 0) [1; 65796]) as [[A _]|(a & b & E & S)]; [exfalso; rewrite rnd_0 in A; specialize (A 1 (or_introl eq_refl)); lra|].
  rewrite E. destruct (frange_unique _ _ _ _ _ _ R S) as [<- <-]. rewrite fmap_values by lra. cbn [map]. f_equal. f_equal; [|f_equal].
  - destruct (value_contrast 1 65796 ltac:(lra)) as (_ & _ & V & _). exact V.
  - unfold value. destruct (Rlt_dec 65796 1); [lra|]. destruct (Rlt_dec 65796 65796); [lra|]. replace (65796 - 1) with (IZR 65795) by lra. rewrite (rnd_float (IZR 65795)) by (apply float_int; reflexivity). replace (IZR 65795 * 255) with 16777725 by lra. rewrite rnd_16777725.
    (* 16777724 / 65795 is below the predecessor's midpoint *)
    assert (B : rnd (16777724 / IZR 65795) <= IZR 16711679 * bpow radix2 (-16)).
    { apply round_N_le_midp.
      - apply FLX_exp_valid; reflexivity.
      - apply generic_format_FLX. exists (Float radix2 16711679 (-16)); [reflexivity|]. reflexivity.
      - assert (SU : succ radix2 (FLX_exp 24) (IZR 16711679 * bpow radix2 (-16)) = IZR 16711680 * bpow radix2 (-16)).
        { rewrite succ_eq_pos by (apply Rmult_le_pos; [lra|apply bpow_ge_0]). rewrite ulp_neq_0 by (apply Rgt_not_eq, Rmult_lt_0_compat; [lra|apply bpow_gt_0]). unfold cexp. assert (M : mag radix2 (IZR 16711679 * bpow radix2 (-16)) = 8%Z :> Z). { apply mag_unique. rewrite Rabs_pos_eq by (apply Rmult_le_pos; [lra|apply bpow_ge_0]). cbn. lra. }
          rewrite M. cbn. lra. }
        rewrite SU. cbn. lra. }
    assert (P : 0 < IZR 65795) by lra. assert (Q : 254 <= rnd (16777724 / IZR 65795)). { pose proof (quot_max (IZR 65795) P) as Q. replace (IZR 65795 * 255) with 16777725 in Q by lra. now rewrite rnd_16777725 in Q. }
    assert (U : rnd (16777724 / IZR 65795) < 255) by (eapply Rle_lt_trans; [exact B|cbn; lra]). pose proof (Ztrunc_bounds _ 254 255 Q U ltac:(lia)). lia.
Qed.
Print Assumptions C60_refuted_float_max.
(** A single not-a-number makes the conversion undefined. *)
Lemma fmap_ub f l x : In x l -> f x = UB -> (forall y, In y l -> exists z, f y = Ok z \/ f y = UB) -> fmap f l = UB.
Proof.
  intros I U T. induction l as [|y l IH]; [contradiction|]. cbn [fmap]. destruct (T y (or_introl eq_refl)) as (z & [Y|Y]); rewrite Y; cbn [bind]; [|reflexivity]. destruct I as [->|I]; [congruence|]. rewrite IH; [reflexivity|exact I|]. intros w W. apply T. now right.
Qed.
Lemma cast8_cases a : exists z, cast8 a = Ok z \/ cast8 a = UB.
Proof. destruct a as [|r]; cbn [cast8]; [exists 0%Z; auto|]. exists (Ztrunc r). destruct (_ && _)%Z; auto. Qed.
Lemma frescale_cases a b v : exists z, frescale1 a b v = Ok z \/ frescale1 a b v = UB.
Proof. unfold frescale1. destruct (feq b a); [apply cast8_cases|]. destruct (flt v a); [exists 0%Z; auto|]. destruct (flt b v); [exists 255%Z; auto|apply cast8_cases]. Qed.
Theorem C60_refuted_float_nan nodata vals : In NaN vals -> (exists a b, frange_loop (Num (rnd nodata)) (Num (rnd nodata)) (Num (rnd nodata)) vals = (a, b) /\ feq b a = false) -> fpicture nodata vals = UB.
Proof.
  intros I (a & b & E & F). unfold fpicture. rewrite E. apply (fmap_ub _ _ NaN I); [|intros y _; apply frescale_cases]. unfold frescale1. rewrite F. destruct a; cbn; destruct b; reflexivity.
Qed.
Print Assumptions C60_refuted_float_nan.
(** A float image with a single value outside 0..255, such as a uniform
    temperature, is undefined as well. *)
Theorem C60_refuted_float_constant nodata v n : (0 < n)%nat -> v <> rnd nodata -> 256 <= v -> fpicture nodata (repeat (Num v) n) = UB.
Proof.
  intros N D V. replace (repeat (Num v) n) with (map Num (repeat v n)) by (clear; induction n; cbn; congruence). unfold fpicture. destruct (frange_start (rnd nodata) (repeat v n)) as [[A _]|(a & b & E & S)].
  - exfalso. apply D, A. destruct n; [lia|now left].
  - rewrite E. destruct S as (S1 & S2 & _). apply repeat_spec in S1, S2. subst a b. destruct n as [|n]; [lia|]. cbn [repeat map fmap]. assert (U : frescale1 (Num v) (Num v) (Num v) = UB).
    { unfold frescale1. replace (feq (Num v) (Num v)) with true by (symmetry; now apply feq_t). cbn [cast8]. assert (256 <= Ztrunc v)%Z by (rewrite Ztrunc_floor by lra; now apply Zfloor_lub). now replace ((0 <=? Ztrunc v) && (Ztrunc v <? 256))%Z with false by lia. }
    now rewrite U.
Qed.
Print Assumptions C60_refuted_float_constant.
(** A temperature image meets the hypotheses. *)
Example C60_float_case : frange_of (rnd 0) [0; 250; 300] 250 300 /\ frange_loop (Num 0) (Num 0) (Num 0) [Num 1; NaN; Num 2] = (Num 1, Num 2).
Proof.
  split; [rewrite rnd_0; unfold frange_of; cbn [In]; split; [auto|]; split; [auto|]; split; [lra|]; split; [lra|]; intros v [<-|[<-|[<-|[]]]] N; lra|].
  cbn [frange_loop feq flt]. repeat (match goal with |- context [Req_EM_T ?a ?b] => destruct (Req_EM_T a b) | |- context [Rlt_dec ?a ?b] => destruct (Rlt_dec a b) end; cbn [feq flt]; try lra); reflexivity.
Qed.
