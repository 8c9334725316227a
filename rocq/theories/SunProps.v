(** C104-C107: satellite and solar angles, reflectances. *)
From Coq Require Import Reals Lra Lia.
From Verif Require Import Base StretchFloat SunModel.
Open Scope R_scope.

(** ** Directions *)
Record vec := V { vx : R; vy : R; vz : R }.
Definition dot (a b : vec) : R := vx a * vx b + vy a * vy b + vz a * vz b.
Definition norm (a : vec) : R := sqrt (dot a a).
(** The zenith of a point of the earth and the position of a satellite over the
    equator, in km. *)
Definition zenith (lat lon : R) : vec := V (cos (radians lat) * cos (radians lon)) (cos (radians lat) * sin (radians lon)) (sin (radians lat)).
Definition satellite (lon : R) : vec := V (ORBIT_RADIUS * cos (radians lon)) (ORBIT_RADIUS * sin (radians lon)) 0.
(** From the observer to the satellite. *)
Definition sight (slon lat lon : R) : vec :=
  V (vx (satellite slon) - EARTH_RADIUS * vx (zenith lat lon)) (vy (satellite slon) - EARTH_RADIUS * vy (zenith lat lon)) (vz (satellite slon) - EARTH_RADIUS * vz (zenith lat lon)).
(** [a] is the angle between the zenith and the satellite. *)
Definition zenith_angle (slon lat lon a : R) : Prop := 0 <= a <= PI /\ cos a * norm (sight slon lat lon) = dot (zenith lat lon) (sight slon lat lon).
(** The cosine of the distance from the point under the satellite at longitude 0. *)
Definition cosg (lat lon : R) : R := cos (radians lon) * cos (radians lat).

Lemma sc x : sin x * sin x + cos x * cos x = 1.
Proof. pose proof (sin2_cos2 x) as H. unfold Rsqr in H. exact H. Qed.
Lemma unit_zenith lat lon : dot (zenith lat lon) (zenith lat lon) = 1.
Proof. unfold dot, zenith. cbn [vx vy vz]. pose proof (sc (radians lat)). pose proof (sc (radians lon)). nra. Qed.
Lemma rrh_pos : 0 < rrh < 1.
Proof. unfold rrh, EARTH_RADIUS, ORBIT_RADIUS. lra. Qed.
Lemma zenith_unique slon lat lon a b : zenith_angle slon lat lon a -> zenith_angle slon lat lon b -> 0 < norm (sight slon lat lon) -> a = b.
Proof.
  intros [A1 A2] [B1 B2] N. assert (C : cos a = cos b) by (apply Rmult_eq_reg_r with (norm (sight slon lat lon)); lra). assert (E : acos (cos a) = acos (cos b)) by congruence. rewrite !acos_cos in E by lra. exact E.
Qed.
Lemma sight_dots lat lon : dot (zenith lat lon) (sight 0 lat lon) = ORBIT_RADIUS * cosg lat lon - EARTH_RADIUS /\
  dot (sight 0 lat lon) (sight 0 lat lon) = ORBIT_RADIUS * ORBIT_RADIUS - 2 * ORBIT_RADIUS * EARTH_RADIUS * cosg lat lon + EARTH_RADIUS * EARTH_RADIUS.
Proof.
  unfold sight, satellite, dot. cbn [vx vy vz]. assert (Z0 : radians 0 = 0) by (unfold radians; lra). rewrite Z0, cos_0, sin_0. pose proof (unit_zenith lat lon) as U. unfold dot in U. set (x := vx (zenith lat lon)) in *. set (y := vy (zenith lat lon)) in *. set (z := vz (zenith lat lon)) in *. assert (X : cosg lat lon = x) by (unfold cosg, x, zenith; cbn; ring). rewrite X. clearbody x y z. split.
  - replace (x * (ORBIT_RADIUS * 1 - EARTH_RADIUS * x) + y * (ORBIT_RADIUS * 0 - EARTH_RADIUS * y) + z * (0 - EARTH_RADIUS * z)) with (ORBIT_RADIUS * x - EARTH_RADIUS * (x * x + y * y + z * z)) by ring. rewrite U. ring.
  - replace ((ORBIT_RADIUS * 1 - EARTH_RADIUS * x) * (ORBIT_RADIUS * 1 - EARTH_RADIUS * x) + (ORBIT_RADIUS * 0 - EARTH_RADIUS * y) * (ORBIT_RADIUS * 0 - EARTH_RADIUS * y) + (0 - EARTH_RADIUS * z) * (0 - EARTH_RADIUS * z)) with (ORBIT_RADIUS * ORBIT_RADIUS - 2 * ORBIT_RADIUS * EARTH_RADIUS * x + EARTH_RADIUS * EARTH_RADIUS * (x * x + y * y + z * z)) by ring. rewrite U. ring.
Qed.
Lemma sight_pos lat lon : -1 < cosg lat lon < 1 -> 0 < dot (sight 0 lat lon) (sight 0 lat lon).
Proof. intros C. destruct (sight_dots lat lon) as [_ ->]. unfold ORBIT_RADIUS, EARTH_RADIUS. nra. Qed.
(** ** C104: the satellite zenith angle *)
Theorem C104_exact_partial lat lon : -1 < cosg lat lon < 1 -> zenith_angle 0 lat lon (sat_za lat lon) /\ 0 < sat_za lat lon < PI.
Proof.
  intros C. assert (B : 0 < sat_za lat lon < PI) by (unfold sat_za; match goal with |- context [atan ?t] => pose proof (atan_bound t) end; lra). split; [|exact B]. split; [lra|].
  unfold sat_za. fold (cosg lat lon). rewrite cos_shift. destruct (sight_dots lat lon) as [D1 D2]. pose proof (sight_pos lat lon C) as P. unfold norm. rewrite D1. rewrite D2 in *. set (c := cosg lat lon) in *. clearbody c.
  set (s2 := 1 - c * c). assert (S2 : 0 < s2) by (unfold s2; nra). set (t := (c - rrh) / sqrt s2). rewrite sin_atan. assert (SS : 0 < sqrt s2) by now apply sqrt_lt_R0.
  assert (Q : 0 < s2 + (c - rrh) * (c - rrh)) by (pose proof (Rle_0_sqr (c - rrh)) as SQ; unfold Rsqr in SQ; lra). assert (T : sqrt (1 + t²) = sqrt (s2 + (c - rrh) * (c - rrh)) / sqrt s2). { rewrite <- sqrt_div_alt by exact S2. f_equal. unfold t, Rsqr. replace ((c - rrh) / sqrt s2 * ((c - rrh) / sqrt s2)) with ((c - rrh) * (c - rrh) / (sqrt s2 * sqrt s2)) by (field; lra). rewrite sqrt_sqrt by lra. field. lra. }
  rewrite T. assert (N : sqrt (ORBIT_RADIUS * ORBIT_RADIUS - 2 * ORBIT_RADIUS * EARTH_RADIUS * c + EARTH_RADIUS * EARTH_RADIUS) = ORBIT_RADIUS * sqrt (s2 + (c - rrh) * (c - rrh))).
  { replace (ORBIT_RADIUS * ORBIT_RADIUS - 2 * ORBIT_RADIUS * EARTH_RADIUS * c + EARTH_RADIUS * EARTH_RADIUS) with (ORBIT_RADIUS * ORBIT_RADIUS * (s2 + (c - rrh) * (c - rrh))) by (unfold s2, rrh; field; unfold ORBIT_RADIUS; lra). rewrite sqrt_mult by (unfold ORBIT_RADIUS; lra). rewrite sqrt_square by (unfold ORBIT_RADIUS; lra). reflexivity. }
  rewrite N. assert (0 < sqrt (s2 + (c - rrh) * (c - rrh))) by now apply sqrt_lt_R0. unfold t. transitivity (ORBIT_RADIUS * (c - rrh)); [field; split; lra|]. unfold rrh. field. unfold ORBIT_RADIUS. lra.
Qed.
Print Assumptions C104_exact_partial.
(** A point sees the satellite above its horizon exactly within the disc. *)
Theorem C104_visible lat lon : -1 < cosg lat lon < 1 -> (sat_za lat lon < PI / 2 <-> EARTH_RADIUS < ORBIT_RADIUS * cosg lat lon).
Proof.
  intros C. unfold sat_za. fold (cosg lat lon). set (c := cosg lat lon) in *. clearbody c. assert (S : 0 < sqrt (1 - c * c)) by (apply sqrt_lt_R0; nra). assert (K : EARTH_RADIUS < ORBIT_RADIUS * c <-> 0 < c - rrh) by (unfold rrh, EARTH_RADIUS, ORBIT_RADIUS; split; intros; lra). rewrite K. split.
  - intros H. assert (A : atan 0 < atan ((c - rrh) / sqrt (1 - c * c))) by (rewrite atan_0; lra). destruct (Rlt_le_dec 0 (c - rrh)) as [|L]; [assumption|]. exfalso. assert (T : (c - rrh) / sqrt (1 - c * c) <= 0) by (unfold Rdiv; assert (0 < / sqrt (1 - c * c)) by (now apply Rinv_0_lt_compat); nra). destruct T as [T|T]; [apply atan_increasing in T; lra|rewrite T in A; lra].
  - intros H. assert (T : 0 < (c - rrh) / sqrt (1 - c * c)) by (unfold Rdiv; apply Rmult_lt_0_compat; [exact H|now apply Rinv_0_lt_compat]). apply atan_increasing in T. rewrite atan_0 in T. lra.
Qed.
Print Assumptions C104_visible.
(** Farther from the point under the satellite, the larger the angle. *)
Lemma slope_incr c1 c2 : -1 < c2 < c1 -> c1 < 1 -> (c2 - rrh) / sqrt (1 - c2 * c2) < (c1 - rrh) / sqrt (1 - c1 * c1).
Proof.
  intros A B. pose proof rrh_pos as K. set (k := rrh) in *. clearbody k. set (s1 := sqrt (1 - c1 * c1)). set (s2 := sqrt (1 - c2 * c2)). assert (P1 : 0 < s1) by (apply sqrt_lt_R0; nra). assert (P2 : 0 < s2) by (apply sqrt_lt_R0; nra). assert (Q1 : s1 * s1 = 1 - c1 * c1) by (apply sqrt_sqrt; nra). assert (Q2 : s2 * s2 = 1 - c2 * c2) by (apply sqrt_sqrt; nra).
  apply Rmult_lt_reg_r with (s1 * s2); [nra|]. replace ((c2 - k) / s2 * (s1 * s2)) with ((c2 - k) * s1) by (field; lra). replace ((c1 - k) / s1 * (s1 * s2)) with ((c1 - k) * s2) by (field; lra).
  (* (c1 s2 - c2 s1) > k (s2 - s1) *)
  assert (D : 0 < c1 * s2 - c2 * s1).
  { destruct (Rle_lt_dec c2 0) as [N|N].
    - destruct (Rlt_le_dec 0 c1) as [M|M]; [nra|]. assert (0 <= - c1 < - c2) by lra. assert (s2 < s1) by (apply Rsqr_incrst_0; unfold Rsqr; nra). nra.
    - assert (s1 < s2) by (apply Rsqr_incrst_0; unfold Rsqr; nra). nra. }
  destruct (Rle_lt_dec s2 s1) as [L|L]; [nra|]. (* s1 < s2: |c1| > |c2| *)
  assert (E : s2 - s1 <= c1 * s2 - c2 * s1).
  { assert (C1 : 0 < c1) by nra. assert (F : (c1 * s2 - c2 * s1) * (s1 + s2) - (s2 - s1) * (s1 + s2) >= 0).
    { replace ((s2 - s1) * (s1 + s2)) with (c1 * c1 - c2 * c2) by nra.
      replace ((c1 * s2 - c2 * s1) * (s1 + s2)) with ((c1 - c2) * (s1 * s2) + c1 * (s2 * s2) - c2 * (s1 * s1)) by ring. rewrite Q1, Q2. replace ((c1 - c2) * (s1 * s2) + c1 * (1 - c2 * c2) - c2 * (1 - c1 * c1) - (c1 * c1 - c2 * c2)) with ((c1 - c2) * (s1 * s2 + 1 + c1 * c2 - c1 - c2)) by ring. apply Rle_ge, Rmult_le_pos; [lra|]. nra. }
    nra. }
  nra.
Qed.
Theorem C104_order lat1 lon1 lat2 lon2 : -1 < cosg lat2 lon2 < cosg lat1 lon1 -> cosg lat1 lon1 < 1 -> sat_za lat1 lon1 < sat_za lat2 lon2.
Proof. intros A B. unfold sat_za. fold (cosg lat1 lon1) (cosg lat2 lon2). pose proof (atan_increasing _ _ (slope_incr _ _ A B)). lra. Qed.
Print Assumptions C104_order.
(** The band holds the angle only up to one radian: beyond, every point has 1. *)
Lemma clamp_range lo hi x : lo <= hi -> lo <= clamp lo hi x <= hi.
Proof. intros H. unfold clamp. destruct (Rlt_dec x lo); [lra|]. destruct (Rlt_dec hi x); lra. Qed.
Lemma clamp_mono lo hi x y : lo <= hi -> x <= y -> clamp lo hi x <= clamp lo hi y.
Proof. intros H L. unfold clamp. destruct (Rlt_dec x lo), (Rlt_dec y lo); try lra; destruct (Rlt_dec hi x), (Rlt_dec hi y); lra. Qed.
Lemma clamp_id lo hi x : lo <= x <= hi -> clamp lo hi x = x.
Proof. intros H. unfold clamp. destruct (Rlt_dec x lo); [lra|]. destruct (Rlt_dec hi x); lra. Qed.
Theorem C104_band_partial lat lon : -1 < cosg lat lon < 1 -> sat_za lat lon <= 1 -> zenith_angle 0 lat lon (sat_za_sample (Some (lat, lon))).
Proof. intros C L. destruct (C104_exact_partial lat lon C) as [Z0 [B _]]. unfold sat_za_sample. rewrite clamp_id by lra. exact Z0. Qed.
Print Assumptions C104_band_partial.
Lemma atan_le x : 0 < x -> atan x < x.
Proof.
  intros H. destruct (MVT_cor2 atan (fun x => / (1 + x ^ 2)) 0 x H) as (c & E & C); [intros y _; apply derivable_pt_lim_atan|]. rewrite atan_0, !Rminus_0_r in E. rewrite E. assert (1 < 1 + c ^ 2) by nra. assert (/ (1 + c ^ 2) < 1) by (rewrite <- Rinv_1; apply Rinv_lt_contravar; lra). nra.
Qed.
Theorem C104_refuted_clamp lat lon : -1 < cosg lat lon < 1 -> 1 < sat_za lat lon -> sat_za_sample (Some (lat, lon)) = 1 /\ ~ zenith_angle 0 lat lon 1.
Proof.
  intros C L. split; [unfold sat_za_sample, clamp; destruct (Rlt_dec _ 0); [lra|]; destruct (Rlt_dec 1 _); lra|]. intros Z0. destruct (C104_exact_partial lat lon C) as [Z1 _]. pose proof (zenith_unique _ _ _ _ _ Z0 Z1) as U. specialize (U (sqrt_lt_R0 _ (sight_pos lat lon C))). lra.
Qed.
Print Assumptions C104_refuted_clamp.
(** A point at latitude 60 is such a point and sees the satellite. *)
Lemma radians_60 : radians 60 = PI / 3.
Proof. unfold radians. field. Qed.
Lemma cosg_60 : cosg 60 0 = 1 / 2.
Proof. unfold cosg. rewrite radians_60, cos_PI3. unfold radians. rewrite Rmult_0_l. unfold Rdiv at 1. rewrite Rmult_0_l, cos_0. lra. Qed.
Example C104_clamp_case : -1 < cosg 60 0 < 1 /\ 1 < sat_za 60 0 < PI / 2.
Proof.
  assert (C : -1 < cosg 60 0 < 1) by (rewrite cosg_60; lra). split; [exact C|]. split; [|apply C104_visible; [exact C|rewrite cosg_60; unfold EARTH_RADIUS, ORBIT_RADIUS; lra]].
  unfold sat_za. fold (cosg 60 0). rewrite cosg_60. assert (S : 3 / 4 < sqrt (1 - 1 / 2 * (1 / 2))) by (rewrite <- (sqrt_square (3 / 4)) at 1 by lra; apply sqrt_lt_1_alt; lra). set (s := sqrt _) in *. clearbody s. pose proof PI2_3_2 as P.
  assert (0 < (1 / 2 - rrh) / s) by (apply Rmult_lt_0_compat; [unfold rrh, EARTH_RADIUS, ORBIT_RADIUS; lra|apply Rinv_0_lt_compat; lra]). pose proof (atan_le _ H). assert ((1 / 2 - rrh) / s < 1 / 2). { apply Rmult_lt_reg_r with s; [lra|]. unfold Rdiv at 1. rewrite Rmult_assoc, Rinv_l by lra. unfold rrh, EARTH_RADIUS, ORBIT_RADIUS. lra. } lra.
Qed.
(** Pixels off the earth have the value of the point right under the satellite,
    which no other point of the earth has. *)
Theorem C104_refuted_space lat lon : -1 < cosg lat lon < 1 -> sat_za_sample None = 0 /\ 0 < sat_za_sample (Some (lat, lon)).
Proof. intros C. split; [reflexivity|]. destruct (C104_exact_partial lat lon C) as [_ [B _]]. unfold sat_za_sample, clamp. destruct (Rlt_dec _ 0); [lra|]. destruct (Rlt_dec 1 _); lra. Qed.
Print Assumptions C104_refuted_space.
(** The satellite is taken to be at longitude 0: right under a satellite at any
    other longitude, where the angle is 0, a positive angle is given. *)
Theorem C104_refuted_longitude s : 0 < s < 180 -> zenith_angle s 0 s 0 /\ 0 < sat_za 0 s.
Proof.
  intros S. assert (R : 0 < radians s < PI) by (unfold radians; pose proof PI_RGT_0; split; [nra|]; assert (s * PI < 180 * PI) by nra; lra). assert (Z0 : radians 0 = 0) by (unfold radians; lra). split.
  - split; [pose proof PI_RGT_0; lra|]. rewrite cos_0, Rmult_1_l. unfold norm, sight, satellite, zenith, dot. cbn [vx vy vz]. rewrite Z0, cos_0, sin_0, !Rmult_1_l. pose proof (sc (radians s)) as U. set (x := cos (radians s)) in *. set (y := sin (radians s)) in *. clearbody x y.
    replace ((ORBIT_RADIUS * x - EARTH_RADIUS * x) * (ORBIT_RADIUS * x - EARTH_RADIUS * x) + (ORBIT_RADIUS * y - EARTH_RADIUS * y) * (ORBIT_RADIUS * y - EARTH_RADIUS * y) + (0 - EARTH_RADIUS * 0) * (0 - EARTH_RADIUS * 0)) with ((ORBIT_RADIUS - EARTH_RADIUS) * (ORBIT_RADIUS - EARTH_RADIUS) * (y * y + x * x)) by ring. rewrite U, Rmult_1_r. rewrite sqrt_square by (unfold ORBIT_RADIUS, EARTH_RADIUS; lra).
    replace (x * (ORBIT_RADIUS * x - EARTH_RADIUS * x) + y * (ORBIT_RADIUS * y - EARTH_RADIUS * y) + 0 * (0 - EARTH_RADIUS * 0)) with ((ORBIT_RADIUS - EARTH_RADIUS) * (y * y + x * x)) by ring. rewrite U. ring.
  - apply C104_exact_partial. unfold cosg. rewrite Z0, cos_0, Rmult_1_r. split.
    + rewrite <- cos_PI. apply cos_decreasing_1; lra.
    + rewrite <- cos_0. apply cos_decreasing_1; lra.
Qed.
Print Assumptions C104_refuted_longitude.

(** ** C105: the sun *)
(** One direction of the sun, the same for every point of the earth: the cosine is
    that of the angle between it and the zenith. *)
Lemma sindlt_bound jd : - (3978 / 10000) <= sindlt jd <= 3978 / 10000.
Proof. unfold sindlt. pose proof (SIN_bound (sigma jd)). lra. Qed.
Lemma cosdlt_sq jd : 0 <= cosdlt jd /\ cosdlt jd * cosdlt jd = 1 - sindlt jd * sindlt jd.
Proof. unfold cosdlt. pose proof (sindlt_bound jd). split; [apply sqrt_pos|apply sqrt_sqrt; nra]. Qed.
Definition declination_limit : R := 3978 / 10000.
Theorem C105_direction jd hour : exists sun, dot sun sun = 1 /\ Rabs (vz sun) <= declination_limit /\ forall lat lon, cos_sol_za jd hour lat lon = dot (zenith lat lon) sun.
Proof.
  set (a := radians (15 * (hour - homp jd))). exists (V (cosdlt jd * cos a) (- (cosdlt jd * sin a)) (sindlt jd)). destruct (cosdlt_sq jd) as [_ Q]. split; [|split].
  - unfold dot. cbn [vx vy vz]. pose proof (sc a). replace (cosdlt jd * cos a * (cosdlt jd * cos a) + - (cosdlt jd * sin a) * - (cosdlt jd * sin a) + sindlt jd * sindlt jd) with (cosdlt jd * cosdlt jd * (sin a * sin a + cos a * cos a) + sindlt jd * sindlt jd) by ring. rewrite H, Q. ring.
  - cbn [vz]. pose proof (sindlt_bound jd). unfold declination_limit. apply Rabs_le. lra.
  - intros lat lon. unfold cos_sol_za, dot, zenith, hang. cbn [vx vy vz]. replace (radians (15 * (hour - homp jd) + lon)) with (a + radians lon) by (unfold a, radians; lra). rewrite cos_plus. ring.
Qed.
Print Assumptions C105_direction.
Lemma cauchy a b : dot a a = 1 -> dot b b = 1 -> -1 <= dot a b <= 1.
Proof.
  unfold dot. intros A B. set (x := vx a) in *. set (y := vy a) in *. set (z := vz a) in *. set (u := vx b) in *. set (v := vy b) in *. set (w := vz b) in *. clearbody x y z u v w. pose proof (Rle_0_sqr (x - u)). pose proof (Rle_0_sqr (y - v)). pose proof (Rle_0_sqr (z - w)). pose proof (Rle_0_sqr (x + u)). pose proof (Rle_0_sqr (y + v)). pose proof (Rle_0_sqr (z + w)). unfold Rsqr in *. split; nra.
Qed.
Theorem C105_range jd hour lat lon : -1 <= cos_sol_za jd hour lat lon <= 1.
Proof. destruct (C105_direction jd hour) as (s & S1 & _ & S2). rewrite S2. apply cauchy; [apply unit_zenith|exact S1]. Qed.
Print Assumptions C105_range.
(** Fifteen degrees east are one hour; a day brings everything back. *)
Theorem C105_rotation jd hour lat lon : cos_sol_za jd hour lat (lon + 15) = cos_sol_za jd (hour + 1) lat lon /\ cos_sol_za jd (hour + 24) lat lon = cos_sol_za jd hour lat lon /\ cos_sol_za jd hour lat (lon + 360) = cos_sol_za jd hour lat lon.
Proof.
  unfold cos_sol_za, hang. split; [|split].
  - replace (15 * (hour - homp jd) + (lon + 15)) with (15 * (hour + 1 - homp jd) + lon) by ring. reflexivity.
  - f_equal. f_equal. replace (radians (15 * (hour + 24 - homp jd) + lon)) with (radians (15 * (hour - homp jd) + lon) + 2 * PI) by (unfold radians; field). rewrite <- (cos_period (radians (15 * (hour - homp jd) + lon)) 1). f_equal. cbn. ring.
  - f_equal. f_equal. replace (radians (15 * (hour - homp jd) + (lon + 360))) with (radians (15 * (hour - homp jd) + lon) + 2 * PI) by (unfold radians; field). rewrite <- (cos_period (radians (15 * (hour - homp jd) + lon)) 1). f_equal. cbn. ring.
Qed.
Print Assumptions C105_rotation.
(** On a meridian the sun is highest at solar noon, twelve o'clock plus or minus
    the equation of time, and never more than 21 minutes from it. *)
Theorem C105_noon jd hour lat lon : -90 <= lat <= 90 -> exists noon, Rabs (noon + lon / 15 - 12) <= 35 / 100 /\ cos_sol_za jd hour lat lon <= cos_sol_za jd noon lat lon.
Proof.
  intros L. exists (homp jd - lon / 15). split.
  - unfold homp. set (d := dang jd). pose proof (SIN_bound d). pose proof (COS_bound d). pose proof (SIN_bound (2 * d)). pose proof (COS_bound (2 * d)). apply Rabs_le. lra.
  - unfold cos_sol_za. apply Rplus_le_compat_l. replace (radians (hang jd (homp jd - lon / 15) lon)) with 0 by (unfold hang, radians; field). rewrite cos_0. destruct (cosdlt_sq jd) as [C _]. pose proof PI_RGT_0 as P. assert (0 <= cos (radians lat)) by (apply cos_ge_0; unfold radians; nra). pose proof (COS_bound (radians (hang jd hour lon))). apply Rmult_le_compat_l; [nra|lra].
Qed.
Print Assumptions C105_noon.
Theorem C105_band jd hour lat lon : cos_sol_za_sample jd hour (Some (lat, lon)) = Rmax 0 (cos_sol_za jd hour lat lon) /\ cos_sol_za_sample jd hour None = 0.
Proof.
  split; [|reflexivity]. unfold cos_sol_za_sample, clamp. pose proof (C105_range jd hour lat lon). destruct (Rlt_dec _ 0); [rewrite Rmax_left; lra|]. destruct (Rlt_dec 1 _); [lra|]. rewrite Rmax_right; lra.
Qed.
Print Assumptions C105_band.

(** ** C106: reflectance *)
Lemma esd_pos jd : 98 / 100 < esd jd < 102 / 100.
Proof. unfold esd. pose proof (COS_bound (2 * PI * (jd - 3) / 365)). lra. Qed.
Lemma floored_pos c : 0 < floored c.
Proof. unfold floored, cos80. destruct (Rlt_dec _ _); unfold cos80 in *; lra. Qed.
Lemma tr_pos c jd : 0 < c -> 0 < tr c jd.
Proof. intros H. unfold tr. pose proof (esd_pos jd). apply Rmult_lt_0_compat; [exact H|apply Rinv_0_lt_compat; nra]. Qed.
Theorem C106_range c jd hour slope offset raw p : 0 <= reflectance_sample c jd hour slope offset raw p <= 100.
Proof. destruct p as [[lat lon]|]; cbn [reflectance_sample]; [apply clamp_range; lra|lra]. Qed.
Print Assumptions C106_range.
(** A brighter count never gives a lower reflectance. *)
Theorem C106_order ch c jd hour slope offset raw raw' p : solar ch = Some c -> 0 <= slope -> raw <= raw' -> reflectance_sample c jd hour slope offset raw p <= reflectance_sample c jd hour slope offset raw' p.
Proof.
  intros S H L. destruct p as [[lat lon]|]; cbn [reflectance_sample]; [|lra]. apply clamp_mono; [lra|]. apply rnd_mono. assert (C : 0 < c) by (unfold solar in S; destruct (ch =? 1)%Z; [injection S as <-; lra|]; destruct (ch =? 2)%Z; [injection S as <-; lra|]; destruct (ch =? 3)%Z; [injection S as <-; lra|]; destruct (ch =? 12)%Z; [injection S as <-; lra|discriminate]).
  pose proof (tr_pos c jd C) as T. pose proof (floored_pos (cos_sol_za jd hour lat lon)) as F. unfold Rdiv. apply Rmult_le_compat_r; [left; now apply Rinv_0_lt_compat|]. apply Rmult_le_compat_r; [left; now apply Rinv_0_lt_compat|]. nra.
Qed.
Print Assumptions C106_order.
(** Distance of the sun on a day of the year in astronomical units: an orbit of
    eccentricity 0.0167 whose nearest point is on the third of January. *)
Definition sun_distance (day : R) : R := 1 - 167 / 10000 * cos (2 * PI * (day - 3) / 365).
(** In daylight, at least ten degrees above the horizon, and within bounds, the
    sample is the reflectance of a surface lit by the sun, to float precision:
    100 pi R / (E cos z) with E = pi c / distance^2. *)
Theorem C106_value_partial c jd hour slope offset raw lat lon : 0 < c -> cos80 <= cos_sol_za jd hour lat lon ->
  let rho := 100 * (PI * (raw * slope + offset)) / (PI * c / (sun_distance jd * sun_distance jd) * cos_sol_za jd hour lat lon) in
  0 <= rho <= 99 -> exists e, Rabs e <= / 2 ^ 24 /\ reflectance_sample c jd hour slope offset raw (Some (lat, lon)) = rho * (1 + e).
Proof.
  intros C D rho B. change (sun_distance jd) with (esd jd) in rho. cbn [reflectance_sample]. unfold floored. destruct (Rlt_dec _ _); [lra|]. pose proof (esd_pos jd) as E. pose proof PI_RGT_0 as P. assert (Q : 100 * (raw * slope + offset) / tr c jd / cos_sol_za jd hour lat lon = rho) by (unfold rho, tr; unfold cos80 in D; field; repeat split; lra). rewrite Q. destruct (rnd_err rho) as (e & E1 & E2). exists e. split; [exact E1|]. rewrite E2. apply clamp_id. pose proof (Rle_abs e); pose proof (Rle_abs (- e)); rewrite Rabs_Ropp in *. nra.
Qed.
Print Assumptions C106_value_partial.
(** The same count is brightest when the sun is farthest: it is nearest on day 3 and
    farthest half a year later. *)
Theorem C106_season c jd jd' hour hour' slope offset raw lat lat' lon lon' : 0 < c -> 0 <= raw * slope + offset ->
  cos_sol_za jd hour lat lon = cos_sol_za jd' hour' lat' lon' -> jd = 3 \/ jd' = 3 + 365 / 2 ->
  reflectance_sample c jd hour slope offset raw (Some (lat, lon)) <= reflectance_sample c jd' hour' slope offset raw (Some (lat', lon')).
Proof.
  intros C R0 Q DAY. assert (M : esd jd <= esd jd').
  { unfold esd. pose proof (COS_bound (2 * PI * (jd - 3) / 365)). pose proof (COS_bound (2 * PI * (jd' - 3) / 365)). destruct DAY as [-> | ->].
    - replace (2 * PI * (3 - 3) / 365) with 0 in * by field. rewrite cos_0 in *. lra.
    - replace (2 * PI * (3 + 365 / 2 - 3) / 365) with PI in * by field. rewrite cos_PI in *. lra. }
  cbn [reflectance_sample]. rewrite Q. apply clamp_mono; [lra|]. apply rnd_mono. unfold Rdiv at 1 3. apply Rmult_le_compat_r; [left; apply Rinv_0_lt_compat, floored_pos|].
  pose proof (esd_pos jd). pose proof (esd_pos jd'). unfold tr. replace (100 * (raw * slope + offset) / (c / (esd jd * esd jd))) with (100 * (raw * slope + offset) / c * (esd jd * esd jd)) by (field; lra).
  replace (100 * (raw * slope + offset) / (c / (esd jd' * esd jd'))) with (100 * (raw * slope + offset) / c * (esd jd' * esd jd')) by (field; lra).
  apply Rmult_le_compat_l; [|nra]. apply Rmult_le_pos; [lra|left; now apply Rinv_0_lt_compat].
Qed.
Print Assumptions C106_season.
(** At night the reflectance is computed as if the sun were ten degrees above the
    horizon, and can be positive. *)
Theorem C106_refuted_night c jd hour slope offset raw lat lon : 0 < c -> cos_sol_za jd hour lat lon < 0 -> 0 < raw * slope + offset -> 0 < reflectance_sample c jd hour slope offset raw (Some (lat, lon)).
Proof.
  intros C N R. cbn [reflectance_sample]. set (q := 100 * _ / _ / _). assert (0 < q). { unfold q. pose proof (tr_pos c jd C). pose proof (floored_pos (cos_sol_za jd hour lat lon)). unfold Rdiv. repeat apply Rmult_lt_0_compat; try lra; now apply Rinv_0_lt_compat. } apply rnd_pos in H. unfold clamp. destruct (Rlt_dec _ 0); [lra|]. destruct (Rlt_dec 100 _); lra.
Qed.
Print Assumptions C106_refuted_night.

(** ** C107: reflectance at 3.9 *)
Theorem C107_range jd hour t039 t108 t134 p : 0 <= reflectance39_sample jd hour t039 t108 t134 p <= 100.
Proof. destruct p as [[lat lon]|]; cbn [reflectance39_sample]; [apply clamp_range; lra|lra]. Qed.
Print Assumptions C107_range.
Lemma planck_mono a b : 0 < a <= b -> 0 < planck a <= planck b.
Proof.
  intros [A B]. unfold planck. set (k := 119104 / 10000000000 * _). assert (K : 0 < k) by (unfold k; lra). set (u := 143877 / 100000 * (2569094 / 1000)). assert (U : 0 < u) by (unfold u; lra). set (d := fun t => 9959 / 10000 * t + 3471 / 1000). change (0 < k / (exp (u / d a) - 1) <= k / (exp (u / d b) - 1)). assert (DA : 0 < d a) by (unfold d; lra). assert (DB : d a <= d b) by (unfold d; lra).
  assert (E0 : forall x, 0 < x -> 0 < exp (u / x) - 1). { intros x X. assert (1 < exp (u / x)); [|lra]. rewrite <- exp_0 at 1. apply exp_increasing. apply Rmult_lt_0_compat; [exact U|now apply Rinv_0_lt_compat]. }
  assert (M : exp (u / d b) <= exp (u / d a)). { destruct DB as [DB|DB]; [|rewrite DB; lra]. left. apply exp_increasing. unfold Rdiv. apply Rmult_lt_compat_l; [exact U|]. apply Rinv_lt_contravar; [nra|exact DB]. }
  split; [apply Rmult_lt_0_compat; [exact K|apply Rinv_0_lt_compat, E0, DA]|]. unfold Rdiv. apply Rmult_le_compat_l; [lra|]. apply Rinv_le_contravar; [apply E0; lra|lra].
Qed.
Lemma above_mono f x y : x <= y -> above f x <= above f y \/ x <= f < y /\ y < f + / 10000000.
Proof. intros H. unfold above. destruct (Rle_dec x f), (Rle_dec y f); lra. Qed.
Lemma pow4_mono a b : 0 <= a <= b -> a ^ 4 <= b ^ 4.
Proof. intros H. apply pow_incr. exact H. Qed.
Lemma toarad_pos jd c sat a b : 0 < c -> 0 < toarad jd c sat a b.
Proof. intros C. unfold toarad. pose proof (esd_pos jd). assert (0 < Rpower c (3 / 4)) by apply exp_pos. pose proof (exp_pos (- (1 - r39_corr a b) * c)). pose proof (exp_pos (- (1 - r39_corr a b) / cos sat)). assert (0 < 492 / 100 / (esd jd * esd jd)) by (apply Rmult_lt_0_compat; [lra|apply Rinv_0_lt_compat; nra]). apply Rmult_lt_0_compat; [apply Rmult_lt_0_compat; [apply Rmult_lt_0_compat|]|]; assumption. Qed.
Lemma therm_pos a b : 0 < a -> 0 < b -> 0 < r_therm a b.
Proof. intros A B. unfold r_therm. destruct (planck_mono a a ltac:(lra)) as [P _]. apply Rmult_lt_0_compat; [exact P|]. unfold r39_corr. apply pow_lt. apply Rmult_lt_0_compat; [lra|now apply Rinv_0_lt_compat]. Qed.
(** A warmer 3.9 measurement never gives a lower reflectance, except for the
    guard that replaces radiances just below the thermal one. *)
Theorem C107_order_partial jd hour t t' t108 t134 p : 0 < t <= t' -> 0 < t108 -> 0 < t134 -> 0 < corrected4 t t108 t134 ->
  r_therm t108 t134 + / 10000000 <= r_tot t' t108 t134 \/ r_tot t' t108 t134 <= r_therm t108 t134 \/ r_therm t108 t134 < r_tot t t108 t134 ->
  reflectance39_sample jd hour t t108 t134 p <= reflectance39_sample jd hour t' t108 t134 p.
Proof.
  intros T A B C G. destruct p as [[lat lon]|]; cbn [reflectance39_sample]; [|lra]. apply clamp_mono; [lra|]. apply rnd_mono.
  assert (R : r_tot t t108 t134 <= r_tot t' t108 t134). { unfold r_tot. apply Rplus_le_compat_r. assert (C' : corrected4 t t108 t134 <= corrected4 t' t108 t134) by (unfold corrected4; pose proof (pow4_mono t t' ltac:(lra)); lra). apply planck_mono. split; [apply exp_pos|]. apply Rle_Rpower_l; [lra|lra]. }
  set (f := r_therm t108 t134) in *. set (c := floored _). assert (TP : 0 < above f (toarad jd c (sat_za lat lon) t108 t134)). { unfold above. pose proof (therm_pos t108 t134 A B). destruct (Rle_dec _ _); [fold f in H; lra|]. apply toarad_pos, floored_pos. }
  unfold Rdiv. apply Rmult_le_compat_r; [left; now apply Rinv_0_lt_compat|]. apply Rmult_le_compat_l; [lra|]. apply Rplus_le_compat_r. destruct (above_mono f _ _ R) as [H|[H1 H2]]; [exact H|lra].
Qed.
Print Assumptions C107_order_partial.
(** Within the guard a warmer pixel gets a lower radiance. *)
Lemma guard_inverts f x y : x <= f -> f < y < f + / 10000000 -> x < y /\ above f y < above f x.
Proof. intros X Y. split; [lra|]. unfold above. destruct (Rle_dec y f), (Rle_dec x f); lra. Qed.
(** The temperature that has a given radiance. *)
Definition inverse_planck (v : R) : R := (143877 / 100000 * (2569094 / 1000) / ln (1 + 119104 / 10000000000 * (2569094 / 1000 * (2569094 / 1000) * (2569094 / 1000)) / v) - 3471 / 1000) / (9959 / 10000).
Lemma exp_2 n : 2 ^ n <= exp (INR n).
Proof.
  induction n as [|n IH]; [cbn [INR pow]; rewrite exp_0; lra|]. rewrite S_INR, exp_plus. cbn [pow]. pose proof (exp_ineq1 1 ltac:(lra)). pose proof (pow_lt 2 n ltac:(lra)). nra.
Qed.
Lemma exp_3 n : exp (INR n) <= 3 ^ n.
Proof.
  induction n as [|n IH]; [cbn [INR pow]; rewrite exp_0; lra|]. rewrite S_INR, exp_plus. cbn [pow]. pose proof exp_le_3. pose proof (exp_pos (INR n)). pose proof (exp_pos 1). nra.
Qed.
Lemma inverse_planck_ok v : 1 / 1000 <= v -> 0 < inverse_planck v /\ planck (inverse_planck v) = v.
Proof.
  intros V. unfold inverse_planck, planck. set (k := 119104 / 10000000000 * _). set (u := 143877 / 100000 * (2569094 / 1000)).
  assert (K : 0 < k <= 300000) by (unfold k; lra). assert (U : 3696 < u < 3697) by (unfold u; lra).
  assert (Q : 0 < k / v <= 300000000). { split; [apply Rmult_lt_0_compat; [lra|apply Rinv_0_lt_compat; lra]|]. apply Rmult_le_reg_r with v; [lra|]. unfold Rdiv. rewrite Rmult_assoc, Rinv_l by lra. nra. }
  assert (L0 : 0 < ln (1 + k / v)) by (rewrite <- ln_1; apply ln_increasing; lra).
  assert (L1 : ln (1 + k / v) < 30).
  { apply Rlt_le_trans with (ln (exp 30)); [|rewrite ln_exp; lra]. apply ln_increasing; [lra|]. pose proof (exp_2 30) as E. replace (INR 30) with 30 in E by (cbn; lra). apply Rlt_le_trans with (2 ^ 30); [|exact E]. lra. }
  assert (D : 100 < u / ln (1 + k / v)). { apply Rmult_lt_reg_r with (ln (1 + k / v)); [exact L0|]. unfold Rdiv. rewrite Rmult_assoc, Rinv_l by lra. nra. }
  split; [apply Rmult_lt_0_compat; lra|].
  replace (9959 / 10000 * ((u / ln (1 + k / v) - 3471 / 1000) / (9959 / 10000)) + 3471 / 1000) with (u / ln (1 + k / v)) by (field; lra).
  replace (u / (u / ln (1 + k / v))) with (ln (1 + k / v)) by (field; split; lra). rewrite exp_ln by lra. field. split; lra.
Qed.
Lemma planck_270 a : 270 <= a -> 4 / 100 <= planck a.
Proof.
  intros A. apply Rle_trans with (planck 270); [|apply planck_mono; lra]. unfold planck. set (k := 119104 / 10000000000 * _). assert (K : 201000 < k) by (unfold k; lra).
  set (x := 143877 / 100000 * _ / _). assert (X : 0 < x < 14) by (unfold x; split; lra).
  assert (E : exp x <= 3 ^ 14). { apply Rle_trans with (exp (INR 14)); [left; apply exp_increasing; cbn; lra|apply exp_3]. }
  assert (E1 : 1 < exp x) by (rewrite <- exp_0 at 1; apply exp_increasing; lra).
  apply Rmult_le_reg_r with (exp x - 1); [lra|]. unfold Rdiv. rewrite (Rmult_assoc k), Rinv_l by lra. lra.
Qed.
(** Equal temperatures in the two thermal channels: no correction. *)
Lemma no_co2 t a : 0 < t -> 0 < a -> r_tot t a a = planck t + 15 / 1000 /\ r_therm a a = planck a.
Proof.
  intros T A. split.
  - unfold r_tot, corrected4. replace (t ^ 4 + a ^ 4 - (a - (a - a) / 4) ^ 4) with (t ^ 4) by field. rewrite <- (Rpower_pow 4 t T). rewrite Rpower_mult. replace (INR 4 * / 4) with 1 by (cbn; field). now rewrite Rpower_1.
  - unfold r_therm, r39_corr. replace ((a - / 4 * (a - a)) / a) with 1 by (field; lra). lra.
Qed.
(** So the order is broken for every ordinary temperature of the thermal channels, at
    every time and place: there are two 3.9 temperatures of which the higher gives
    the lower reflectance. *)
Theorem C107_refuted_order : forall jd hour a lat lon, 270 <= a ->
  exists t t', 0 < t < t' /\ t' < a /\ reflectance39_sample jd hour t' a a (Some (lat, lon)) < reflectance39_sample jd hour t a a (Some (lat, lon)).
Proof.
  intros jd hour a lat lon A. pose proof (planck_270 a A) as F. set (f := planck a) in *.
  destruct (inverse_planck_ok (f - 15 / 1000) ltac:(lra)) as (T & PT). destruct (inverse_planck_ok (f - 15 / 1000 + / 20000000) ltac:(lra)) as (T' & PT').
  set (t := inverse_planck (f - 15 / 1000)) in *. set (t' := inverse_planck (f - 15 / 1000 + / 20000000)) in *. exists t, t'.
  split; [split; [exact T|]|split].
  - destruct (Rle_lt_dec t' t) as [L | L]; [|exact L]. pose proof (planck_mono t' t ltac:(lra)). lra.
  - destruct (Rle_lt_dec a t') as [L | L]; [|exact L]. pose proof (planck_mono a t' ltac:(lra)). fold f in H. lra.
  - cbn [reflectance39_sample]. destruct (no_co2 t a T ltac:(lra)) as (R1 & R2). destruct (no_co2 t' a T' ltac:(lra)) as (R3 & _). rewrite R1, R2, R3, PT, PT'. fold f.
    set (D := above f (toarad _ _ _ _ _)). assert (DP : f <= D) by (unfold D, above; destruct (Rle_dec _ _); lra).
    assert (A1 : above f (f - 15 / 1000 + 15 / 1000) = f + / 10000000) by (unfold above; destruct (Rle_dec _ _); lra).
    assert (A2 : above f (f - 15 / 1000 + / 20000000 + 15 / 1000) = f + / 20000000) by (unfold above; destruct (Rle_dec _ _); lra).
    rewrite A1, A2. set (x := 100 * (f + / 20000000 - f) / D). replace (100 * (f + / 10000000 - f) / D) with (2 * x) by (unfold x; field; lra).
    assert (X : 0 < x <= / 1000). { unfold x. split; [apply Rmult_lt_0_compat; [lra|apply Rinv_0_lt_compat; lra]|]. apply Rmult_le_reg_r with D; [lra|]. unfold Rdiv. rewrite Rmult_assoc, Rinv_l by lra. lra. }
    destruct (rnd_err x) as (e & E1 & E2). destruct (rnd_err (2 * x)) as (e' & E1' & E2'). rewrite E2, E2'.
    assert (B : / 2 ^ 24 < / 100) by (apply Rinv_lt_contravar; lra). assert (E : Rabs e <= / 100 /\ Rabs e' <= / 100) by (split; lra). destruct E as (E & E'). pose proof (Rle_abs e). pose proof (Rle_abs (- e)). pose proof (Rle_abs e'). pose proof (Rle_abs (- e')). rewrite Rabs_Ropp in *. rewrite !clamp_id by nra. nra.
Qed.
Print Assumptions C107_refuted_order.
(** The value, independently: with the CO2 factor q of the radiances, the radiance of
    the corrected 3.9 temperature minus the thermal one, over that of the sun. *)
Definition radiance39 (temp : R) : R := let n := 2569094 / 1000 in 119104 / 10 ^ 10 * n ^ 3 / (exp (143877 / 10 ^ 5 * n / (9959 / 10 ^ 4 * temp + 3471 / 10 ^ 3)) - 1).
Theorem C107_value_partial jd hour t039 t108 t134 lat lon : 0 < t108 -> cos80 <= cos_sol_za jd hour lat lon ->
  let mu := cos_sol_za jd hour lat lon in
  let q := ((3 * t108 + t134) / (4 * t108)) ^ 4 in
  let total := radiance39 (Rpower (t039 ^ 4 + (1 - q) * t108 ^ 4) (/ 4)) + 15 / 1000 in
  let thermal := q * radiance39 t108 in
  let sun := 492 / 100 / sun_distance jd ^ 2 * Rpower mu (3 / 4) * exp (- (1 - q) * (mu + / cos (sat_za lat lon))) in
  let rho := 100 * (total - thermal) / sun in
  thermal < total -> thermal < sun -> 0 <= rho <= 99 ->
  exists e, Rabs e <= / 2 ^ 24 /\ reflectance39_sample jd hour t039 t108 t134 (Some (lat, lon)) = rho * (1 + e).
Proof.
  intros T D mu q total thermal sun rho H1 H2 B. cbn [reflectance39_sample]. unfold floored. destruct (Rlt_dec _ _); [lra|]. fold mu.
  assert (P : forall x, radiance39 x = planck x).
  { intros x. unfold radiance39, planck. cbv zeta. replace (143877 / 10 ^ 5 * (2569094 / 1000) / (9959 / 10 ^ 4 * x + 3471 / 10 ^ 3)) with (143877 / 100000 * (2569094 / 1000) / (9959 / 10000 * x + 3471 / 1000)) by (f_equal; [lra|f_equal; lra]). f_equal. lra. }
  assert (Q : r39_corr t108 t134 = q) by (unfold r39_corr, q; f_equal; field; lra).
  assert (E1 : r_tot t039 t108 t134 = total).
  { unfold r_tot, total. rewrite P. do 3 f_equal. unfold corrected4, q. field. lra. }
  assert (E2 : r_therm t108 t134 = thermal) by (unfold r_therm, thermal; rewrite Q, P; ring).
  assert (E3 : toarad jd mu (sat_za lat lon) t108 t134 = sun).
  { unfold toarad, sun. rewrite Q. rewrite (Rmult_assoc _ (exp _) (exp _)), <- exp_plus. change (sun_distance jd) with (esd jd). f_equal; [do 2 f_equal; f_equal; ring|]. f_equal. unfold Rdiv. ring. }
  rewrite E1, E2, E3. unfold above. destruct (Rle_dec _ _); [lra|]. destruct (Rle_dec _ _); [lra|]. fold rho. destruct (rnd_err rho) as (e & R1 & R2). exists e. split; [exact R1|]. rewrite R2. apply clamp_id. pose proof (Rle_abs e); pose proof (Rle_abs (- e)); rewrite Rabs_Ropp in *. nra.
Qed.
Print Assumptions C107_value_partial.
(** Ordinary temperatures meet the hypotheses. *)
Example C107_case : 0 < corrected4 300 280 260 /\ solar 1 = Some (2076 / 100).
Proof. split; [unfold corrected4; lra|reflexivity]. Qed.
(** On the equator there is a midnight and a noon. *)
Lemma equator jd hour : cos_sol_za jd hour 0 0 = cosdlt jd * cos (radians (hang jd hour 0)).
Proof. unfold cos_sol_za. replace (radians 0) with 0 by (unfold radians; lra). rewrite sin_0, cos_0. ring. Qed.
Lemma cosdlt_low jd : 9 / 10 < cosdlt jd <= 1.
Proof. destruct (cosdlt_sq jd) as [P Q]. pose proof (sindlt_bound jd). split; nra. Qed.
Example C106_night_case jd : cos_sol_za jd (homp jd + 12) 0 0 < 0.
Proof. rewrite equator. replace (radians (hang jd (homp jd + 12) 0)) with PI by (unfold hang, radians; field). rewrite cos_PI. pose proof (cosdlt_low jd). lra. Qed.
(** And a sunset of every day. *)
Example C106_season_case jd : cos_sol_za 3 (homp 3 + 6) 0 0 = cos_sol_za jd (homp jd + 6) 0 0.
Proof. rewrite !equator. replace (radians (hang 3 (homp 3 + 6) 0)) with (PI / 2) by (unfold hang, radians; field). replace (radians (hang jd (homp jd + 6) 0)) with (PI / 2) by (unfold hang, radians; field). rewrite cos_PI2. ring. Qed.
Example C106_day_case jd : let coz := cos_sol_za jd (homp jd) 0 0 in cos80 <= coz /\ 0 <= 100 * (PI * (51 * (2 / 100) + 0)) / (PI * (2076 / 100) / (esd jd * esd jd) * coz) <= 99.
Proof.
  cbv zeta. rewrite equator. replace (radians (hang jd (homp jd) 0)) with 0 by (unfold hang, radians; field). rewrite cos_0, Rmult_1_r. pose proof (cosdlt_low jd) as C. pose proof (esd_pos jd) as E. pose proof PI_RGT_0 as P. split; [unfold cos80; lra|].
  replace (100 * (PI * (51 * (2 / 100) + 0)) / (PI * (2076 / 100) / (esd jd * esd jd) * cosdlt jd)) with (esd jd * esd jd * (102 / (2076 / 100)) * / cosdlt jd) by (field; repeat split; lra). assert (I : 0 < / cosdlt jd < 2). { split; [apply Rinv_0_lt_compat; lra|]. replace 2 with (/ (/ 2)) by field. apply Rinv_lt_contravar; nra. } split; [repeat apply Rmult_le_pos; lra|]. assert (0 < esd jd * esd jd < 11 / 10) by nra. nra.
Qed.
Lemma exp_25 n : (5 / 2) ^ n <= exp (INR n).
Proof.
  assert (E : 5 / 2 <= exp 1).
  { replace 1 with (/ 8 + (/ 8 + (/ 8 + (/ 8 + (/ 8 + (/ 8 + (/ 8 + / 8))))))) by lra. rewrite !exp_plus. pose proof (exp_ineq1 (/ 8) ltac:(lra)) as H. set (x := exp (/ 8)) in *.
    assert (H2 : 126 / 100 <= x * x) by nra. assert (H4 : 158 / 100 <= (x * x) * (x * x)) by nra. assert (H8 : 5 / 2 <= ((x * x) * (x * x)) * ((x * x) * (x * x))) by nra. replace (x * _) with (((x * x) * (x * x)) * ((x * x) * (x * x))) by ring. exact H8. }
  induction n as [|n IH]; [cbn [INR pow]; rewrite exp_0; lra|]. rewrite S_INR, exp_plus. cbn [pow]. pose proof (pow_lt (5 / 2) n ltac:(lra)). nra.
Qed.
(** Noon on the equator, 300 K at 3.9 and 280 K in the other channels. *)
Example C107_value_case jd : let mu := cos_sol_za jd (homp jd) 0 0 in
  let q := ((3 * 280 + 280) / (4 * 280)) ^ 4 in
  let total := radiance39 (Rpower (300 ^ 4 + (1 - q) * 280 ^ 4) (/ 4)) + 15 / 1000 in
  let thermal := q * radiance39 280 in
  let sun := 492 / 100 / sun_distance jd ^ 2 * Rpower mu (3 / 4) * exp (- (1 - q) * (mu + / cos (sat_za 0 0))) in
  cos80 <= mu /\ thermal < total /\ thermal < sun /\ 0 <= 100 * (total - thermal) / sun <= 99.
Proof.
  cbv zeta. rewrite equator. replace (radians (hang jd (homp jd) 0)) with 0 by (unfold hang, radians; field). rewrite cos_0, Rmult_1_r. pose proof (cosdlt_low jd) as C. pose proof (esd_pos jd) as E.
  replace (((3 * 280 + 280) / (4 * 280)) ^ 4) with 1 by field. rewrite !Rmult_1_l.
  replace (300 ^ 4 + (1 - 1) * 280 ^ 4) with (300 ^ 4) by ring. rewrite <- (Rpower_pow 4 300) by lra. rewrite Rpower_mult. replace (INR 4 * / 4) with 1 by (cbn; field). rewrite Rpower_1 by lra.
  replace (- (1 - 1) * (cosdlt jd + / cos (sat_za 0 0))) with 0 by ring. rewrite exp_0, Rmult_1_r. change (sun_distance jd) with (esd jd).
  assert (P : forall x, radiance39 x = planck x).
  { intros x. unfold radiance39, planck. cbv zeta. replace (143877 / 10 ^ 5 * (2569094 / 1000) / (9959 / 10 ^ 4 * x + 3471 / 10 ^ 3)) with (143877 / 100000 * (2569094 / 1000) / (9959 / 10000 * x + 3471 / 1000)) by (f_equal; [lra|f_equal; lra]). f_equal. lra. }
  rewrite !P. pose proof (planck_270 280 ltac:(lra)) as P1. pose proof (planck_mono 280 300 ltac:(lra)) as P2.
  assert (P3 : planck 300 <= 34 / 10).
  { unfold planck. set (k := 119104 / 10000000000 * _). assert (K : 0 < k < 201970) by (unfold k; lra). set (x := 143877 / 100000 * _ / _). assert (X : 12 < x) by (unfold x; lra).
    assert (EX : (5 / 2) ^ 12 <= exp x). { apply Rle_trans with (exp (INR 12)); [apply exp_25|left; apply exp_increasing; cbn; lra]. }
    apply Rmult_le_reg_r with (exp x - 1); [lra|]. unfold Rdiv. rewrite (Rmult_assoc k), Rinv_l by lra. lra. }
  assert (RP : cosdlt jd <= Rpower (cosdlt jd) (3 / 4)).
  { rewrite <- (Rpower_1 (cosdlt jd)) at 1 by lra. unfold Rpower. assert (L : ln (cosdlt jd) <= 0) by (rewrite <- ln_1; destruct (proj2 C) as [L | ->]; [left; apply ln_increasing; lra|lra]). destruct L as [L | L]; [left; apply exp_increasing; nra|rewrite L; right; f_equal; ring]. }
  assert (S0 : 42 / 10 < 492 / 100 / esd jd ^ 2 * Rpower (cosdlt jd) (3 / 4)).
  { assert (Q : 47 / 10 < 492 / 100 / esd jd ^ 2). { apply Rmult_lt_reg_r with (esd jd ^ 2); [nra|]. unfold Rdiv. rewrite (Rmult_assoc (492 * / 100)), Rinv_l by nra. nra. } nra. }
  set (S := 492 / 100 / esd jd ^ 2 * Rpower (cosdlt jd) (3 / 4)) in *.
  split; [unfold cos80; lra|]. split; [lra|]. split; [lra|]. split; [apply Rmult_le_pos; [lra|left; apply Rinv_0_lt_compat; lra]|].
  apply Rmult_le_reg_r with S; [lra|]. unfold Rdiv. rewrite Rmult_assoc, Rinv_l by lra. lra.
Qed.
