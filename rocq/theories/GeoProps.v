(** C54 georeferencing, C59 boxes, C91 crop windows. *)
From Verif Require Import Base BaseFacts GeoModel.
From Coq Require Import QArith Qround Qabs Qfield Lqa.
Open Scope Z_scope.

(** ** Rounding *)
Lemma floor_bounds q : (inject_Z (Qfloor q) <= q)%Q /\ (q < inject_Z (Qfloor q) + 1)%Q.
Proof. split; [apply Qfloor_le|]. pose proof (Qlt_floor q) as H. rewrite inject_Z_plus in H. exact H. Qed.
Lemma lrint_near q : (Qabs (q - inject_Z (lrint q)) <= 1 # 2)%Q.
Proof.
  destruct (floor_bounds q) as [A B]. unfold lrint. set (f := Qfloor q) in *. apply Qabs_Qle_condition.
  destruct (Qcompare_spec (q - inject_Z f) (1 # 2)) as [E|E|E].
  - destruct (Z.even f); [split; lra|]. rewrite inject_Z_plus. change (inject_Z 1) with 1%Q. split; lra.
  - split; lra.
  - rewrite inject_Z_plus. change (inject_Z 1) with 1%Q. split; lra.
Qed.
Lemma lrint_unique q z : (Qabs (q - inject_Z z) < 1 # 2)%Q -> lrint q = z.
Proof.
  intros H. pose proof (lrint_near q) as N. apply Qabs_Qlt_condition in H. apply Qabs_Qle_condition in N. set (r := lrint q) in *. clearbody r.
  assert (A : (inject_Z (r - z) < inject_Z 1)%Q) by (unfold Z.sub; rewrite inject_Z_plus, inject_Z_opp; change (inject_Z 1) with 1%Q; lra).
  assert (B : (inject_Z (-1) < inject_Z (r - z))%Q) by (unfold Z.sub; rewrite inject_Z_plus, inject_Z_opp; change (inject_Z (-1)) with (-1 # 1)%Q; lra).
  rewrite <- Zlt_Qlt in A, B. lia.
Qed.
Lemma lrint_Z q z : (q == inject_Z z)%Q -> lrint q = z.
Proof. intros H. apply lrint_unique. rewrite H. setoid_replace (inject_Z z - inject_Z z)%Q with 0%Q by ring. reflexivity. Qed.
Lemma to_int_fits v : int_fits v = true -> to_int v = v.
Proof. unfold int_fits, to_int. intros H. lia. Qed.

(** ** C54 *)
(** The affine map the coefficients stand for. *)
Definition affine (g : geo) (u v : Q) : Q * Q := ((g0 g + g1 g * u + g2 g * v)%Q, (g3 g + g4 g * u + g5 g * v)%Q).
Definition same (a b : Q * Q) : Prop := (fst a == fst b /\ snd a == snd b)%Q.

Lemma accepted g i : invertGeoTransform g = Some i -> ~ (det g == 0)%Q /\ forall u v, same (affine i (fst (affine g u v)) (snd (affine g u v))) (u, v).
Proof.
  unfold invertGeoTransform. destruct (Qle_bool _ _) eqn:E; [|discriminate]. cbn [negb]. intros H. injection H as <-. apply Qle_bool_iff in E.
  assert (D : ~ (det g == 0)%Q). { intros Z. rewrite Z in E. vm_compute in E. now apply E. }
  split; [exact D|]. intros u v. unfold same, affine. cbn [fst snd g0 g1 g2 g3 g4 g5]. unfold det in *. split; field; exact D.
Qed.
(** Converting a pixel to projected coordinates and back gives the pixel, for
    every pixel of int coordinates. *)
Theorem C54_round_trip g i x y px py : invertGeoTransform g = Some i -> int_fits x = true -> int_fits y = true -> pixelToProjected g x y = (px, py) -> projectedToPixel i px py = (x, y).
Proof.
  intros I X Y P. destruct (accepted g i I) as [_ A]. specialize (A (inject_Z x) (inject_Z y)). unfold pixelToProjected in P. injection P as <- <-. unfold same, affine in A. cbn [fst snd] in A. destruct A as [A1 A2].
  unfold projectedToPixel. f_equal.
  - rewrite (lrint_Z _ x); [now apply to_int_fits|]. eapply Qeq_trans; [|exact A1]. ring.
  - rewrite (lrint_Z _ y); [now apply to_int_fits|]. eapply Qeq_trans; [|exact A2]. ring.
Qed.
Print Assumptions C54_round_trip.
(** Any projected point is given the pixel nearest to it: at most half a pixel
    off in each direction. *)
Theorem C54_nearest g i u v x y : invertGeoTransform g = Some i -> projectedToPixel i (fst (affine g u v)) (snd (affine g u v)) = (x, y) ->
  (Qabs u <= 2147483647 # 1)%Q -> (Qabs v <= 2147483647 # 1)%Q -> (Qabs (u - inject_Z x) <= 1 # 2)%Q /\ (Qabs (v - inject_Z y) <= 1 # 2)%Q.
Proof.
  intros I P U V. destruct (accepted g i I) as [_ A]. specialize (A u v). unfold same in A. cbn [fst snd] in A. destruct A as [A1 A2].
  set (p := fst (affine g u v)) in *. set (q := snd (affine g u v)) in *. unfold projectedToPixel in P. cbn [affine fst snd] in A1, A2.
  assert (B1 : (g0 i + p * g1 i + q * g2 i == u)%Q) by (eapply Qeq_trans; [|exact A1]; ring). assert (B2 : (g3 i + p * g4 i + q * g5 i == v)%Q) by (eapply Qeq_trans; [|exact A2]; ring).
  pose proof (lrint_near (g0 i + p * g1 i + q * g2 i)) as N1. pose proof (lrint_near (g3 i + p * g4 i + q * g5 i)) as N2. rewrite B1 in N1 at 1. rewrite B2 in N2 at 1.
  set (r1 := lrint (g0 i + p * g1 i + q * g2 i)) in *. set (r2 := lrint (g3 i + p * g4 i + q * g5 i)) in *. clearbody r1 r2.
  assert (F : forall w r, (Qabs w <= 2147483647 # 1)%Q -> (Qabs (w - inject_Z r) <= 1 # 2)%Q -> to_int r = r).
  { clear. intros w r W N. apply to_int_fits. apply Qabs_Qle_condition in W. apply Qabs_Qle_condition in N.
    assert (A : (inject_Z r < inject_Z (2 ^ 31))%Q) by (change (inject_Z (2 ^ 31)) with (2147483648 # 1)%Q; lra).
    assert (B : (inject_Z (- 2 ^ 31) < inject_Z r)%Q) by (change (inject_Z (- 2 ^ 31)) with (-2147483648 # 1)%Q; lra).
    rewrite <- Zlt_Qlt in A, B. unfold int_fits. lia. }
  injection P as <- <-. rewrite (F u r1), (F v r2) by assumption. split; assumption.
Qed.
Print Assumptions C54_nearest.
(** A transform is refused exactly if its determinant is below the threshold;
    in particular every transform that sends two points to one is. *)
Theorem C54_reported g : (invertGeoTransform g = None <-> (Qabs (g1 g * g5 g - g2 g * g4 g) < 1 # 1000000000000000)%Q) /\
  (forall u v u' v', ~ same (u, v) (u', v') -> same (affine g u v) (affine g u' v') -> invertGeoTransform g = None).
Proof.
  split.
  - unfold invertGeoTransform. fold (det g). destruct (Qle_bool _ _) eqn:E; cbn [negb]; split; intros H; try discriminate; try reflexivity.
    + apply Qle_bool_iff in E. exfalso. apply (Qlt_not_le _ _ H E).
    + apply Qnot_le_lt. intros C. apply Qle_bool_iff in C. congruence.
  - intros u v u' v' N S. destruct (invertGeoTransform g) as [i|] eqn:I; [|reflexivity]. exfalso. apply N. destruct (accepted g i I) as [_ A].
    pose proof (A u v) as A1. pose proof (A u' v') as A2. unfold same in *. destruct S as [S1 S2]. cbn [affine fst snd] in *. destruct A1 as [A1 A1'], A2 as [A2 A2']. rewrite S1, S2 in A1, A1'. split; [rewrite <- A1|rewrite <- A1']; assumption.
Qed.
Print Assumptions C54_reported.
(** decodeGeotransform recovers the offsets of a grid with square axes. *)
Theorem C54_decode psx psy xs ys : ~ (psx == 0)%Q -> ~ (psy == 0)%Q -> int_fits xs = true -> int_fits ys = true ->
  exists sx sy, decodeGeotransform (mk_geo (- inject_Z xs * psx) psx 0 (inject_Z ys * psy) 0 (- psy)) = Ok (xs, ys, sx, sy) /\ (sx == psx)%Q /\ (sy == psy)%Q.
Proof.
  intros X Y FX FY. unfold decodeGeotransform. cbn [g0 g1 g2 g3 g4 g5]. assert (Y' : ~ (- - psy == 0)%Q) by (intros E; apply Y; rewrite <- E; ring).
  replace (Qeq_bool psx 0) with false by (symmetry; apply not_true_is_false; intros E; apply X; now apply Qeq_bool_iff).
  replace (Qeq_bool (- - psy) 0) with false by (symmetry; apply not_true_is_false; intros E; apply Y'; now apply Qeq_bool_iff). cbn [orb].
  exists psx, (- - psy)%Q. split; [|split; [reflexivity|ring]]. rewrite (lrint_Z _ xs), (lrint_Z _ ys); [now rewrite !to_int_fits|field; auto|field; auto].
Qed.
Print Assumptions C54_decode.
Definition seviri_geo : geo := mk_geo (- (1856 # 1) * (3000403 # 1000)) (3000403 # 1000) 0 ((1856 # 1) * (3000403 # 1000)) 0 (- (3000403 # 1000)).
Example C54_case : exists i, invertGeoTransform seviri_geo = Some i /\ projectedToPixel i (fst (pixelToProjected seviri_geo 100 3711)) (snd (pixelToProjected seviri_geo 100 3711)) = (100, 3711) /\
  decodeGeotransform seviri_geo = Ok (1856, 1856, (3000403 # 1000)%Q, (- - (3000403 # 1000))%Q) /\ invertGeoTransform (mk_geo 5 2 4 7 1 2) = None /\ lrint (-5 # 2) = -2 /\ lrint (7 # 2) = 4.
Proof. eexists. split; [reflexivity|]. repeat split; vm_compute; reflexivity. Qed.

(** ** C59. Bounding boxes. *)
Definition inside (x y w h : Z) (p : point) : Prop := x <= column p <= x + w /\ y <= line p <= y + h.
Definition coords_ok (b : box) : Prop :=
  int_fits (column (topLeft b)) = true /\ int_fits (line (topLeft b)) = true /\ int_fits (column (bottomRight b)) = true /\ int_fits (line (bottomRight b)) = true.
Theorem C59_image_partial b : coords_ok b -> Z.abs (column (topLeft b) - column (bottomRight b)) < 2 ^ 31 -> Z.abs (line (topLeft b) - line (bottomRight b)) < 2 ^ 31 ->
  exists x y w h, image_bounds b = Ok (mk_rect x y w h) /\ inside x y w h (topLeft b) /\ inside x y w h (bottomRight b) /\
  (forall x' y' w' h', inside x' y' w' h' (topLeft b) -> inside x' y' w' h' (bottomRight b) -> x' <= x /\ x + w <= x' + w' /\ y' <= y /\ y + h <= y' + h') /\
  image_bounds (mk_box (bottomRight b) (topLeft b)) = Ok (mk_rect x y w h).
Proof.
  destruct b as [[a b] [c d]]. unfold coords_ok, inside, image_bounds. cbn [topLeft bottomRight column line]. intros (A & B & C & D) X Y.
  assert (E1 : to_int (lmin a c) = Z.min a c) by (unfold lmin; destruct (Z.leb_spec a c); rewrite to_int_fits by assumption; lia).
  assert (E2 : to_int (lmin c a) = Z.min a c) by (unfold lmin; destruct (Z.leb_spec c a); rewrite to_int_fits by assumption; lia).
  assert (E3 : to_int (lmax a c) = Z.max a c) by (unfold lmax; destruct (Z.leb_spec c a); rewrite to_int_fits by assumption; lia).
  assert (E4 : to_int (lmax c a) = Z.max a c) by (unfold lmax; destruct (Z.leb_spec a c); rewrite to_int_fits by assumption; lia).
  assert (F1 : to_int (lmin b d) = Z.min b d) by (unfold lmin; destruct (Z.leb_spec b d); rewrite to_int_fits by assumption; lia).
  assert (F2 : to_int (lmin d b) = Z.min b d) by (unfold lmin; destruct (Z.leb_spec d b); rewrite to_int_fits by assumption; lia).
  assert (F3 : to_int (lmax b d) = Z.max b d) by (unfold lmax; destruct (Z.leb_spec d b); rewrite to_int_fits by assumption; lia).
  assert (F4 : to_int (lmax d b) = Z.max b d) by (unfold lmax; destruct (Z.leb_spec b d); rewrite to_int_fits by assumption; lia).
  rewrite E1, E2, E3, E4, F1, F2, F3, F4. replace (int_fits (Z.max a c - Z.min a c)) with true by (unfold int_fits; lia). replace (int_fits (Z.max b d - Z.min b d)) with true by (unfold int_fits; lia).
  cbn [andb]. exists (Z.min a c), (Z.min b d), (Z.max a c - Z.min a c), (Z.max b d - Z.min b d). repeat split; lia.
Qed.
Print Assumptions C59_image_partial.
(** Boxes wider than an int overflow the subtraction; corners beyond an int lose
    their high bits. *)
Theorem C59_refuted_wide b : coords_ok b -> 2 ^ 31 <= Z.abs (column (topLeft b) - column (bottomRight b)) -> image_bounds b = UB.
Proof.
  destruct b as [[a b] [c d]]. unfold coords_ok, image_bounds. cbn [topLeft bottomRight column line]. intros (A & B & C & D) X.
  assert (E1 : to_int (lmin a c) = Z.min a c) by (unfold lmin; destruct (Z.leb_spec a c); rewrite to_int_fits by assumption; lia).
  assert (E3 : to_int (lmax a c) = Z.max a c) by (unfold lmax; destruct (Z.leb_spec c a); rewrite to_int_fits by assumption; lia).
  rewrite E1, E3. replace (int_fits (Z.max a c - Z.min a c)) with false by (unfold int_fits; lia). reflexivity.
Qed.
Print Assumptions C59_refuted_wide.
Theorem C59_refuted_long a b k : 0 < k -> int_fits a = true -> int_fits b = true -> exists x y w h,
  image_bounds (mk_box (mk_point (a + k * 2 ^ 32) b) (mk_point (a + k * 2 ^ 32) b)) = Ok (mk_rect x y w h) /\ ~ inside x y w h (mk_point (a + k * 2 ^ 32) b).
Proof.
  intros K A B. exists a, b, 0, 0. unfold image_bounds, inside. cbn [topLeft bottomRight column line]. unfold lmin, lmax. rewrite !Z.leb_refl.
  assert (E : to_int (a + k * 2 ^ 32) = a) by (rewrite <- (to_int_fits a A) at 2; unfold to_int; replace (a + k * 2 ^ 32 + 2 ^ 31) with (a + 2 ^ 31 + k * 2 ^ 32) by lia; now rewrite Z_mod_plus_full).
  rewrite E, (to_int_fits b B), !Z.sub_diag. split; [reflexivity|]. lia.
Qed.
Print Assumptions C59_refuted_long.
(** Projected and geographical boxes. *)
Lemma qmin_l a b : (qmin a b <= a /\ qmin a b <= b /\ (forall c, c <= a -> c <= b -> c <= qmin a b))%Q.
Proof. unfold qmin. destruct (Qle_bool a b) eqn:E; [apply Qle_bool_iff in E|assert (b <= a)%Q by (apply Qnot_lt_le; intros C; apply Qlt_le_weak, Qle_bool_iff in C; congruence)]; repeat split; auto; lra. Qed.
Lemma qmax_l a b : (a <= qmax a b /\ b <= qmax a b /\ (forall c, a <= c -> b <= c -> qmax a b <= c))%Q.
Proof. unfold qmax. destruct (Qle_bool b a) eqn:E; [apply Qle_bool_iff in E|assert (a <= b)%Q by (apply Qnot_lt_le; intros C; apply Qlt_le_weak, Qle_bool_iff in C; congruence)]; repeat split; auto; lra. Qed.
Definition within (x0 x1 y0 y1 : Q) (p : qpoint) : Prop := (x0 <= qx p <= x1 /\ y0 <= qy p <= y1)%Q.
Definition smallest (x0 x1 y0 y1 : Q) (b : qbox) : Prop :=
  within x0 x1 y0 y1 (q_tl b) /\ within x0 x1 y0 y1 (q_br b) /\
  forall a0 a1 c0 c1, within a0 a1 c0 c1 (q_tl b) -> within a0 a1 c0 c1 (q_br b) -> (a0 <= x0 /\ x1 <= a1 /\ c0 <= y0 /\ y1 <= c1)%Q.
Theorem C59_projected b : let '(x0, y0, w, h) := projected_bounds b in smallest x0 (x0 + w) y0 (y0 + h) b.
Proof.
  unfold projected_bounds, smallest, within. destruct (qmin_l (qx (q_tl b)) (qx (q_br b))) as (A1 & A2 & A3). destruct (qmin_l (qy (q_tl b)) (qy (q_br b))) as (B1 & B2 & B3).
  destruct (qmax_l (qx (q_tl b)) (qx (q_br b))) as (C1 & C2 & C3). destruct (qmax_l (qy (q_tl b)) (qy (q_br b))) as (D1 & D2 & D3).
  repeat split; try lra; intros; try (apply A3; lra); try (apply B3; lra); [specialize (C3 a1)|specialize (D3 c1)]; lra.
Qed.
Print Assumptions C59_projected.
Theorem C59_map b : let '(latmin, latmax, lonmin, lonmax) := map_bounds b in smallest lonmin lonmax latmin latmax b.
Proof.
  unfold map_bounds, smallest, within. destruct (qmin_l (qx (q_tl b)) (qx (q_br b))) as (A1 & A2 & A3). destruct (qmin_l (qy (q_tl b)) (qy (q_br b))) as (B1 & B2 & B3).
  destruct (qmax_l (qx (q_tl b)) (qx (q_br b))) as (C1 & C2 & C3). destruct (qmax_l (qy (q_tl b)) (qy (q_br b))) as (D1 & D2 & D3).
  repeat split; try lra; intros; try (apply A3; lra); try (apply B3; lra); [specialize (C3 a1)|specialize (D3 c1)]; lra.
Qed.
Print Assumptions C59_map.
Theorem C59_nonzero b : image_nonzero b = false <-> b = mk_box (mk_point 0 0) (mk_point 0 0).
Proof.
  destruct b as [[a b] [c d]]. unfold image_nonzero. cbn [topLeft bottomRight column line]. split; [intros H|intros H; injection H as -> -> -> ->; reflexivity].
  assert (a = 0 /\ b = 0 /\ c = 0 /\ d = 0) as (-> & -> & -> & ->) by lia. reflexivity.
Qed.
Print Assumptions C59_nonzero.
Example C59_case : image_bounds (mk_box (mk_point 30 5) (mk_point 10 25)) = Ok (mk_rect 10 5 20 20) /\ image_bounds (mk_box (mk_point (-2000000000) 0) (mk_point 2000000000 0)) = UB /\
  image_bounds (mk_box (mk_point (2 ^ 32 + 7) 0) (mk_point (2 ^ 32 + 7) 0)) = Ok (mk_rect 7 0 0 0) /\ map_bounds (mk_qbox (mk_qpoint 3 40) (mk_qpoint 1 50)) = (40, 50, 1, 3)%Q.
Proof. repeat split; vm_compute; reflexivity. Qed.

(** ** C91. Crop windows. *)
(** An area given by its top left and bottom right corners selects exactly its
    pixels. *)
Definition selected (r : rect) (x y : Z) : Prop := rx r <= x < rx r + rw r /\ ry r <= y < ry r + rh r.
Theorem C91_crop b x y : coords_ok b -> column (topLeft b) <= column (bottomRight b) -> line (topLeft b) <= line (bottomRight b) ->
  column (bottomRight b) - column (topLeft b) < 2 ^ 31 -> line (bottomRight b) - line (topLeft b) < 2 ^ 31 ->
  (selected (crop_window b) x y <-> column (topLeft b) <= x < column (bottomRight b) /\ line (topLeft b) <= y < line (bottomRight b)).
Proof.
  destruct b as [[a b] [c d]]. unfold coords_ok, selected, crop_window. cbn [topLeft bottomRight column line rx ry rw rh]. intros (A & B & C & D) H1 H2 H3 H4.
  rewrite !to_int_fits by (assumption || (unfold int_fits; lia)). lia.
Qed.
Print Assumptions C91_crop.
(** --Area: the window spans all four corners. *)
Lemma widen_all_spec l acc r : widen_all acc l = Some r -> let '(a, b, c, d) := acc in let '(xmin, ymin, xmax, ymax) := r in
  xmin <= a /\ ymin <= b /\ c <= xmax /\ d <= ymax /\ (forall x y, In (Some (x, y)) l -> xmin <= x <= xmax /\ ymin <= y <= ymax) /\
  (xmin = a \/ exists y, In (Some (xmin, y)) l) /\ (ymin = b \/ exists x, In (Some (x, ymin)) l) /\ (xmax = c \/ exists y, In (Some (xmax, y)) l) /\ (ymax = d \/ exists x, In (Some (x, ymax)) l).
Proof.
  revert acc. induction l as [|[[x y]|] l IH]; intros [[[a b] c] d] H; cbn [widen_all] in H; [| |discriminate].
  - injection H as <-. split; [lia|]; split; [lia|]; split; [lia|]; split; [lia|]. split; [intros ? ? []|auto].
  - specialize (IH _ H). cbn [widen] in IH. destruct r as [[[xmin ymin] xmax] ymax]. destruct IH as (I1 & I2 & I3 & I4 & I5 & J1 & J2 & J3 & J4).
    destruct (Z.ltb_spec x a), (Z.ltb_spec y b), (Z.ltb_spec c x), (Z.ltb_spec d y);
    (split; [lia|]; split; [lia|]; split; [lia|]; split; [lia|]; split; [intros u v [E|E]; [injection E as <- <-; lia|now apply I5]|];
     split; [destruct J1 as [->|[v J1]]|split; [destruct J2 as [->|[v J2]]|split; [destruct J3 as [->|[v J3]]|destruct J4 as [->|[v J4]]]]];
     first [left; reflexivity|right; eexists; cbn [In]; first [left; reflexivity|right; eassumption]]).
Qed.
Lemma widen_all_none l acc : widen_all acc l = None <-> In None l.
Proof. revert acc. induction l as [|[p|] l IH]; intros acc; cbn [widen_all In]; [split; [discriminate|contradiction]| |split; auto]. rewrite IH. split; [auto|intros [E|E]; [discriminate|exact E]]. Qed.
Theorem C91_area xs ys cs : 0 <= xs < 2 ^ 31 -> 0 <= ys < 2 ^ 31 -> cs <> [] ->
  (forall x y, In (Some (x, y)) cs -> 0 <= x <= xs /\ 0 <= y <= ys) ->
  (In None cs /\ area_window xs ys cs = Ok None) \/
  exists x0 y0 w h, area_window xs ys cs = Ok (Some (mk_rect x0 y0 w h)) /\ ~ In None cs /\
    0 <= x0 /\ x0 + w <= xs /\ 0 <= y0 /\ y0 + h <= ys /\
    (forall x y, In (Some (x, y)) cs -> inside x0 y0 w h (mk_point x y)) /\
    (exists y, In (Some (x0, y)) cs) /\ (exists y, In (Some (x0 + w, y)) cs) /\ (exists x, In (Some (x, y0)) cs) /\ (exists x, In (Some (x, y0 + h)) cs).
Proof.
  intros XS YS NE IN. unfold area_window. destruct (widen_all (xs, ys, 0, 0) cs) as [[[[xmin ymin] xmax] ymax]|] eqn:W; [right|left; split; [now apply (widen_all_none cs (xs, ys, 0, 0))|reflexivity]].
  assert (NN : ~ In None cs) by (intros E; apply (widen_all_none cs (xs, ys, 0, 0)) in E; congruence).
  pose proof (widen_all_spec _ _ _ W) as (I1 & I2 & I3 & I4 & I5 & J1 & J2 & J3 & J4).
  destruct cs as [|[[x y]|] cs']; [contradiction| |exfalso; apply NN; now left]. set (cs := Some (x, y) :: cs') in *.
  assert (P : In (Some (x, y)) cs) by now left. destruct (IN _ _ P) as [PX PY]. destruct (I5 _ _ P) as [QX QY].
  assert (K1 : exists y, In (Some (xmin, y)) cs) by (destruct J1 as [->|J1]; [exists y; now replace xs with x by lia|exact J1]).
  assert (K2 : exists x, In (Some (x, ymin)) cs) by (destruct J2 as [->|J2]; [exists x; now replace ys with y by lia|exact J2]).
  assert (K3 : exists y, In (Some (xmax, y)) cs) by (destruct J3 as [->|J3]; [exists y; now replace 0 with x by lia|exact J3]).
  assert (K4 : exists x, In (Some (x, ymax)) cs) by (destruct J4 as [->|J4]; [exists x; now replace 0 with y by lia|exact J4]).
  destruct K1 as [k1 K1], K2 as [k2 K2], K3 as [k3 K3], K4 as [k4 K4]. pose proof (IN _ _ K1). pose proof (IN _ _ K2). pose proof (IN _ _ K3). pose proof (IN _ _ K4).
  replace (int_fits (xmax - xmin)) with true by (unfold int_fits; lia). replace (int_fits (ymax - ymin)) with true by (unfold int_fits; lia). cbn [andb].
  exists xmin, ymin, (xmax - xmin), (ymax - ymin). split; [reflexivity|]. split; [exact NN|]. do 4 (split; [lia|]). split; [intros u v U; destruct (I5 _ _ U); unfold inside; cbn [column line]; lia|].
  split; [exists k1; exact K1|]. split; [|split; [exists k2; exact K2|]].
  - exists k3. now replace (xmin + (xmax - xmin)) with xmax by lia.
  - exists k4. now replace (ymin + (ymax - ymin)) with ymax by lia.
Qed.
Print Assumptions C91_area.
(** For corners outside the image the window also reaches the border of the
    image, so it is not the one asked for. *)
Theorem C91_refuted_outside xs ys x y : 0 <= xs -> 0 <= ys -> - 2 ^ 30 < x < 0 -> - 2 ^ 30 < y < 0 -> area_window xs ys [Some (x, y); Some (x, y); Some (x, y); Some (x, y)] = Ok (Some (mk_rect x y (- x) (- y))).
Proof.
  intros XS YS X Y. assert (W : widen_all (xs, ys, 0, 0) [Some (x, y); Some (x, y); Some (x, y); Some (x, y)] = Some (x, y, 0, 0)).
  { cbn [widen_all]. assert (E : widen (xs, ys, 0, 0) (x, y) = (x, y, 0, 0)). { unfold widen. replace (x <? xs) with true by lia. replace (y <? ys) with true by lia. replace (0 <? x) with false by lia. now replace (0 <? y) with false by lia. }
    assert (F : widen (x, y, 0, 0) (x, y) = (x, y, 0, 0)). { unfold widen. rewrite !Z.ltb_irrefl. replace (0 <? x) with false by lia. now replace (0 <? y) with false by lia. }
    now rewrite E, !F. }
  unfold area_window. rewrite W. rewrite (Z.sub_0_l x), (Z.sub_0_l y). replace (int_fits (- x)) with true by (unfold int_fits; lia). replace (int_fits (- y)) with true by (unfold int_fits; lia). reflexivity.
Qed.
Print Assumptions C91_refuted_outside.
Example C91_case : area_window 3712 3712 [Some (1900, 300); Some (2100, 310); Some (1880, 500); Some (2150, 505)] = Ok (Some (mk_rect 1880 300 270 205)) /\
  crop_window (mk_box (mk_point 10 20) (mk_point 30 50)) = mk_rect 10 20 20 30.
Proof. split; vm_compute; reflexivity. Qed.
