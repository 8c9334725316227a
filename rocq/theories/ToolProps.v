(** C60 contrast stretch, C92 size cap, C93 source windows, C94 georeference of
    cut images, C95 independence of input files, C96 band selection, C97 output
    names, C98 unreadable bands. *)
From Verif Require Import Base BaseFacts IniModel GeoModel FactsModel ToolModel GeoProps.
From Coq Require Import QArith Qround Qfield Lqa.
Open Scope list_scope.
Open Scope Z_scope.

(** ** C60 *)
(** The range found is that of the samples that are not missing. *)
Definition range_of (missing : Z) (vals : list Z) (vmin vmax : Z) : Prop :=
  (exists a, In a vals /\ a <> missing) /\ In vmin vals /\ In vmax vals /\ vmin <> missing /\ vmax <> missing /\
  forall v, In v vals -> v <> missing -> vmin <= v <= vmax.
Lemma range_loop_some m vals : forall vmin vmax, vmin <> m -> vmax <> m -> vmin <= vmax -> let '(a, b) := range_loop m vmin vmax vals in
  (a = vmin \/ In a vals) /\ (b = vmax \/ In b vals) /\ a <> m /\ b <> m /\ a <= vmin /\ vmax <= b /\ forall v, In v vals -> v <> m -> a <= v <= b.
Proof.
  induction vals as [|v l IH]; intros vmin vmax A B C; cbn [range_loop].
  - split; [auto|]. split; [auto|]. do 4 (split; [auto; lia|]). intros ? [].
  - destruct (Z.eqb_spec v m) as [E|E].
    + specialize (IH vmin vmax A B C). destruct (range_loop _ _ _ _) as [a b]. destruct IH as (I1 & I2 & I3 & I4 & I5 & I6 & I7).
      split; [cbn [In]; tauto|]. split; [cbn [In]; tauto|]. do 4 (split; [assumption|]). intros w [<-|W] NW; [contradiction|auto].
    + destruct (Z.eqb_spec vmin m) as [F|_]; [contradiction|]. assert (M : (if v <? vmin then v else vmin) <= (if vmax <? v then v else vmax)) by (destruct (Z.ltb_spec v vmin), (Z.ltb_spec vmax v); lia).
      assert (NA : (if v <? vmin then v else vmin) <> m) by (destruct (v <? vmin); assumption). assert (NB : (if vmax <? v then v else vmax) <> m) by (destruct (vmax <? v); assumption).
      specialize (IH _ _ NA NB M). destruct (range_loop _ _ _ _) as [a b]. destruct IH as (I1 & I2 & I3 & I4 & I5 & I6 & I7). cbn [In].
      split; [destruct I1 as [->|I1]; [destruct (v <? vmin); auto|auto]|]. split; [destruct I2 as [->|I2]; [destruct (vmax <? v); auto|auto]|].
      do 2 (split; [assumption|]). destruct (Z.ltb_spec v vmin), (Z.ltb_spec vmax v); (split; [lia|]; split; [lia|]; intros w [<-|W] NW; [lia|now apply I7]).
Qed.
Lemma range_loop_start m vals : (forall v, In v vals -> v = m) /\ range_loop m m m vals = (m, m) \/ let '(a, b) := range_loop m m m vals in range_of m vals a b.
Proof.
  induction vals as [|v l IH]; cbn [range_loop]; [left; split; [intros ? []|reflexivity]|]. destruct (Z.eqb_spec v m) as [->|E].
  - destruct IH as [[I J]|I]; [left; split; [intros w [<-|W]; auto|exact J]|right]. destruct (range_loop m m m l) as [a b]. destruct I as ((w & W & NW) & I1 & I2 & I3 & I4 & I5).
    split; [exists w; split; [now right|exact NW]|]. split; [now right|]. split; [now right|]. do 2 (split; [assumption|]). intros u [<-|U] NU; [contradiction|auto].
  - right. rewrite Z.eqb_refl. pose proof (range_loop_some m l v v E E (Z.le_refl v)) as R. destruct (range_loop m v v l) as [a b]. destruct R as (I1 & I2 & I3 & I4 & I5 & I6 & I7).
    split; [exists v; split; [now left|exact E]|]. split; [destruct I1 as [->|I1]; cbn [In]; auto|]. split; [destruct I2 as [->|I2]; cbn [In]; auto|]. do 2 (split; [assumption|]).
    intros w [<-|W] NW; [lia|auto].
Qed.
Lemma range_unique m vals a b a' b' : range_of m vals a b -> range_of m vals a' b' -> a = a' /\ b = b'.
Proof.
  intros (_ & A1 & A2 & A3 & A4 & A5) (_ & B1 & B2 & B3 & B4 & B5). pose proof (A5 a' B1 B3). pose proof (B5 a A1 A3). pose proof (A5 b' B2 B4). pose proof (B5 b A2 A4). lia.
Qed.
(** Contrast mapping: within 0..255, order preserving, the nearest lower value
    of the proportion, ends to ends. *)
Definition contrast (vmin vmax : Z) (f : Z -> Z) : Prop :=
  (forall v, 0 <= f v <= 255) /\ (forall v w, v <= w -> f v <= f w) /\ f vmin = 0 /\ f vmax = 255 /\
  (forall v, v < vmin -> f v = 0) /\ (forall v, vmax < v -> f v = 255) /\
  (forall v, vmin <= v <= vmax -> f v * (vmax - vmin) <= (v - vmin) * 255 < (f v + 1) * (vmax - vmin)).
Lemma rescale1_contrast vmin vmax : vmin < vmax -> contrast vmin vmax (rescale1 vmin vmax).
Proof.
  intros L. set (g := fun v => (v - vmin) * 255 / (vmax - vmin)).
  assert (G : forall v, vmin <= v <= vmax -> 0 <= g v <= 255 /\ g v * (vmax - vmin) <= (v - vmin) * 255 < (g v + 1) * (vmax - vmin)).
  { intros v V. unfold g. set (D := vmax - vmin) in *. set (n := (v - vmin) * 255). assert (0 <= n <= D * 255) by (unfold n, D; nia). clearbody n. assert (DP : 0 < D) by (unfold D; lia).
    pose proof (Z.div_pos n D ltac:(lia) DP). pose proof (Z.div_le_upper_bound n D 255 DP ltac:(lia)). pose proof (Z.mul_div_le n D DP). pose proof (Z.mul_succ_div_gt n D DP). nia. }
  assert (F : forall v, rescale1 vmin vmax v = if v <? vmin then 0 else if vmax <? v then 255 else g v).
  { intros v. unfold rescale1. destruct (Z.eqb_spec vmax vmin); [lia|]. destruct (Z.ltb_spec v vmin); [reflexivity|]. destruct (Z.ltb_spec vmax v); [reflexivity|]. fold (g v). destruct (G v ltac:(lia)) as [B _]. apply Z.mod_small. lia. }
  assert (R : forall v, 0 <= rescale1 vmin vmax v <= 255) by (intros v; rewrite F; destruct (Z.ltb_spec v vmin); [lia|]; destruct (Z.ltb_spec vmax v); [lia|]; apply G; lia).
  split; [exact R|]. split.
  - intros v w V. pose proof (R v) as RV. pose proof (R w) as RW. rewrite !F in *. destruct (Z.ltb_spec v vmin), (Z.ltb_spec w vmin), (Z.ltb_spec vmax v), (Z.ltb_spec vmax w); try lia. unfold g. apply Z.div_le_mono; nia.
  - split; [rewrite F, Z.ltb_irrefl; replace (vmax <? vmin) with false by lia; unfold g; now rewrite Z.sub_diag|].
    split; [rewrite F, Z.ltb_irrefl; replace (vmax <? vmin) with false by lia; unfold g; rewrite Z.mul_comm; apply Z.div_mul; lia|].
    split; [intros v V; rewrite F; now replace (v <? vmin) with true by lia|]. split; [intros v V; rewrite F; replace (v <? vmin) with false by lia; now replace (vmax <? v) with true by lia|].
    intros v V. rewrite F. replace (v <? vmin) with false by lia. replace (vmax <? v) with false by lia. now apply G.
Qed.
(** Automatic stretch of 8 and 16 bit images whose no-data value fits the type. *)
Lemma cast_u_int n m : 0 <= m < 2 ^ n -> cast_u n (inject_Z m) = Ok m.
Proof.
  intros M. unfold cast_u, Qtrunc. replace (Qle_bool 0 (inject_Z m)) with true by (symmetry; apply Qle_bool_iff; change 0%Q with (inject_Z 0); rewrite <- Zle_Qle; lia).
  rewrite Qfloor_Z. now replace ((0 <=? m) && (m <? 2 ^ n)) with true by lia.
Qed.
Theorem C60_automatic_partial n m vals vmin vmax : 0 <= m < 2 ^ n -> range_of m vals vmin vmax -> vmin < vmax ->
  exists f, picture n None (inject_Z m) vals = Ok (map f vals) /\ contrast vmin vmax f.
Proof.
  intros M R L. exists (rescale1 vmin vmax). split; [|now apply rescale1_contrast]. unfold picture, compute_if_needed. rewrite cast_u_int by assumption. cbn [bind].
  destruct (range_loop_start m vals) as [[A _]|S]; [exfalso; destruct R as ((a & A1 & A2) & _); apply A2, A, A1|].
  destruct (range_loop m m m vals) as [a b]. destruct (range_unique _ _ _ _ _ _ R S) as [-> ->]. reflexivity.
Qed.
Print Assumptions C60_automatic_partial.
(** --stretch=min:max *)
Theorem C60_given n lo hi nodata vals : 0 <= lo < 2 ^ n -> 0 <= hi < 2 ^ n -> lo < hi ->
  exists f, picture n (Some (inject_Z lo, inject_Z hi)) nodata vals = Ok (map f vals) /\ contrast lo hi f.
Proof.
  intros A B L. exists (rescale1 lo hi). split; [|now apply rescale1_contrast]. unfold picture, compute_if_needed. now rewrite !cast_u_int by assumption.
Qed.
Print Assumptions C60_given.
(** An image with a single value becomes that value modulo 256, whatever the
    missing value; and there is no picture of a band without a no-data value, or
    with one outside the type. *)
Theorem C60_refuted_constant n m v vals : 0 <= m < 2 ^ n -> v <> m -> In v vals -> (forall w, In w vals -> w = v \/ w = m) ->
  picture n None (inject_Z m) vals = Ok (map (fun _ => v mod 256) vals).
Proof.
  intros M V I A. unfold picture, compute_if_needed. rewrite cast_u_int by assumption. cbn [bind].
  destruct (range_loop_start m vals) as [[B _]|S]; [exfalso; apply V, B, I|]. destruct (range_loop m m m vals) as [a b]. destruct S as (_ & S1 & S2 & S3 & S4 & _).
  destruct (A _ S1) as [->|]; [|contradiction]. destruct (A _ S2) as [->|]; [|contradiction]. cbn [fst snd]. unfold rescale, rescale1. now rewrite Z.eqb_refl.
Qed.
Print Assumptions C60_refuted_constant.
Theorem C60_refuted_nodata n nodata vals : (nodata <= -1 \/ inject_Z (2 ^ n) <= nodata)%Q -> picture n None nodata vals = UB.
Proof.
  intros H. unfold picture, compute_if_needed. assert (E : cast_u n nodata = UB).
  { unfold cast_u, Qtrunc. destruct (Qle_bool 0 nodata) eqn:P.
    - apply Qle_bool_iff in P. destruct H as [H|H]; [exfalso; lra|]. apply Qfloor_resp_le in H. rewrite Qfloor_Z in H. replace (Qfloor nodata <? 2 ^ n) with false by lia. now rewrite andb_false_r.
    - assert (nodata < 0)%Q by (apply Qnot_le_lt; intros C; apply Qle_bool_iff in C; congruence). destruct H as [H|H].
      + assert (K : (inject_Z 1 <= - nodata)%Q) by (change (inject_Z 1) with 1%Q; lra). apply Qfloor_resp_le in K. rewrite Qfloor_Z in K. now replace (0 <=? - Qfloor (- nodata)) with false by lia.
      + assert (C : (inject_Z (2 ^ n) < inject_Z 0)%Q) by (change (inject_Z 0) with 0%Q; lra). rewrite <- Zlt_Qlt in C. pose proof (Z.pow_nonneg 2 n ltac:(lia)). lia. }
  now rewrite E.
Qed.
Print Assumptions C60_refuted_nodata.
Example C60_case : picture 16 None 0 [0; 300; 1000; 650; 0; 301] = Ok [0; 0; 255; 127; 0; 0] /\ range_of 0 [0; 300; 1000; 650; 0; 301] 300 1000 /\
  picture 16 None (-10000000000 # 1) [1; 2] = UB /\ picture 16 None 0 [0; 513] = Ok [1; 1].
Proof.
  split; [vm_compute; reflexivity|]. split; [|split; vm_compute; reflexivity]. split; [exists 300; cbn [In]; split; [tauto|lia]|]. cbn [In]. split; [tauto|]. split; [tauto|]. do 2 (split; [lia|]).
  intros v V N. repeat (destruct V as [<-|V]; [lia|]). contradiction.
Qed.

(** ** C98. Unreadable bands. *)
Theorem C98_display n s nodata px : px = None -> display_image n s nodata px = Ok false.
Proof. intros ->. reflexivity. Qed.
Print Assumptions C98_display.
Theorem C98_refuted_export n s nodata name : In 46 name -> export_image n s nodata None name = UB.
Proof. intros H. unfold export_image. replace (has_extension name) with true; [reflexivity|]. symmetry. apply existsb_exists. exists 46. auto. Qed.
Print Assumptions C98_refuted_export.
Theorem C98_no_extension n s nodata px name : ~ In 46 name -> export_image n s nodata px name = Ok false.
Proof. intros H. unfold export_image. destruct (has_extension name) eqn:E; [|reflexivity]. apply existsb_exists in E. destruct E as (c & C & D). apply Z.eqb_eq in D. subst. contradiction. Qed.
Print Assumptions C98_no_extension.

(** ** C92. Size cap. *)
(** With one cap for both sides, the larger side becomes the cap and the other
    one is within a pixel of the exact proportion. *)
Theorem C92_cap m sx sy tx ty : 0 < m -> 0 < sx -> 0 < sy -> scaled_size m m sx sy = (tx, ty) ->
  (sx <= m -> sy <= m -> tx = sx /\ ty = sy) /\
  (m < sx \/ m < sy -> Z.max tx ty <= m /\ (tx = m \/ ty = m) /\ tx <= sx /\ ty <= sy /\
    Z.abs (tx * Z.max sx sy - sx * m) < Z.max sx sy /\ Z.abs (ty * Z.max sx sy - sy * m) < Z.max sx sy).
Proof.
  intros M SX SY. unfold scaled_size. replace (m =? 0) with false by lia. cbn [negb andb]. destruct (Z.ltb_spec m sx) as [A|A].
  - set (q := sy * m / sx). assert (Q1 : q * sx <= sy * m < (q + 1) * sx). { pose proof (Z.mul_div_le (sy * m) sx SX). pose proof (Z.mul_succ_div_gt (sy * m) sx SX). unfold q. nia. }
    assert (Q0 : 0 <= q) by (apply Z.div_pos; nia). clearbody q. destruct (Z.ltb_spec m q) as [B|B]; intros E; injection E as <- <-.
    + split; [lia|]. intros _. assert (L : sx < sy) by nia. rewrite (Z.max_r sx sy) by lia. set (t := m * m / q). assert (T : t * q <= m * m < (t + 1) * q). { pose proof (Z.mul_div_le (m * m) q ltac:(lia)). pose proof (Z.mul_succ_div_gt (m * m) q ltac:(lia)). unfold t. nia. }
      assert (T0 : 0 <= t) by (apply Z.div_pos; nia). clearbody t. assert (TM : t < m) by nia.
      split; [lia|]. split; [now right|]. split; [lia|]. split; [nia|]. split; [|nia].
      (* t*sy vs sx*m *)
      apply Z.abs_lt. split.
      * (* sx*m - sy < t*sy : (t+1) q > m m, q sx <= sy m *)
        assert (m * m * sx < (t + 1) * (sy * m)) by nia. assert (m * sx < (t + 1) * sy) by nia. lia.
      * (* (t-1) sy < sx m : t q <= m m ; (q+1) sx > sy m ; t <= m < q *)
        assert (t * (sy * m) < t * ((q + 1) * sx) \/ t = 0) by nia. assert (t * (sy * m) <= m * m * sx + t * sx) by nia. assert (t * sx < sy * m) by nia. nia.
    + split; [lia|]. intros _. assert (SM : Z.max sx sy = sx \/ (Z.max sx sy = sy /\ sx < sy)) by lia. destruct SM as [SM|[SM L]]; rewrite SM.
      * split; [nia|]. split; [now left|]. split; [lia|]. split; [nia|]. split; [nia|]. apply Z.abs_lt. nia.
      * assert (q = m) by nia. subst q. split; [lia|]. split; [now left|]. split; [lia|]. split; [nia|]. split; apply Z.abs_lt; nia.
  - destruct (Z.ltb_spec m sy) as [B|B]; intros E; injection E as <- <-; [|split; [lia|lia]]. split; [lia|]. intros _. rewrite (Z.max_r sx sy) by lia.
    set (q := sx * m / sy). assert (Q1 : q * sy <= sx * m < (q + 1) * sy). { pose proof (Z.mul_div_le (sx * m) sy SY). pose proof (Z.mul_succ_div_gt (sx * m) sy SY). unfold q. nia. }
    assert (Q0 : 0 <= q) by (apply Z.div_pos; nia). clearbody q. split; [nia|]. split; [now right|]. split; [nia|]. split; [lia|]. split; [apply Z.abs_lt; nia|]. nia.
Qed.
Print Assumptions C92_cap.
(** Images of at most [m] lines and more than [m] times wider than high (or the
    other way round) are scaled to nothing. *)
Theorem C92_refuted_thin m sx sy : 0 < m -> 0 < sy <= m -> sy * m < sx -> scaled_size m m sx sy = (m, 0) /\ scaled_size m m sy sx = (0, m).
Proof.
  intros M SY B. assert (A : m < sx) by nia. unfold scaled_size. replace (m =? 0) with false by lia. replace (m <? sx) with true by lia. cbn [negb andb]. rewrite Z.div_small by nia. replace (m <? 0) with false by lia. split; [reflexivity|].
  replace (m <? sy) with false by lia. replace (m <? sx) with true by lia. now rewrite Z.div_small by nia.
Qed.
Print Assumptions C92_refuted_thin.
Example C92_case : scaled_size 1280 1280 3712 3712 = (1280, 1280) /\ scaled_size 1280 1280 3712 1856 = (1280, 640) /\ scaled_size 1280 1280 1856 3712 = (640, 1280) /\ scaled_size 1280 1280 3712 2 = (1280, 0) /\
  scaled_size 1280 1280 1000 400 = (1000, 400).
Proof. repeat split; vm_compute; reflexivity. Qed.

(** ** C93. Source windows. *)
Definition inside_raster (w : rect) (d : dset) : Prop := 0 <= rx w /\ 0 <= ry w /\ 0 < rw w /\ 0 < rh w /\ rx w + rw w <= xs d /\ ry w + rh w <= ys d.
Lemma window_ok_strict w d : window_ok true w d = Ok true -> inside_raster w d.
Proof.
  unfold window_ok, inside_raster. destruct ((rx w <? 0) || (ry w <? 0)) eqn:A; [discriminate|]. cbn [andb]. destruct ((rw w <=? 0) || (rh w <=? 0)) eqn:B; [discriminate|].
  destruct (negb (int_fits (rx w + rw w))); [discriminate|]. destruct (Z.ltb_spec (xs d) (rx w + rw w)); [discriminate|]. destruct (negb (int_fits (ry w + rh w))); [discriminate|].
  intros E. injection E as E. lia.
Qed.
Lemma window_ok_total w d : int_fits (rx w + rw w) = true -> int_fits (ry w + rh w) = true -> exists b, window_ok true w d = Ok b /\ (b = true <-> inside_raster w d).
Proof.
  intros A B. unfold window_ok, inside_raster. rewrite A, B. cbn [negb andb].
  destruct ((rx w <? 0) || (ry w <? 0)) eqn:C; [exists false; split; [reflexivity|split; [discriminate|lia]]|]. destruct ((rw w <=? 0) || (rh w <=? 0)) eqn:D; [exists false; split; [reflexivity|split; [discriminate|lia]]|].
  destruct (Z.ltb_spec (xs d) (rx w + rw w)); [exists false; split; [reflexivity|split; [discriminate|lia]]|]. eexists. split; [reflexivity|]. lia.
Qed.
Lemma build_virtual t d v : build t d = Ok (Virtual v) -> v_win v = win t /\ v_bands v = bands t /\ (outsize t = None -> v_xs v = rw (win t) /\ v_ys v = rh (win t)) /\
  v_geo v = match dgeo d with Some g => Some (moved_geo g (win t) (v_xs v) (v_ys v)) | None => None end.
Proof.
  unfold build. destruct (nothing_to_do t d); [discriminate|]. destruct (outsize t) as [[a b]|].
  - destruct (out_len a (rw (win t))); try discriminate. cbn [bind]. destruct (out_len b (rh (win t))); try discriminate. cbn [bind]. intros E. injection E as <-. cbn [v_win v_bands v_xs v_ys v_geo]. repeat split; discriminate.
  - cbn [bind]. intros E. injection E as <-. cbn [v_win v_bands v_xs v_ys v_geo]. repeat split.
Qed.
Lemma build_itself t d : build t d = Ok Itself -> bDefBands t = true /\ win t = mk_rect 0 0 (xs d) (ys d) /\ outsize t = None.
Proof.
  unfold build. destruct (nothing_to_do t d) eqn:N.
  - intros _. unfold nothing_to_do in N. destruct (win t) as [a b c e]. cbn [rx ry rw rh] in *. destruct (outsize t); [now rewrite andb_false_r in N|]. apply andb_prop in N as [N _]. apply andb_prop in N as [N N4]. apply andb_prop in N as [N N3]. apply andb_prop in N as [N N2]. apply andb_prop in N as [N0 N1].
    split; [exact N0|]. split; [f_equal; lia|reflexivity].
  - destruct (outsize t) as [[a b]|]; [destruct (out_len a (rw (win t))); try discriminate; cbn [bind]; destruct (out_len b (rh (win t))); try discriminate|]; cbn [bind]; discriminate.
Qed.
Lemma verify_ok t d r t' : verify t d = Ok (r, t') -> t' = t /\ (r = Null \/ (inside_raster (win t) d /\ build t d = Ok r)).
Proof.
  unfold verify. destruct (window_ok true (win t) d) as [b| | | |] eqn:W; try discriminate. cbn [bind]. destruct b.
  - destruct (build t d) as [r'| | | |]; try discriminate. cbn [bind]. intros E. injection E as <- <-. split; [reflexivity|]. right. split; [now apply window_ok_strict|reflexivity].
  - intros E. injection E as <- <-. auto.
Qed.
(** The state in which the window is verified. *)
Lemma translate_ok t d r t' : translate t d = Ok (r, t') -> r = Null \/
  exists t1, check_bands (fill_win t d) d = Some t1 /\ t' = set_win t1 (win t') /\ (proj_given (proj t) = false -> t' = t1) /\ inside_raster (win t') d /\ build t' d = Ok r.
Proof.
  unfold translate. destruct (check_bands (fill_win t d) d) as [t1|] eqn:C; [|intros E; injection E as <- _; auto].
  assert (PJ : proj t1 = proj t). { assert (P : proj (fill_win t d) = proj t) by (unfold fill_win; destruct (_ && _); reflexivity). revert C. unfold check_bands. destruct (bands (fill_win t d)); [destruct (count d =? 0)|destruct (existsb _ _)]; try discriminate; intros E; injection E as <-; exact P. }
  rewrite PJ. destruct (proj_given (proj t)).
  - destruct (negb _); [intros E; injection E as <- _; auto|]. destruct (proj_window _ _) as [w| | | |]; try discriminate. cbn [bind]. destruct (window_ok false w d) as [b| | | |]; try discriminate. cbn [bind]. destruct b; [|intros E; injection E as <- _; auto].
    intros E. apply verify_ok in E as [-> [->|[I B]]]; [auto|]. right. exists t1. split; [reflexivity|]. split; [destruct t1 as [u1 u2 u3 u4 u5]; reflexivity|]. split; [discriminate|]. split; assumption.
  - intros E. apply verify_ok in E as [-> [->|[I B]]]; [auto|]. right. exists t1. split; [reflexivity|]. split; [destruct t1 as [u1 u2 u3 u4 u5]; reflexivity|]. split; [reflexivity|]. split; assumption.
Qed.
Lemma first_bands_in n b : In b (first_bands n) <-> 1 <= b <= n.
Proof. unfold first_bands. rewrite in_map_iff. split; [intros (k & <- & K); apply in_seq in K; lia|intros B; exists (Z.to_nat b); split; [lia|]; apply in_seq; lia]. Qed.
Lemma check_bands_ok t d t1 : check_bands t d = Some t1 -> win t1 = win t /\ proj t1 = proj t /\ outsize t1 = outsize t /\ (forall b, In b (bands t1) -> 1 <= b <= count d) /\
  (bands t <> [] -> bands t1 = bands t) /\ (bands t = [] -> bands t1 = first_bands (count d) /\ bDefBands t1 = bDefBands t) /\ bands t1 <> [].
Proof.
  unfold check_bands. destruct (bands t) as [|b l] eqn:B.
  - destruct (Z.eqb_spec (count d) 0) as [N|N]; [discriminate|]. intros E. injection E as <-. cbn [win proj outsize bands bDefBands]. do 3 (split; [reflexivity|]). split; [intros c; apply first_bands_in|]. split; [contradiction|]. split; [auto|].
    intros C. assert (I : In 1 (first_bands (count d))) by (apply first_bands_in; unfold count in *; lia). rewrite C in I. contradiction.
  - destruct (existsb _ _) eqn:X; [discriminate|]. intros E. injection E as <-. cbn [win proj outsize bands bDefBands]. do 3 (split; [reflexivity|]). split; [|split; [reflexivity|split; [discriminate|discriminate]]].
    intros c I. assert (~ ((c <? 1) || (count d <? c) = true)); [|lia]. intros C. assert (existsb (fun b => (b <? 1) || (count d <? b)) (b :: l) = true) by (apply existsb_exists; eauto). congruence.
Qed.
(** Whatever is asked for, what is returned lies inside the image. *)
Theorem C93_inside t d v t' : translate t d = Ok (Virtual v, t') -> inside_raster (v_win v) d /\ v_bands v <> [] /\ (forall b, In b (v_bands v) -> 1 <= b <= count d).
Proof.
  intros E. apply translate_ok in E as [|(t1 & C & T & _ & I & B)]; [discriminate|]. apply build_virtual in B as (B1 & B2 & _). rewrite B1, B2. split; [exact I|].
  apply check_bands_ok in C as (_ & _ & _ & C4 & _ & _ & C7). rewrite T. destruct t1 as [u1 u2 u3 u4 u5]; cbn [set_win bands] in *. auto.
Qed.
Print Assumptions C93_inside.
(** A window given in pixels is used exactly as given when it lies in the image
    and refused when it does not. *)
Theorem C93_requested_partial t d : proj_given (proj t) = false -> bands t = [] -> 0 < count d -> rw (win t) <> 0 \/ rh (win t) <> 0 ->
  int_fits (rx (win t) + rw (win t)) = true -> int_fits (ry (win t) + rh (win t)) = true -> outsize t = None ->
  (inside_raster (win t) d -> exists r t', translate t d = Ok (r, t') /\
     (r = Itself /\ win t = mk_rect 0 0 (xs d) (ys d) \/ exists v, r = Virtual v /\ v_win v = win t /\ v_xs v = rw (win t) /\ v_ys v = rh (win t) /\ v_bands v = first_bands (count d))) /\
  (~ inside_raster (win t) d -> exists t', translate t d = Ok (Null, t')).
Proof.
  intros P B N W X Y O. unfold translate. assert (F : fill_win t d = t). { unfold fill_win. destruct ((rw (win t) =? 0) && (rh (win t) =? 0)) eqn:E; [lia|reflexivity]. } rewrite F. unfold check_bands. rewrite B. destruct (Z.eqb_spec (count d) 0); [lia|].
  cbn [proj]. rewrite P. unfold verify. cbn [win]. destruct (window_ok_total (win t) d X Y) as (b & K & J). rewrite K. cbn [bind]. destruct b.
  - split; [intros _|intros C; exfalso; apply C, J; reflexivity]. unfold build. cbn [outsize win bands]. rewrite O. destruct (nothing_to_do _ d) eqn:ND.
    + cbn [bind]. eexists. eexists. split; [reflexivity|]. left. split; [reflexivity|]. assert (Q : build (mk_trans (first_bands (count d)) (bDefBands t) (win t) (proj t) None) d = Ok Itself) by (unfold build; now rewrite ND). apply build_itself in Q as (_ & Q & _). exact Q.
    + cbn [bind]. eexists. eexists. split; [reflexivity|]. right. eexists. split; [reflexivity|]. cbn [v_win v_xs v_ys v_bands]. auto.
  - split; [intros C; apply J in C; discriminate|intros _]. eexists. reflexivity.
Qed.
Print Assumptions C93_requested_partial.
(** But for windows whose end does not fit an int the check is undefined. *)
Theorem C93_refuted_overflow t d : proj_given (proj t) = false -> bands t = [] -> 0 < count d -> 0 <= rx (win t) -> 0 <= ry (win t) -> 0 < rw (win t) -> 0 < rh (win t) ->
  2 ^ 31 <= rx (win t) + rw (win t) -> translate t d = UB.
Proof.
  intros P B N X Y W H O. unfold translate. assert (F : fill_win t d = t). { unfold fill_win. destruct ((rw (win t) =? 0) && (rh (win t) =? 0)) eqn:E; [lia|reflexivity]. } rewrite F. unfold check_bands. rewrite B. destruct (Z.eqb_spec (count d) 0); [lia|].
  cbn [proj]. rewrite P. unfold verify, window_ok. cbn [win]. replace ((rx (win t) <? 0) || (ry (win t) <? 0)) with false by lia. cbn [andb]. replace ((rw (win t) <=? 0) || (rh (win t) <=? 0)) with false by lia.
  replace (int_fits (rx (win t) + rw (win t))) with false by (unfold int_fits; lia). reflexivity.
Qed.
Print Assumptions C93_refuted_overflow.
(** A projected window whose corners are pixel corners of the image selects
    exactly the pixels between them. *)
Lemma Qtrunc_near z q : 0 <= z -> (inject_Z z <= q)%Q -> (q < inject_Z z + 1)%Q -> Qtrunc q = z.
Proof.
  intros Z0 A B. unfold Qtrunc. replace (Qle_bool 0 q) with true by (symmetry; apply Qle_bool_iff; apply Qle_trans with (inject_Z z); [change 0%Q with (inject_Z 0); now rewrite <- Zle_Qle|exact A]).
  destruct (floor_bounds q) as [F1 F2]. set (f := Qfloor q) in *. assert (C : (inject_Z z < inject_Z (f + 1))%Q) by (rewrite inject_Z_plus; change (inject_Z 1) with 1%Q; lra). assert (D : (inject_Z f < inject_Z (z + 1))%Q) by (rewrite inject_Z_plus; change (inject_Z 1) with 1%Q; lra).
  rewrite <- Zlt_Qlt in C, D. lia.
Qed.
Lemma cast_int_near z q : 0 <= z < 2 ^ 31 -> (inject_Z z <= q)%Q -> (q < inject_Z z + 1)%Q -> cast_int q = Ok z.
Proof. intros Z0 A B. unfold cast_int. rewrite (Qtrunc_near z q) by (lia || assumption). now replace (int_fits z) with true by (unfold int_fits; lia). Qed.
Theorem C93_projwin t d g i j w h : dgeo d = Some g -> (g2 g == 0)%Q -> (g4 g == 0)%Q -> ~ (g1 g == 0)%Q -> ~ (g5 g == 0)%Q -> bands t = [] -> 0 < count d ->
  inside_raster (mk_rect i j w h) d -> xs d < 2 ^ 31 -> ys d < 2 ^ 31 -> outsize t = None -> proj_given (proj t) = true ->
  proj t = (fst (affine g (inject_Z i) (inject_Z j)), snd (affine g (inject_Z i) (inject_Z j)), fst (affine g (inject_Z (i + w)) (inject_Z (j + h))), snd (affine g (inject_Z (i + w)) (inject_Z (j + h)))) ->
  exists r t', translate t d = Ok (r, t') /\ win t' = mk_rect i j w h /\ (r = Itself \/ exists v, r = Virtual v /\ v_win v = mk_rect i j w h /\ v_xs v = w /\ v_ys v = h).
Proof.
  intros G E2 E4 N1 N5 B C (I1 & I2 & I3 & I4 & I5 & I6) X Y O PG P. cbn [rx ry rw rh] in *. unfold translate. assert (FB : bands (fill_win t d) = [] /\ proj (fill_win t d) = proj t /\ outsize (fill_win t d) = None) by (unfold fill_win; destruct (_ && _); auto).
  destruct FB as (FB & FP & FO). unfold check_bands. rewrite FB. destruct (Z.eqb_spec (count d) 0); [lia|]. cbn [proj]. rewrite FP, PG. unfold geo_or_default. rewrite G.
  replace (Qeq_bool (g2 g) 0) with true by (symmetry; now apply Qeq_bool_iff). replace (Qeq_bool (g4 g) 0) with true by (symmetry; now apply Qeq_bool_iff). cbn [negb andb]. rewrite P. unfold proj_window, affine. cbn [fst snd].
  replace (Qeq_bool (g1 g) 0) with false by (symmetry; destruct (Qeq_bool (g1 g) 0) eqn:K; [apply Qeq_bool_iff in K; contradiction|reflexivity]). replace (Qeq_bool (g5 g) 0) with false by (symmetry; destruct (Qeq_bool (g5 g) 0) eqn:K; [apply Qeq_bool_iff in K; contradiction|reflexivity]). cbn [orb].
  assert (A1 : ((g0 g + g1 g * inject_Z i + g2 g * inject_Z j - g0 g) / g1 g == inject_Z i)%Q) by (rewrite E2; field; assumption).
  assert (A2 : ((g3 g + g4 g * inject_Z i + g5 g * inject_Z j - g3 g) / g5 g == inject_Z j)%Q) by (rewrite E4; field; assumption).
  assert (A3 : ((g0 g + g1 g * inject_Z (i + w) + g2 g * inject_Z (j + h) - (g0 g + g1 g * inject_Z i + g2 g * inject_Z j)) / g1 g == inject_Z w)%Q) by (rewrite E2, !inject_Z_plus; field; assumption).
  assert (A4 : ((g3 g + g4 g * inject_Z (i + w) + g5 g * inject_Z (j + h) - (g3 g + g4 g * inject_Z i + g5 g * inject_Z j)) / g5 g == inject_Z h)%Q) by (rewrite E4, !inject_Z_plus; field; assumption).
  rewrite (cast_int_near i), (cast_int_near j), (cast_int_near w), (cast_int_near h) by (first [lia|rewrite A1; lra|rewrite A2; lra|rewrite A3; lra|rewrite A4; lra]). cbn [bind].
  assert (WK : forall s, window_ok s (mk_rect i j w h) d = Ok true). { intros s. unfold window_ok. cbn [rx ry rw rh]. replace ((i <? 0) || (j <? 0)) with false by lia. replace ((w <=? 0) || (h <=? 0)) with false by lia. rewrite andb_false_r. replace (int_fits (i + w)) with true by (unfold int_fits; lia). replace (int_fits (j + h)) with true by (unfold int_fits; lia). cbn [negb]. replace (xs d <? i + w) with false by lia. now replace (ys d <? j + h) with false by lia. }
  rewrite WK. cbn [bind]. unfold verify. cbn [set_win win]. rewrite WK. cbn [bind]. unfold build. cbn [outsize win]. rewrite FO. destruct (nothing_to_do _ d); cbn [bind]; eexists; eexists; (split; [reflexivity|]); cbn [set_win win]; (split; [reflexivity|]); [now left|right]. eexists. split; [reflexivity|]. cbn [v_win v_xs v_ys rw rh]. auto.
Qed.
Print Assumptions C93_projwin.
(** A window that starts up to a pixel outside the image is silently moved. *)
Theorem C93_refuted_border p g x y w h : ~ (g1 g == 0)%Q -> ~ (g5 g == 0)%Q -> proj_window p g = Ok (mk_rect x y w h) ->
  (-(1001 # 1000) < (fst (fst (fst p)) - g0 g) / g1 g < 0)%Q -> x = 0.
Proof.
  destruct p as [[[ulx uly] lrx] lry]. cbn [fst]. intros N1 N5 P H. unfold proj_window in P. destruct (Qeq_bool (g1 g) 0 || Qeq_bool (g5 g) 0); [discriminate|].
  assert (T : Qtrunc ((ulx - g0 g) / g1 g + (1 # 1000)) = 0).
  { set (q := ((ulx - g0 g) / g1 g)%Q) in *. unfold Qtrunc. destruct (Qle_bool 0 (q + (1 # 1000))) eqn:E.
    - apply Qle_bool_iff in E. destruct (floor_bounds (q + (1 # 1000))) as [F1 F2]. set (f := Qfloor _) in *. assert (A : (inject_Z f < inject_Z 1)%Q) by (change (inject_Z 1) with 1%Q; lra). assert (B : (inject_Z (-1) < inject_Z f)%Q) by (change (inject_Z (-1)) with (-1 # 1)%Q; lra). rewrite <- Zlt_Qlt in A, B. lia.
    - assert (q + (1 # 1000) < 0)%Q by (apply Qnot_le_lt; intros C; apply Qle_bool_iff in C; congruence). destruct (floor_bounds (- (q + (1 # 1000)))) as [F1 F2]. set (f := Qfloor _) in *. assert (A : (inject_Z f < inject_Z 1)%Q) by (change (inject_Z 1) with 1%Q; lra). assert (B : (inject_Z (-1) < inject_Z f)%Q) by (change (inject_Z (-1)) with (-1 # 1)%Q; lra). rewrite <- Zlt_Qlt in A, B. lia. }
  unfold cast_int in P. rewrite T in P. replace (int_fits 0) with true in P by reflexivity. cbn [bind] in P.
  repeat match type of P with context [if ?c then Ok _ else UB] => destruct c; [cbn [bind] in P|discriminate] end. now injection P as <- _ _ _.
Qed.
Print Assumptions C93_refuted_border.
Example C93_case : exists v t', translate (mk_trans [] true (mk_rect 10 20 300 200) (0, 0, 0, 0)%Q None) (mk_dset 3712 3712 [codes "VIS006"] (Some seviri_geo)) = Ok (Virtual v, t') /\ v_win v = mk_rect 10 20 300 200 /\ v_bands v = [1].
Proof. eexists. eexists. split; [reflexivity|]. split; reflexivity. Qed.

(** ** C94. Georeference of cut and resized images. *)
Theorem C94_georeference t d g v t' : translate t d = Ok (Virtual v, t') -> dgeo d = Some g -> 0 < v_xs v -> 0 < v_ys v ->
  exists g', v_geo v = Some g' /\ forall a b : Q,
    same (affine g' a b) (affine g (inject_Z (rx (v_win v)) + a * inject_Z (rw (v_win v)) / inject_Z (v_xs v)) (inject_Z (ry (v_win v)) + b * inject_Z (rh (v_win v)) / inject_Z (v_ys v))).
Proof.
  intros E G X Y. apply translate_ok in E as [|(t1 & C & T & _ & I & B)]; [discriminate|]. apply build_virtual in B as (B1 & B2 & _ & B3). rewrite G in B3. eexists. split; [exact B3|]. rewrite <- B1. intros a b. unfold same, affine, moved_geo. cbn [fst snd g0 g1 g2 g3 g4 g5].
  assert (~ (inject_Z (v_xs v) == 0)%Q) by (change 0%Q with (inject_Z 0); rewrite inject_Z_injective; lia). assert (~ (inject_Z (v_ys v) == 0)%Q) by (change 0%Q with (inject_Z 0); rewrite inject_Z_injective; lia). split; field; auto.
Qed.
Print Assumptions C94_georeference.
(** Without --resize the pixels are those of the window and stay where they
    were. *)
Theorem C94_cut t d g v t' x y : translate t d = Ok (Virtual v, t') -> dgeo d = Some g -> outsize t = None ->
  v_xs v = rw (v_win v) /\ v_ys v = rh (v_win v) /\ exists g', v_geo v = Some g' /\ same (pixelToProjected g' x y) (pixelToProjected g (rx (v_win v) + x) (ry (v_win v) + y)).
Proof.
  intros E G O. assert (K : v_xs v = rw (v_win v) /\ v_ys v = rh (v_win v)).
  { pose proof E as E'. apply translate_ok in E' as [|(t1 & C & T & _ & I & B)]; [discriminate|]. apply build_virtual in B as (B1 & _ & B2 & _). apply check_bands_ok in C as (_ & _ & C3 & _). rewrite B1. apply B2. rewrite T. destruct t1 as [u1 u2 u3 u4 u5]; cbn [set_win outsize] in *. rewrite C3. unfold fill_win. destruct (_ && _); exact O. }
  pose proof (C93_inside _ _ _ _ E) as ((I1 & I2 & I3 & I4 & I5 & I6) & _). destruct K as [KX KY]. split; [exact KX|]. split; [exact KY|].
  destruct (C94_georeference t d g v t' E G ltac:(lia) ltac:(lia)) as (g' & G' & S). exists g'. split; [exact G'|]. specialize (S (inject_Z x) (inject_Z y)). destruct S as [S1 S2]. unfold affine in S1, S2. cbn [fst snd] in S1, S2. unfold same, pixelToProjected. cbn [fst snd]. rewrite S1, S2, KX, KY, !inject_Z_plus.
  assert (~ (inject_Z (rw (v_win v)) == 0)%Q) by (change 0%Q with (inject_Z 0); rewrite inject_Z_injective; lia). assert (~ (inject_Z (rh (v_win v)) == 0)%Q) by (change 0%Q with (inject_Z 0); rewrite inject_Z_injective; lia). split; field; auto.
Qed.
Print Assumptions C94_cut.
Example C94_case : exists v t' g', translate (mk_trans [] true (mk_rect 10 20 300 200) (0, 0, 0, 0)%Q (Some (Percent 50, Percent 50))) (mk_dset 3712 3712 [codes "VIS006"] (Some (mk_geo 100 3 0 500 0 (-3)))) = Ok (Virtual v, t') /\
  v_geo v = Some g' /\ v_xs v = 150 /\ v_ys v = 100 /\ same (affine g' 150 100) (affine (mk_geo 100 3 0 500 0 (-3)) 310 220).
Proof. eexists. eexists. eexists. split; [reflexivity|]. split; [reflexivity|]. repeat split; vm_compute; reflexivity. Qed.
