(** C154: the text drawing of a product. *)
From Coq Require Import Sorted.
From Verif Require Import Base BaseFacts IniModel DataAccessModel DataAccessSpec DataAccessProofs DataAccessBlocks DumpModel.
Open Scope string_scope.
Open Scope list_scope.
Open Scope Z_scope.

(** * What a drawing should show *)
(** Eight tones, from the darkest. *)
Definition tones : str := codes " .,-:=$#".
(** The tone of a sample between the smallest and the largest one. *)
Definition tone (mn mx s : Z) : Z := nth (Z.to_nat (Z.min 7 (8 * (s - mn) / (mx - mn)))) tones 0.
(** The drawing a user gets: that, but for the samples equal to the largest one. *)
Definition tone_got (mn mx s : Z) : Z := if s =? mx then 0 else tone mn mx s.
Definition smallest (m : Z) (l : list Z) : Prop := In m l /\ Forall (fun x => m <= x) l.
Definition largest (m : Z) (l : list Z) : Prop := In m l /\ Forall (fun x => x <= m) l.
(** Sample at line [i] and column [j]. *)
Definition sample (rows : list row) (i j : Z) : Z := nth (Z.to_nat j) (nth (Z.to_nat i) rows []) 0.
(** A picture of [ny] lines of [nx] characters, of an image of [h] lines of [w]
    samples. *)
Definition pictures (f : Z -> Z) (px : Z -> Z -> Z) (ny nx : nat) (h w : Z) (pic : list str) : Prop :=
  List.length pic = ny /\
  forall y, (y < ny)%nat -> List.length (nth y pic []) = nx /\
    forall x, (x < nx)%nat -> nth x (nth y pic []) 0 = f (px (Z.of_nat y * h / Z.of_nat ny) (Z.of_nat x * w / Z.of_nat nx)).

(** * Shading *)
Lemma shade_in mn mx s : 0 <= mn <= s -> s <= mx -> mx <= 65535 -> mn < mx -> shade mn mx s = Ok (tone_got mn mx s).
Proof.
  intros H1 H2 H3 H4. unfold shade. change (Z.of_nat (List.length aachars)) with 8.
  replace (mx - mn =? 0) with false by lia. unfold wrap64.
  rewrite !Z.mod_small by lia. cbv zeta. unfold tone_got, tone. replace (8 * (s - mn)) with ((s - mn) * 8) by lia.
  destruct (Z.eqb_spec s mx) as [-> | N].
  - replace ((mx - mn) * 8 / (mx - mn)) with 8; [reflexivity|]. rewrite Z.mul_comm. symmetry. apply Z.div_mul. lia.
  - assert (0 <= (s - mn) * 8 / (mx - mn)) by (apply Z.div_pos; lia).
    assert ((s - mn) * 8 / (mx - mn) < 8) by (apply Z.div_lt_upper_bound; nia).
    replace ((s - mn) * 8 / (mx - mn) <? 8) with true by lia. rewrite Z.min_r by lia. reflexivity.
Qed.
Lemma shade_UB mn mx : 0 < mn <= 65535 -> mn <= mx <= 65535 -> shade mn mx 0 = UB.
Proof.
  intros H1 H2. unfold shade. change (Z.of_nat (List.length aachars)) with 8.
  destruct (Z.eqb_spec (mx - mn) 0); [reflexivity|]. unfold wrap64. cbv zeta.
  replace ((0 - mn) mod 2 ^ 64) with (2 ^ 64 - mn) by (apply Z.mod_unique_pos with (-1); lia).
  replace ((2 ^ 64 - mn) * 8 mod 2 ^ 64) with (2 ^ 64 - 8 * mn) by (apply Z.mod_unique_pos with 7; lia).
  rewrite Z.mod_small by lia.
  assert (8 < (2 ^ 64 - 8 * mn) / (mx - mn)).
  { apply Z.lt_le_trans with 9; [lia|]. apply Z.div_le_lower_bound; nia. }
  replace (_ <? 8) with false by lia. replace (_ =? 8) with false by lia. reflexivity.
Qed.
Lemma shade_const m s : shade m m s = UB.
Proof. unfold shade. now rewrite Z.sub_diag. Qed.
Definition ok_or_ub {A} (m : outcome A) : Prop := match m with Ok _ | UB => True | _ => False end.
Lemma shade_either mn mx s : ok_or_ub (shade mn mx s).
Proof. unfold shade. repeat (destruct (_ =? _) || destruct (_ <? _)); exact I. Qed.

Lemma collect_ok {A} (f : nat -> outcome A) (v : nat -> A) : forall l, (forall i, In i l -> f i = Ok (v i)) -> collect f l = Ok (map v l).
Proof.
  induction l as [|i l IH]; intros H; [reflexivity|]. cbn [collect map]. rewrite H by now left. cbn [bind].
  rewrite IH by (intros; apply H; now right). reflexivity.
Qed.
Lemma collect_either {A} (f : nat -> outcome A) : forall l, (forall i, In i l -> ok_or_ub (f i)) -> ok_or_ub (collect f l).
Proof.
  induction l as [|i l IH]; intros H; [exact I|]. cbn [collect]. assert (E := H i (or_introl eq_refl)).
  destruct (f i); cbn [ok_or_ub] in E; try (exfalso; exact E); cbn [bind]; [|exact I].
  assert (E2 : ok_or_ub (collect f l)) by (apply IH; intros; apply H; now right).
  destruct (collect f l); cbn [ok_or_ub] in E2; try (exfalso; exact E2); exact I.
Qed.
Lemma collect_UB {A} (f : nat -> outcome A) : forall l i, (forall i, In i l -> ok_or_ub (f i)) -> In i l -> f i = UB -> collect f l = UB.
Proof.
  induction l as [|j l IH]; intros i H Hin E; [destruct Hin|]. cbn [collect]. destruct Hin as [-> | Hin].
  - rewrite E. reflexivity.
  - assert (E1 := H j (or_introl eq_refl)). destruct (f j); cbn [ok_or_ub] in E1; try (exfalso; exact E1); cbn [bind]; [|reflexivity].
    rewrite (IH i) by (auto; intros; apply H; now right). reflexivity.
Qed.
Lemma map_seq_nth {A} (v : nat -> A) n i d : (i < n)%nat -> nth i (map v (seq 0 n)) d = v i.
Proof. intros H. rewrite nth_indep with (d' := v 0%nat) by (now rewrite map_length, seq_length). rewrite map_nth, seq_nth by lia. f_equal. Qed.

(** * Smallest and largest sample *)
Lemma min_max_ok : forall l a b, Forall (fun x => 0 <= x <= 65535) l ->
  let r := fold_left (fun a x => (if x <? fst a then x else fst a, if snd a <? x then x else snd a)) l (a, b) in
  (fst r = a \/ In (fst r) l) /\ fst r <= a /\ Forall (fun x => fst r <= x) l /\
  (snd r = b \/ In (snd r) l) /\ b <= snd r /\ Forall (fun x => x <= snd r) l.
Proof.
  induction l as [|x l IH]; intros a b F; cbn [fold_left fst snd].
  - cbv zeta. cbn [fst snd]. repeat split; auto; lia.
  - inversion F as [|? ? F1 F2]; subst. cbv zeta in *.
    destruct (IH (if x <? a then x else a) (if b <? x then x else b) F2) as (A1 & A2 & A3 & B1 & B2 & B3).
    repeat split.
    + destruct A1 as [A1 | A1]; [|right; now right]. destruct (x <? a); [right; left; congruence|now left].
    + destruct (Z.ltb_spec x a); lia.
    + constructor; [destruct (Z.ltb_spec x a); lia|exact A3].
    + destruct B1 as [B1 | B1]; [|right; now right]. destruct (b <? x); [right; left; congruence|now left].
    + destruct (Z.ltb_spec b x); lia.
    + constructor; [destruct (Z.ltb_spec b x); lia|exact B3].
Qed.
Lemma min_max_spec l : l <> [] -> Forall (fun x => 0 <= x <= 65535) l -> smallest (fst (min_max l)) l /\ largest (snd (min_max l)) l.
Proof.
  intros N F. destruct (min_max_ok l 65535 0 F) as (A1 & A2 & A3 & B1 & B2 & B3). fold (min_max l) in *.
  destruct l as [|x l]; [congruence|]. rewrite Forall_forall in F. assert (Fx := F x (or_introl eq_refl)).
  split; (split; [|assumption]).
  - destruct A1 as [A1 | A1]; [|exact A1]. inversion A3; subst. left. lia.
  - destruct B1 as [B1 | B1]; [|exact B1]. inversion B3; subst. left. lia.
Qed.
Lemma smallest_unique m m' l : smallest m l -> smallest m' l -> m = m'.
Proof. intros [I1 F1] [I2 F2]. rewrite Forall_forall in F1, F2. specialize (F1 _ I2). specialize (F2 _ I1). cbn in *. lia. Qed.
Lemma largest_unique m m' l : largest m l -> largest m' l -> m = m'.
Proof. intros [I1 F1] [I2 F2]. rewrite Forall_forall in F1, F2. specialize (F1 _ I2). specialize (F2 _ I1). cbn in *. lia. Qed.

(** * Segments *)
Definition served (names : list fname) (ld : loader) (st : da) : Prop :=
  exists idxs, Forall (fun i => 0 <= i) idxs /\ st = run names da_init (map (fun i => (ld, i)) idxs).
Lemma run_app names : forall h1 h2 st, run names st (h1 ++ h2) = run names (run names st h1) h2.
Proof. induction h1 as [|[l i] h1 IH]; intros h2 st; [reflexivity|]. cbn [run app]. apply IH. Qed.
Lemma served_init names ld : served names ld da_init.
Proof. now exists []. Qed.
Lemma served_step names ld st k : served names ld st -> 0 <= k -> served names ld (fst (segment names ld st k)).
Proof.
  intros (l & F & ->) K. exists (l ++ [k]). split; [apply Forall_app; now repeat constructor|].
  rewrite map_app, run_app. reflexivity.
Qed.
Lemma served_segment names ld st k : served names ld st -> 0 <= k -> observe (segment names ld st k) = fresh names ld k.
Proof. intros (l & F & ->) K. now apply cache_transparent. Qed.
Lemma served_history names ld st : served names ld st ->
  exists h, st = run names da_init h /\ requests_ok h /\ forall ld' i, In (ld', i) h -> ld' = ld.
Proof.
  intros (l & F & ->). exists (map (fun i => (ld, i)) l). split; [reflexivity|]. split.
  - unfold requests_ok. apply Forall_map. exact F.
  - intros ld' i H. apply in_map_iff in H as (j & E & _). congruence.
Qed.

Lemma sample_flat cols : forall (rows : list row) i j, Forall (fun r => Z.of_nat (List.length r) = cols) rows ->
  (i < List.length rows)%nat -> 0 <= j < cols ->
  nth_error (List.concat rows) (Z.to_nat (Z.of_nat i * cols + j)) = Some (sample rows (Z.of_nat i) j).
Proof.
  unfold sample. induction rows as [|r rows IH]; intros i j F I J; [cbn in I; lia|]. inversion F as [|? ? F1 F2]; subst.
  cbn [List.concat]. rewrite Nat2Z.id. destruct i as [|i].
  - rewrite nth_error_app1 by lia. cbn [nth]. replace (Z.of_nat 0 * _ + j) with j by lia. apply nth_error_nth'. lia.
  - assert (P : 0 <= Z.of_nat i * Z.of_nat (List.length r)) by nia.
    replace (Z.to_nat (Z.of_nat (S i) * Z.of_nat (List.length r) + j)) with (List.length r + Z.to_nat (Z.of_nat i * Z.of_nat (List.length r) + j))%nat by lia.
    rewrite nth_error_app2 by lia. cbn [nth].
    replace (List.length r + Z.to_nat (Z.of_nat i * Z.of_nat (List.length r) + j) - List.length r)%nat with (Z.to_nat (Z.of_nat i * Z.of_nat (List.length r) + j)) by lia.
    rewrite (IH i j F2) by (cbn in I; lia). now rewrite Nat2Z.id.
Qed.
Lemma flat_length cols : forall rows : list row, Forall (fun r => Z.of_nat (List.length r) = cols) rows ->
  Z.of_nat (List.length (List.concat rows)) = Z.of_nat (List.length rows) * cols.
Proof.
  induction rows as [|r rows IH]; intros F; [reflexivity|]. inversion F; subst. cbn [List.concat]. rewrite app_length. specialize (IH H2).
  cbn [List.length]. lia.
Qed.
Lemma sample_in cols (rows : list row) i j : Forall (fun r => Z.of_nat (List.length r) = cols) rows ->
  0 <= i < Z.of_nat (List.length rows) -> 0 <= j < cols -> In (sample rows i j) (List.concat rows).
Proof.
  intros F I J. replace i with (Z.of_nat (Z.to_nat i)) by lia. eapply nth_error_In. apply (sample_flat cols); [exact F|lia|exact J].
Qed.
Lemma step_lt n k m : 0 < m -> 0 <= k < n -> 0 <= k * m / n < m.
Proof. intros M K. split; [apply Z.div_pos; nia|]. apply Z.div_lt_upper_bound; nia. Qed.

Lemma draw_segment_ok g (rows : list row) : 0 < g_seglines g -> 0 < g_columns g -> g_npixperseg g = g_columns g * g_seglines g ->
  Z.of_nat (List.length rows) = g_seglines g -> Forall (fun r => Z.of_nat (List.length r) = g_columns g) rows ->
  Forall (fun x => 0 <= x <= 65535) (List.concat rows) ->
  exists mn mx, smallest mn (List.concat rows) /\ largest mx (List.concat rows) /\
    (mn < mx -> exists pic, draw_segment g (List.concat rows) = Ok (mn, mx, pic) /\ pictures (tone_got mn mx) (sample rows) 3 50 (g_seglines g) (g_columns g) pic) /\
    (mn = mx -> draw_segment g (List.concat rows) = UB).
Proof.
  intros HL HC HN L F V. assert (FL := flat_length _ _ F).
  assert (NE : List.concat rows <> []) by (intros E; rewrite E, L in FL; change (0 = g_seglines g * g_columns g) in FL; nia).
  destruct (min_max_spec _ NE V) as [M1 M2]. exists (fst (min_max (List.concat rows))), (snd (min_max (List.concat rows))).
  split; [exact M1|]. split; [exact M2|]. unfold draw_segment.
  replace (_ <? _) with false by nia. rewrite firstn_all2 by nia.
  destruct (min_max (List.concat rows)) as [mn mx]. cbn [fst snd] in *.
  assert (AT : forall y x, (y < 3)%nat -> (x < 50)%nat ->
    nth_error (List.concat rows) (Z.to_nat (Z.of_nat y * g_seglines g / 3 * g_columns g + Z.of_nat x * g_columns g / 50)) =
    Some (sample rows (Z.of_nat y * g_seglines g / 3) (Z.of_nat x * g_columns g / 50))).
  { intros y x Y X. assert (Y' := step_lt 3 (Z.of_nat y) (g_seglines g) HL ltac:(lia)). assert (X' := step_lt 50 (Z.of_nat x) (g_columns g) HC ltac:(lia)).
    set (i := Z.of_nat y * g_seglines g / 3) in *. replace i with (Z.of_nat (Z.to_nat i)) by lia. apply sample_flat; [exact F|lia|lia]. }
  assert (IN : forall y x, (y < 3)%nat -> (x < 50)%nat -> mn <= sample rows (Z.of_nat y * g_seglines g / 3) (Z.of_nat x * g_columns g / 50) <= mx).
  { intros y x Y X. assert (I := nth_error_In _ _ (AT y x Y X)). destruct M1 as [_ M1]. destruct M2 as [_ M2]. rewrite Forall_forall in M1, M2.
    specialize (M1 _ I). specialize (M2 _ I). cbn in *. lia. }
  assert (B : 0 <= mn /\ mx <= 65535).
  { destruct M1 as [M1 _]. destruct M2 as [M2 _]. rewrite Forall_forall in V. assert (V1 := V _ M1). assert (V2 := V _ M2). cbn in *. lia. }
  split.
  - intros LT.
    rewrite (collect_ok _ (fun y => map (fun x => tone_got mn mx (sample rows (Z.of_nat y * g_seglines g / 3) (Z.of_nat x * g_columns g / 50))) (seq 0 50))).
    + cbn [bind]. eexists. split; [reflexivity|]. split; [now rewrite map_length, seq_length|]. intros y Y.
      rewrite map_seq_nth by exact Y. split; [now rewrite map_length, seq_length|]. intros x X. now rewrite map_seq_nth by exact X.
    + intros y Y. apply in_seq in Y. apply collect_ok. intros x X. apply in_seq in X. cbv zeta. rewrite AT by lia. specialize (IN y x ltac:(lia) ltac:(lia)). apply shade_in; lia.
  - intros ->. rewrite (collect_UB _ _ 0%nat); [reflexivity| |now left|].
    + intros y Y. apply collect_either. intros x X. cbv zeta. destruct (nth_error _ _); [apply shade_either|exact I].
    + apply (collect_UB _ _ 0%nat); [|now left|].
      * intros x X. cbv zeta. destruct (nth_error _ _); [apply shade_either|exact I].
      * cbv zeta. rewrite AT by lia. apply shade_const.
Qed.

(** A product whose files can be read. *)
Definition product (names : list fname) (ld : loader) (g : geometry) (segs : segments) : Prop :=
  0 < g_seglines g /\ 0 < g_columns g /\ g_npixperseg g = g_columns g * g_seglines g /\ holds names ld (g_seglines g) (g_columns g) segs /\
  forall k rows, nth k segs None = Some rows -> Forall (fun x => 0 <= x <= 65535) (List.concat rows).
Definition constant (rows : list row) : Prop := forall x y, In x (List.concat rows) -> In y (List.concat rows) -> x = y.
Definition drawn (g : geometry) (s : option (list row)) (d : option (Z * Z * list str)) : Prop :=
  match s, d with
  | None, None => True
  | Some rows, Some (mn, mx, pic) =>
      smallest mn (List.concat rows) /\ largest mx (List.concat rows) /\
      pictures (tone_got mn mx) (sample rows) 3 50 (g_seglines g) (g_columns g) pic
  | _, _ => False
  end.
(** [x] is a sample of one of these segments. *)
Definition sample_of (segs : segments) (l : list nat) (x : Z) : Prop := exists i rows, In i l /\ nth i segs None = Some rows /\ In x (List.concat rows).

Lemma product_step names ld g segs st i : product names ld g segs -> served names ld st ->
  exists st', served names ld st' /\
  match nth i segs None with
  | None => segment names ld st (Z.of_nat i) = (st', Ok None)
  | Some rows => exists p, segment names ld st (Z.of_nat i) = (st', Ok (Some p)) /\ heap_get (da_heap st') p = Some (List.concat rows)
  end.
Proof.
  intros (_ & _ & _ & HO & _) SV. assert (O := served_segment names ld st (Z.of_nat i) SV ltac:(lia)).
  assert (SV' := served_step names ld st (Z.of_nat i) SV ltac:(lia)). specialize (HO (Z.of_nat i) ltac:(lia)). rewrite Nat2Z.id in HO.
  destruct (segment names ld st (Z.of_nat i)) as [st' d]. cbn [fst] in SV'. exists st'. split; [exact SV'|].
  unfold observe in O. cbn [fst snd] in O. unfold fresh in O. destruct (nth i segs None) as [rows|].
  - destruct HO as (f & R & LD & _). rewrite R, LD in O. cbn [bind] in O. destruct d as [[p|]| | | |]; try discriminate.
    exists p. destruct (heap_get (da_heap st') p); [|discriminate]. split; [reflexivity|]. congruence.
  - rewrite HO in O. destruct d as [[p|]| | | |]; try discriminate; [|reflexivity]. destruct (heap_get _ _); discriminate.
Qed.

Lemma draw_segments_ok names ld g segs : product names ld g segs -> forall l st cmin cmax, served names ld st ->
  ((forall i rows, In i l -> nth i segs None = Some rows -> ~ constant rows) ->
   exists st' cmin' cmax' ds, draw_segments names g ld st cmin cmax l = Ok (st', (cmin', cmax'), ds) /\ served names ld st' /\
     Forall2 (fun i d => drawn g (nth i segs None) d) l ds /\
     (cmin' = cmin \/ sample_of segs l cmin') /\ cmin' <= cmin /\ (forall x, sample_of segs l x -> cmin' <= x) /\
     (cmax' = cmax \/ sample_of segs l cmax') /\ cmax <= cmax' /\ (forall x, sample_of segs l x -> x <= cmax')) /\
  ok_or_ub (draw_segments names g ld st cmin cmax l) /\
  (forall i rows, In i l -> nth i segs None = Some rows -> constant rows -> draw_segments names g ld st cmin cmax l = UB).
Proof.
  intros PR. induction l as [|i l IH]; intros st cmin cmax SV.
  - split; [|split; [exact I|intros i rows []]]. intros _. exists st, cmin, cmax, []. split; [reflexivity|]. split; [exact SV|].
    assert (N : forall x, ~ sample_of segs [] x) by (intros x (i & r & [] & _)).
    repeat split; auto; try lia; intros x HX; exfalso; exact (N x HX).
  - destruct (product_step names ld g segs st i PR SV) as (st' & SV' & E). cbn [draw_segments].
    destruct (nth i segs None) as [rows|] eqn:NI.
    + destruct E as (p & -> & HG). cbn [bind]. rewrite HG.
      destruct PR as (HL & HC & HN & HO & HV). assert (HK := HO (Z.of_nat i) ltac:(lia)). rewrite Nat2Z.id, NI in HK. destruct HK as (f & _ & _ & LR & FR).
      destruct (draw_segment_ok g rows HL HC HN LR FR (HV i rows NI)) as (mn & mx & M1 & M2 & OK & BAD).
      assert (LE : mn <= mx) by (destruct M1 as [I1 _]; destruct M2 as [_ F2]; rewrite Forall_forall in F2; apply F2; exact I1).
      destruct (Z.eq_dec mn mx) as [EQ | NEQ].
      * rewrite (BAD EQ). cbn [bind]. split; [|split; [exact I|reflexivity]]. intros NC. exfalso. apply (NC i rows (or_introl eq_refl) NI).
        intros x y X Y. destruct M1 as [_ M1]. destruct M2 as [_ M2]. rewrite Forall_forall in M1, M2.
        pose proof (M1 _ X). pose proof (M1 _ Y). pose proof (M2 _ X). pose proof (M2 _ Y). cbn in *. lia.
      * destruct (OK ltac:(lia)) as (pic & -> & PIC). cbn [bind].
        destruct (IH st' (if mn <? cmin then mn else cmin) (if cmax <? mx then mx else cmax) SV') as (IH1 & IH2 & IH3).
        split; [|split].
        -- intros NC. destruct (IH1 ltac:(intros j r J; apply NC; now right)) as (st2 & c1 & c2 & ds & -> & SV2 & F2 & A1 & A2 & A3 & B1 & B2 & B3).
           cbn [bind]. exists st2, c1, c2, (Some (mn, mx, pic) :: ds). split; [reflexivity|]. split; [exact SV2|].
           assert (HEAD : forall x, In x (List.concat rows) -> sample_of segs (i :: l) x) by (intros x X; exists i, rows; repeat split; [now left|exact NI|exact X]).
           assert (TAIL : forall x, sample_of segs l x -> sample_of segs (i :: l) x) by (intros x (j & r & J1 & J2 & J3); exists j, r; repeat split; [now right|exact J2|exact J3]).
           assert (CASES : forall x, sample_of segs (i :: l) x -> In x (List.concat rows) \/ sample_of segs l x).
           { intros x (j & r & [-> | J1] & J2 & J3); [left|right].
             - rewrite NI in J2. now replace rows with r by congruence.
             - now exists j, r. }
           split; [constructor; [rewrite NI; cbn; auto|exact F2]|].
           destruct M1 as [I1 L1]. destruct M2 as [I2 L2]. rewrite Forall_forall in L1, L2. cbn beta in L1, L2.
           repeat split.
           ++ destruct A1 as [-> | A1]; [|right; auto]. destruct (mn <? cmin); [right; auto|now left].
           ++ destruct (Z.ltb_spec mn cmin); lia.
           ++ intros x X. destruct (CASES x X) as [X1 | X1]; [|auto]. specialize (L1 x X1). cbn in L1. destruct (Z.ltb_spec mn cmin); lia.
           ++ destruct B1 as [-> | B1]; [|right; auto]. destruct (cmax <? mx); [right; auto|now left].
           ++ destruct (Z.ltb_spec cmax mx); lia.
           ++ intros x X. destruct (CASES x X) as [X1 | X1]; [|auto]. specialize (L2 x X1). cbn in L2. destruct (Z.ltb_spec cmax mx); lia.
        -- destruct (draw_segments names g ld st' _ _ l) as [[? ?]| | | |]; cbn [ok_or_ub] in IH2; try (exfalso; exact IH2); exact I.
        -- intros j r [-> | J1] J2 J3.
           ++ exfalso. rewrite NI in J2. replace r with rows in J3 by congruence. apply NEQ. destruct M1 as [I1 _]. destruct M2 as [I2 _]. now apply J3.
           ++ rewrite (IH3 j r J1 J2 J3). reflexivity.
    + rewrite E. cbn [bind].
      destruct (IH st' cmin cmax SV') as (IH1 & IH2 & IH3).
      assert (TAIL : forall x, sample_of segs l x <-> sample_of segs (i :: l) x).
      { intros x. split; intros (j & r & J1 & J2 & J3).
        - exists j, r. repeat split; [now right|exact J2|exact J3].
        - destruct J1 as [-> | J1]; [congruence|]. now exists j, r. }
      split; [|split].
      * intros NC. destruct (IH1 ltac:(intros j r J; apply NC; now right)) as (st2 & c1 & c2 & ds & -> & SV2 & F2 & A1 & A2 & A3 & B1 & B2 & B3).
        cbn [bind]. exists st2, c1, c2, (None :: ds). split; [reflexivity|]. split; [exact SV2|].
        split; [constructor; [rewrite NI; exact I|exact F2]|].
        repeat split.
        -- destruct A1 as [A1 | A1]; [now left|right; now apply TAIL].
        -- exact A2.
        -- intros x X. apply A3. now apply TAIL.
        -- destruct B1 as [B1 | B1]; [now left|right; now apply TAIL].
        -- exact B2.
        -- intros x X. apply B3. now apply TAIL.
      * destruct (draw_segments names g ld st' _ _ l) as [[? ?]| | | |]; cbn [ok_or_ub] in IH2; try (exfalso; exact IH2); exact I.
      * intros j r [-> | J1] J2 J3; [congruence|]. now rewrite (IH3 j r J1 J2 J3).
Qed.

(** * The whole image *)
(** Sample at line [i] from the north and column [j] from the west. *)
Definition image_sample (g : geometry) (w : windows) (segs : segments) (i j : Z) : Z :=
  nth (Z.to_nat j) (orient (g_swapX g) (phys_row (g_seglines g) (g_columns g) segs (image_rows g w - 1 - i))) 0.
Lemma phys_row_in names ld g segs r : product names ld g segs -> 0 <= r ->
  Z.of_nat (List.length (phys_row (g_seglines g) (g_columns g) segs r)) = g_columns g /\
  forall x, In x (phys_row (g_seglines g) (g_columns g) segs r) ->
    match nth (Z.to_nat (r / g_seglines g)) segs None with Some rows => In x (List.concat rows) | None => x = 0 end.
Proof.
  intros (HL & HC & HN & HO & HV) R. unfold phys_row. assert (K := HO (r / g_seglines g) ltac:(apply Z.div_pos; lia)).
  destruct (nth (Z.to_nat (r / g_seglines g)) segs None) as [rows|].
  - destruct K as (f & _ & _ & LR & FR). assert (B := Z.mod_pos_bound r (g_seglines g) HL).
    assert (I : In (nth (Z.to_nat (r mod g_seglines g)) rows []) rows) by (apply nth_In; lia).
    split; [rewrite Forall_forall in FR; now apply FR|]. intros x X. apply in_concat. eauto.
  - unfold zero_row. split; [rewrite repeat_length; lia|]. intros x X. now apply repeat_spec in X.
Qed.
Lemma orient_length b (r : row) : List.length (orient b r) = List.length r.
Proof. destruct b; [apply rev_length|reflexivity]. Qed.
Lemma orient_In b x (r : row) : In x (orient b r) -> In x r.
Proof. destruct b; [apply in_rev|auto]. Qed.
Lemma line_ok names ld g w segs st line : product names ld g segs -> served names ld st -> image_rows g w < 2 ^ 32 -> 0 <= line < image_rows g w ->
  exists st', served names ld st' /\
    line_read names g w ld st line = (st', Ok (orient (g_swapX g) (phys_row (g_seglines g) (g_columns g) segs (image_rows g w - 1 - line)))).
Proof.
  intros PR SV H32 HL. destruct (served_history _ _ _ SV) as (h & E & RO & LD). destruct PR as (L & C & N & HO & HV).
  assert (P := DataAccessScan.placement names g w ld segs h line RO LD L ltac:(lia) H32 HL HO). rewrite <- E in P.
  exists (fst (line_read names g w ld st line)). split; [|now rewrite <- P, <- surjective_pairing].
  unfold line_read. replace (g_seglines g =? 0) with false by lia.
  assert (B : 0 <= phys_line g w line / g_seglines g).
  { apply Z.div_pos; [|lia]. unfold phys_line, wrap64. destruct (g_hrv g); apply Z.mod_pos_bound; lia. }
  assert (SV' := served_step names ld st _ SV B). destruct (segment names ld st _) as [st' d]. exact SV'.
Qed.

Lemma draw_composite_ok names ld g w segs cmin cmax : product names ld g segs -> g_hrv g = false -> g_columns g = 3712 ->
  (forall i j, 0 <= i < 3712 -> 0 <= j < 3712 -> cmin <= image_sample g w segs i j <= cmax) -> 0 <= cmin < cmax -> cmax <= 65535 ->
  forall l st, served names ld st -> (forall y, In y l -> (y < 24)%nat) ->
  draw_composite names g w ld st cmin cmax l = Ok (map (fun y => map (fun x => tone_got cmin cmax (image_sample g w segs (Z.of_nat y * 3712 / 24) (Z.of_nat x * 3712 / 50))) (seq 0 50)) l).
Proof.
  intros PR HV HC HI HM HX. assert (IR : image_rows g w = 3712) by (unfold image_rows; now rewrite HV).
  induction l as [|y l IH]; intros st SV HY; [reflexivity|]. cbn [draw_composite map]. unfold comp_size. rewrite HV.
  assert (Y := step_lt 24 (Z.of_nat y) 3712 ltac:(lia) ltac:(specialize (HY y (or_introl eq_refl)); lia)).
  destruct (line_ok names ld g w segs st (Z.of_nat y * 3712 / 24) PR SV ltac:(lia) ltac:(lia)) as (st' & SV' & ->).
  cbn [bind]. destruct (phys_row_in names ld g segs (image_rows g w - 1 - Z.of_nat y * 3712 / 24) PR ltac:(lia)) as [LR _].
  rewrite orient_length. replace (3712 <? _) with false by lia. cbv zeta.
  replace (Z.to_nat 3712 - _)%nat with 0%nat by lia. cbn [repeat]. rewrite app_nil_r.
  rewrite (collect_ok _ (fun x => tone_got cmin cmax (image_sample g w segs (Z.of_nat y * 3712 / 24) (Z.of_nat x * 3712 / 50)))).
  - cbn [bind]. rewrite IH by (auto; intros; apply HY; now right). reflexivity.
  - intros x X. apply in_seq in X. assert (X' := step_lt 50 (Z.of_nat x) 3712 ltac:(lia) ltac:(lia)).
    specialize (HI _ _ Y X'). unfold image_sample in *. apply shade_in; lia.
Qed.
Lemma draw_composite_UB names ld g w segs cmin cmax : product names ld g segs -> image_rows g w < 2 ^ 32 -> g_columns g <= comp_size g ->
  0 < cmin <= 65535 -> cmin <= cmax <= 65535 ->
  forall l st y, served names ld st -> In y l ->
  (forall z, In z l -> (z <= y)%nat -> Z.of_nat z * comp_size g / 24 < image_rows g w) ->
  StronglySorted lt l ->
  (nth (Z.to_nat ((image_rows g w - 1 - Z.of_nat y * comp_size g / 24) / g_seglines g)) segs None = None \/ g_columns g <= 49 * comp_size g / 50) ->
  draw_composite names g w ld st cmin cmax l = UB.
Proof.
  intros PR H32 HC HM HX. assert (CP : 0 < comp_size g) by (unfold comp_size; destruct (g_hrv g); lia).
  induction l as [|z l IH]; intros st y SV I HZ SS BAD; [destruct I|]. destruct I as [-> | I].
  - cbn [draw_composite]. assert (Y : 0 <= Z.of_nat y * comp_size g / 24 < image_rows g w) by (split; [apply Z.div_pos; lia|apply HZ; [now left|lia]]).
    destruct (line_ok names ld g w segs st _ PR SV H32 Y) as (st' & SV' & ->). cbn [bind].
    destruct (phys_row_in names ld g segs (image_rows g w - 1 - Z.of_nat y * comp_size g / 24) PR ltac:(lia)) as [LR IN].
    rewrite orient_length. replace (comp_size g <? _) with false by lia. cbv zeta.
    destruct BAD as [MISS | SHORT].
    + rewrite MISS in IN. rewrite (collect_UB _ _ 0%nat); [reflexivity|intros; apply shade_either|now left|].
      change (Z.of_nat 0 * comp_size g / 50) with 0. rewrite app_nth1 by (rewrite orient_length; destruct PR as (_ & P & _); lia).
      rewrite (IN (nth (Z.to_nat 0) _ 0)); [now apply shade_UB|]. apply (orient_In (g_swapX g)). apply nth_In. rewrite orient_length. destruct PR as (_ & P & _); lia.
    + rewrite (collect_UB _ _ 49%nat); [reflexivity|intros; apply shade_either|apply in_seq; lia|].
      change (Z.of_nat 49) with 49. rewrite app_nth2 by (rewrite orient_length; lia). rewrite nth_repeat. now apply shade_UB.
  - cbn [draw_composite]. apply StronglySorted_inv in SS as [SS FZ]. rewrite Forall_forall in FZ. assert (ZY := FZ y I).
    assert (Y : 0 <= Z.of_nat z * comp_size g / 24 < image_rows g w) by (split; [apply Z.div_pos; lia|apply HZ; [now left|lia]]).
    destruct (line_ok names ld g w segs st _ PR SV H32 Y) as (st' & SV' & ->). cbn [bind].
    destruct (phys_row_in names ld g segs (image_rows g w - 1 - Z.of_nat z * comp_size g / 24) PR ltac:(lia)) as [LR IN].
    rewrite orient_length. replace (comp_size g <? _) with false by lia. cbv zeta.
    assert (E : ok_or_ub (collect (fun x => shade cmin cmax (nth (Z.to_nat (Z.of_nat x * comp_size g / 50)) (orient (g_swapX g) (phys_row (g_seglines g) (g_columns g) segs (image_rows g w - 1 - Z.of_nat z * comp_size g / 24)) ++ repeat 0 (Z.to_nat (comp_size g) - List.length (phys_row (g_seglines g) (g_columns g) segs (image_rows g w - 1 - Z.of_nat z * comp_size g / 24)))) 0)) (seq 0 50)))
      by (apply collect_either; intros; apply shade_either).
    destruct (collect _ _); cbn [ok_or_ub] in E; try (exfalso; exact E); cbn [bind]; [|reflexivity].
    rewrite (IH st' y); [reflexivity|exact SV'|exact I|intros; apply HZ; [now right|assumption]|exact SS|exact BAD].
Qed.

(** * The drawing *)
Lemma seq_sorted : forall n a, StronglySorted lt (seq a n).
Proof.
  induction n as [|n IH]; intros a; cbn [seq]; constructor; [apply IH|]. apply Forall_forall. intros x X. apply in_seq in X. lia.
Qed.
Lemma present_named names ld g segs i rows : product names ld g segs -> nth i segs None = Some rows -> (i < List.length names)%nat.
Proof.
  intros (_ & _ & _ & HO & _) N. specialize (HO (Z.of_nat i) ltac:(lia)). rewrite Nat2Z.id, N in HO. destruct HO as (f & R & _).
  unfold recorded in R. rewrite Nat2Z.id in R. destruct (nth_error names i) eqn:E; [|discriminate]. apply nth_error_Some. congruence.
Qed.
Definition complete (segs : segments) : Prop := Forall (fun s => exists rows, s = Some rows /\ ~ constant rows) segs.
Lemma whole_In x : forall segs : segments, In x (List.concat (whole_image segs)) <-> exists i rows, nth i segs None = Some rows /\ In x (List.concat rows).
Proof.
  induction segs as [|s segs IH]; cbn [whole_image].
  - split; [intros []|]. intros (i & r & N & _). destruct i; discriminate.
  - destruct s as [rows|].
    + rewrite concat_app, in_app_iff, IH. split.
      * intros [X | (i & r & N & X)]; [exists 0%nat, rows; now split|]. exists (S i), r. now split.
      * intros ([|i] & r & N & X); [left; cbn in N; now replace rows with r by congruence|]. right. now exists i, r.
    + rewrite IH. split.
      * intros (i & r & N & X). exists (S i), r. now split.
      * intros ([|i] & r & N & X); [discriminate|]. now exists i, r.
Qed.

(** C154, where the program draws: a complete image of 3712 by 3712 samples whose
    segments are not constant. *)
Theorem C154_drawn_partial : forall names ld g w segs,
  product names ld g segs -> g_hrv g = false -> g_columns g = 3712 ->
  g_seglines g * Z.of_nat (List.length segs) = 3712 -> List.length names = List.length segs -> complete segs ->
  exists ds comp mn mx, do_dump names g w ld = Ok (ds, comp) /\
    Forall2 (drawn g) segs ds /\
    smallest mn (List.concat (whole_image segs)) /\ largest mx (List.concat (whole_image segs)) /\
    pictures (tone_got mn mx) (image_sample g w segs) 24 50 3712 3712 comp.
Proof.
  intros names ld g w segs PR HV HC HS HN CO. unfold do_dump.
  assert (CO' : forall i, (i < List.length segs)%nat -> exists rows, nth i segs None = Some rows /\ ~ constant rows).
  { intros i I. unfold complete in CO. rewrite Forall_forall in CO. apply CO. now apply nth_In. }
  assert (IN : forall x, sample_of segs (seq 0 (List.length names)) x <-> In x (List.concat (whole_image segs))).
  { intros x. rewrite whole_In. split.
    - intros (i & r & _ & N & X). now exists i, r.
    - intros (i & r & N & X). exists i, r. split; [|now split]. apply in_seq. assert (P := present_named _ _ _ _ _ _ PR N). lia. }
  destruct (draw_segments_ok names ld g segs PR (seq 0 (List.length names)) da_init 65535 0 (served_init _ _)) as (OK & _ & _).
  destruct OK as (st & mn & mx & ds & -> & SV & F2 & A1 & A2 & A3 & B1 & B2 & B3).
  { intros i rows I N. apply in_seq in I. destruct (CO' i ltac:(lia)) as (r & N' & NC). rewrite N in N'. now replace rows with r by congruence. }
  cbn [bind]. assert (PR' := PR). destruct PR as (HL & _ & HNP & HO & HR).
  assert (SEG0 : (0 < List.length segs)%nat) by nia.
  destruct (CO' 0%nat SEG0) as (rows0 & N0 & NC0).
  assert (V : forall x, In x (List.concat (whole_image segs)) -> 0 <= x <= 65535).
  { intros x X. apply whole_In in X as (i & r & N & X). specialize (HR i r N). rewrite Forall_forall in HR. now apply HR. }
  assert (NE : exists x, In x (List.concat rows0)).
  { assert (K := HO 0 ltac:(lia)). change (Z.to_nat 0) with 0%nat in K. rewrite N0 in K. destruct K as (f & _ & _ & LR & FR). exists (sample rows0 0 0). apply (sample_in (g_columns g)); [exact FR|lia|lia]. }
  destruct NE as (x0 & X0). assert (W0 : In x0 (List.concat (whole_image segs))) by (apply whole_In; eauto).
  assert (S1 : smallest mn (List.concat (whole_image segs))).
  { split; [|apply Forall_forall; intros x X; apply A3; now apply IN]. destruct A1 as [-> | A1]; [|now apply IN].
    assert (V0 := V x0 W0). assert (A0 := A3 x0 ltac:(now apply IN)). now replace 65535 with x0 by lia. }
  assert (S2 : largest mx (List.concat (whole_image segs))).
  { split; [|apply Forall_forall; intros x X; apply B3; now apply IN]. destruct B1 as [-> | B1]; [|now apply IN].
    assert (V0 := V x0 W0). assert (B0 := B3 x0 ltac:(now apply IN)). now replace 0 with x0 by lia. }
  assert (LT : mn < mx).
  { destruct (Z.lt_ge_cases mn mx); [assumption|]. exfalso. apply NC0. intros x y X Y.
    assert (X' : In x (List.concat (whole_image segs))) by (apply whole_In; eauto). assert (Y' : In y (List.concat (whole_image segs))) by (apply whole_In; eauto).
    destruct S1 as [_ S1]. destruct S2 as [_ S2]. rewrite Forall_forall in S1, S2.
    pose proof (S1 _ X'). pose proof (S1 _ Y'). pose proof (S2 _ X'). pose proof (S2 _ Y'). cbn in *. lia. }
  assert (R : 0 <= mn /\ mx <= 65535) by (destruct S1 as [S1 _]; destruct S2 as [S2 _]; pose proof (V _ S1); pose proof (V _ S2); lia).
  assert (IR : image_rows g w = 3712) by (unfold image_rows; now rewrite HV).
  rewrite (draw_composite_ok names ld g w segs mn mx PR' HV HC); [| |lia|lia|exact SV|intros y Y; apply in_seq in Y; lia].
  - cbn [bind]. eexists _, _, mn, mx. split; [reflexivity|]. split; [|split; [exact S1|split; [exact S2|]]].
    + rewrite HN in F2. clear - F2. assert (G : forall (l : list nat) ds, Forall2 (fun i d => drawn g (nth i segs None) d) l ds -> Forall2 (drawn g) (map (fun i => nth i segs None) l) ds).
      { induction 1; constructor; assumption. }
      apply G in F2. replace (map (fun i => nth i segs None) (seq 0 (List.length segs))) with segs in F2; [exact F2|].
      apply nth_ext with (d := None) (d' := None); [now rewrite map_length, seq_length|]. intros n N. now rewrite map_seq_nth.
    + split; [now rewrite map_length, seq_length|]. intros y Y. rewrite map_seq_nth by exact Y.
      split; [now rewrite map_length, seq_length|]. intros x X. now rewrite map_seq_nth by exact X.
  - intros i j I J. assert (IM : In (image_sample g w segs i j) (List.concat (whole_image segs))).
    { unfold image_sample. rewrite IR. destruct (phys_row_in names ld g segs (3712 - 1 - i) PR' ltac:(lia)) as [LR INR].
      assert (Q : (Z.to_nat ((3712 - 1 - i) / g_seglines g) < List.length segs)%nat).
      { assert ((3712 - 1 - i) / g_seglines g < Z.of_nat (List.length segs)) by (apply Z.div_lt_upper_bound; lia).
        assert (0 <= (3712 - 1 - i) / g_seglines g) by (apply Z.div_pos; lia). lia. }
      destruct (CO' _ Q) as (r & N & _). rewrite N in INR. apply whole_In. eexists _, r. split; [exact N|]. apply INR.
      apply (orient_In (g_swapX g)). apply nth_In. rewrite orient_length. lia. }
    destruct S1 as [_ S1]. destruct S2 as [_ S2]. rewrite Forall_forall in S1, S2. pose proof (S1 _ IM). pose proof (S2 _ IM). cbn in *. lia.
Qed.
Print Assumptions C154_drawn_partial.

(** The brightest samples should be drawn with the last tone: wherever one is drawn,
    a NUL is printed. *)
Theorem C154_refuted_brightest : forall names ld g w segs i rows y x,
  product names ld g segs -> g_hrv g = false -> g_columns g = 3712 ->
  g_seglines g * Z.of_nat (List.length segs) = 3712 -> List.length names = List.length segs -> complete segs ->
  nth i segs None = Some rows -> (y < 3)%nat -> (x < 50)%nat ->
  largest (sample rows (Z.of_nat y * g_seglines g / 3) (Z.of_nat x * 3712 / 50)) (List.concat rows) ->
  exists ds comp mn mx pic, do_dump names g w ld = Ok (ds, comp) /\ nth i ds None = Some (mn, mx, pic) /\
    nth x (nth y pic []) 0 = 0 /\ tone mn mx mx = 35.
Proof.
  intros names ld g w segs i rows y x PR HV HC HS HN CO N Y X LA.
  destruct (C154_drawn_partial names ld g w segs PR HV HC HS HN CO) as (ds & comp & _ & _ & E & F2 & _).
  assert (G : drawn g (nth i segs None) (nth i ds None)).
  { clear - F2 N. revert i N. induction F2 as [|s d segs ds D F2 IH]; intros [|i] N; cbn [nth] in *; try discriminate; auto. }
  rewrite N in G. destruct (nth i ds None) as [[[mn mx] pic]|] eqn:ND; cbn [drawn] in G; [|exfalso; exact G]. destruct G as (S1 & S2 & PL & PIC).
  exists ds, comp, mn, mx, pic. split; [exact E|]. split; [exact ND|]. destruct (PIC y Y) as [_ PX]. rewrite (PX x X).
  change (Z.of_nat 3) with 3. change (Z.of_nat 50) with 50. rewrite HC.
  replace (sample rows _ _) with mx by (eapply largest_unique; eassumption). split; [unfold tone_got; now rewrite Z.eqb_refl|].
  unfold tone. assert (mn < mx).
  { unfold complete in CO. rewrite Forall_forall in CO. destruct (CO (Some rows)) as (r & ER & NC).
    - rewrite <- N. apply nth_In. destruct (Nat.lt_ge_cases i (List.length segs)); [assumption|]. rewrite nth_overflow in N by assumption. discriminate.
    - replace r with rows in NC by congruence. destruct (Z.lt_ge_cases mn mx); [assumption|]. exfalso. apply NC. intros a b A B.
      destruct S1 as [_ S1]. destruct S2 as [_ S2]. rewrite Forall_forall in S1, S2.
      pose proof (S1 _ A). pose proof (S1 _ B). pose proof (S2 _ A). pose proof (S2 _ B). cbn in *. lia. }
  rewrite Z.div_mul by lia. reflexivity.
Qed.
Print Assumptions C154_refuted_brightest.

(** A segment whose samples are all the same divides by zero. *)
Theorem C154_refuted_constant : forall names ld g w segs i rows,
  product names ld g segs -> nth i segs None = Some rows -> constant rows -> do_dump names g w ld = UB.
Proof.
  intros names ld g w segs i rows PR N C. unfold do_dump.
  destruct (draw_segments_ok names ld g segs PR (seq 0 (List.length names)) da_init 65535 0 (served_init _ _)) as (_ & _ & BAD).
  rewrite (BAD i rows); [reflexivity| |exact N|exact C]. apply in_seq. assert (P := present_named _ _ _ _ _ _ PR N). lia.
Qed.
Print Assumptions C154_refuted_constant.

Lemma dump_UB names ld g w segs i rows : product names ld g segs -> nth i segs None = Some rows ->
  (forall k r x, nth k segs None = Some r -> In x (List.concat r) -> 0 < x) ->
  (forall st cmin cmax, served names ld st -> 0 < cmin <= 65535 -> cmin <= cmax <= 65535 -> draw_composite names g w ld st cmin cmax (seq 0 24) = UB) ->
  do_dump names g w ld = UB.
Proof.
  intros PR N POS BAD. unfold do_dump.
  destruct (draw_segments_ok names ld g segs PR (seq 0 (List.length names)) da_init 65535 0 (served_init _ _)) as (OK & EI & CO).
  destruct (draw_segments names g ld da_init 65535 0 _) as [r| | | |] eqn:E; cbn [ok_or_ub] in EI; try (exfalso; exact EI); [|reflexivity].
  destruct OK as (st & mn & mx & ds & E' & SV & _ & A1 & A2 & A3 & B1 & B2 & B3); [|rewrite E'; cbn [bind]; rewrite BAD; [reflexivity|exact SV| |]].
  - intros j r' J NJ C. specialize (CO j r' J NJ C). discriminate.
  - split; [|lia]. destruct A1 as [-> | (j & r' & _ & NJ & X)]; [lia|eauto].
  - assert (I : In i (seq 0 (List.length names))) by (apply in_seq; assert (P := present_named _ _ _ _ _ _ PR N); lia).
    assert (PR' := PR). destruct PR' as (HL & HC & _ & HO & HR).
    assert (K := HO (Z.of_nat i) ltac:(lia)). rewrite Nat2Z.id, N in K. destruct K as (f & _ & _ & LR & FR).
    assert (SI : sample_of segs (seq 0 (List.length names)) (sample rows 0 0)) by (exists i, rows; split; [exact I|split; [exact N|]]; apply (sample_in (g_columns g)); [exact FR|lia|lia]).
    specialize (A3 _ SI). specialize (B3 _ SI). split; [lia|]. destruct B1 as [-> | (j & r' & _ & NJ & X)]; [lia|].
    specialize (HR j r' NJ). rewrite Forall_forall in HR. now apply HR.
Qed.

(** A product with a segment missing, when a line of the drawing falls in it and no
    sample is 0: the zeros given for it are below the smallest sample. *)
Theorem C154_refuted_missing : forall names ld g w segs i rows y,
  product names ld g segs -> g_hrv g = false -> g_columns g <= 3712 ->
  nth i segs None = Some rows -> (forall k r x, nth k segs None = Some r -> In x (List.concat r) -> 0 < x) ->
  (y < 24)%nat -> nth (Z.to_nat ((3711 - Z.of_nat y * 3712 / 24) / g_seglines g)) segs None = None ->
  do_dump names g w ld = UB.
Proof.
  intros names ld g w segs i rows y PR HV HC N POS Y MISS. apply (dump_UB names ld g w segs i rows PR N POS). intros st cmin cmax SV M1 M2.
  assert (IR : image_rows g w = 3712) by (unfold image_rows; now rewrite HV). assert (CS : comp_size g = 3712) by (unfold comp_size; now rewrite HV).
  apply (draw_composite_UB names ld g w segs cmin cmax PR) with (y := y); rewrite ?IR, ?CS; try assumption; try (lazymatch goal with |- forall _, _ => fail | _ => lia end); try apply seq_sorted.
  - apply in_seq. lia.
  - intros z I _. apply in_seq in I. rewrite ?IR, ?CS. apply step_lt; lia.
  - now left.
Qed.
Print Assumptions C154_refuted_missing.

(** High resolution: whatever the windows, when no sample is 0. *)
Theorem C154_refuted_hrv : forall names ld g w segs i rows,
  product names ld g segs -> g_hrv g = true -> g_columns g <= 10913 -> 1 <= MaxLine w < 2 ^ 32 ->
  nth i segs None = Some rows -> (forall k r x, nth k segs None = Some r -> In x (List.concat r) -> 0 < x) ->
  do_dump names g w ld = UB.
Proof.
  intros names ld g w segs i rows PR HV HC MX N POS. apply (dump_UB names ld g w segs i rows PR N POS). intros st cmin cmax SV M1 M2.
  assert (IR : image_rows g w = MaxLine w) by (unfold image_rows; now rewrite HV). assert (CS : comp_size g = 11136) by (unfold comp_size; now rewrite HV).
  apply (draw_composite_UB names ld g w segs cmin cmax PR) with (y := 0%nat); rewrite ?IR, ?CS; try assumption; try (lazymatch goal with |- forall _, _ => fail | |- _ \/ _ => fail | _ => lia end); try apply seq_sorted; [now left| |].
  - intros z I L. replace z with 0%nat by lia. rewrite ?IR, ?CS. change (Z.of_nat 0 * 11136 / 24) with 0. lia.
  - right. change (49 * 11136 / 50) with 10913. lia.
Qed.
Print Assumptions C154_refuted_hrv.

(** ** Cases *)
(** Eight segments of 464 lines; the samples of a line go from [1] to [n]. *)
Definition ex_seg (n : nat) : list row := repeat (map Z.of_nat (seq 1 n)) (Z.to_nat 464).
Definition ex_geo (n : nat) (hrv : bool) : geometry := mk_geo 464 (Z.of_nat n) 3712 (Z.of_nat n * 464) hrv false false.
Lemma ex_In n x : In x (List.concat (ex_seg n)) -> 1 <= x <= Z.of_nat n.
Proof.
  intros H. apply in_concat in H as (r & R & X). apply repeat_spec in R as ->. apply in_map_iff in X as (i & <- & I). apply in_seq in I. lia.
Qed.
Lemma ex_product n (names : list fname) segs hrv : (0 < n)%nat -> Z.of_nat n <= 65535 ->
  List.length names = List.length segs ->
  (forall k, (k < List.length segs)%nat -> match nth k segs None with Some rows => rows = ex_seg n /\ nth k names [] = codes "f" | None => nth k names [] = [] end) ->
  product names (fun _ => Ok (List.concat (ex_seg n))) (ex_geo n hrv) segs.
Proof.
  intros N0 N1 L H. unfold product, ex_geo. cbn [g_seglines g_columns g_npixperseg]. split; [lia|]. split; [lia|]. split; [reflexivity|]. split.
  - intros k K. destruct (Nat.lt_ge_cases (Z.to_nat k) (List.length segs)) as [I | O].
    + specialize (H (Z.to_nat k) I). destruct (nth (Z.to_nat k) segs None) as [rows|].
      * destruct H as [-> H]. exists (codes "f"). split; [|split; [reflexivity|split]].
        -- unfold recorded. rewrite (nth_error_nth' names []) by lia. rewrite H. cbn [codes]. now replace (k <? 0) with false by lia.
        -- unfold ex_seg. rewrite repeat_length. reflexivity.
        -- apply Forall_forall. intros r R. apply repeat_spec in R as ->. now rewrite map_length, seq_length.
      * unfold recorded. rewrite (nth_error_nth' names []) by lia. now rewrite H.
    + rewrite nth_overflow by exact O. unfold recorded. rewrite (proj2 (nth_error_None names (Z.to_nat k))) by lia. reflexivity.
  - intros k rows NK. destruct (Nat.lt_ge_cases k (List.length segs)) as [I | O]; [|rewrite nth_overflow in NK by exact O; discriminate].
    specialize (H k I). rewrite NK in H. destruct H as [-> _]. apply Forall_forall. intros x X. apply ex_In in X. lia.
Qed.
Lemma ex_at n i j : (i < Z.to_nat 464)%nat -> (j < n)%nat -> nth j (nth i (ex_seg n) []) 0 = Z.of_nat (S j).
Proof.
  intros I J. unfold ex_seg. rewrite nth_repeat_lt by exact I. rewrite nth_indep with (d' := Z.of_nat 0) by (now rewrite map_length, seq_length).
  rewrite map_nth, seq_nth by exact J. reflexivity.
Qed.
Lemma ex_both n i : (i < n)%nat -> In (Z.of_nat (S i)) (List.concat (ex_seg n)).
Proof.
  intros I. apply in_concat. exists (map Z.of_nat (seq 1 n)). split.
  - unfold ex_seg. change (Z.to_nat 464) with (S (Z.to_nat 463)). now left.
  - apply in_map. apply in_seq. lia.
Qed.
Lemma ex_varied n : (1 < n)%nat -> ~ constant (ex_seg n).
Proof. intros N C. specialize (C _ _ (ex_both n 0 ltac:(lia)) (ex_both n 1 ltac:(lia))). lia. Qed.
Definition ex_full (n : nat) : segments := repeat (Some (ex_seg n)) 8.
Example C154_drawn_case : let n := Z.to_nat 3712 in let g := ex_geo n false in
  product (repeat (codes "f") 8) (fun _ => Ok (List.concat (ex_seg n))) g (ex_full n) /\ g_hrv g = false /\ g_columns g = 3712 /\
  g_seglines g * Z.of_nat (List.length (ex_full n)) = 3712 /\ List.length (repeat (codes "f") 8) = List.length (ex_full n) /\ complete (ex_full n).
Proof.
  cbv zeta. split; [|split; [reflexivity|split; [unfold ex_geo, g_columns; lia|split; [reflexivity|split; [reflexivity|]]]]].
  - apply ex_product; [lia|lia|reflexivity|]. intros k K. unfold ex_full in *. rewrite repeat_length in K. now rewrite !nth_repeat_lt by exact K.
  - unfold complete, ex_full. apply Forall_forall. intros s HS. apply repeat_spec in HS as ->. eexists. split; [reflexivity|]. apply ex_varied. lia.
Qed.
(** Tones between samples 1 and 3712. *)
Example C154_tone_case : tone_got 1 3712 (1 + 3711 * 2 / 8) = 46 /\ tone_got 1 3712 (2 + 3711 * 2 / 8) = 44 /\ tone_got 1 3712 1 = 32 /\ tone_got 1 3712 3711 = 35 /\ tone_got 1 3712 3712 = 0.
Proof. repeat split. Qed.
(** Segments whose first sample is the largest of its segment. *)
Definition ex_back (n : nat) : list row := repeat (rev (map Z.of_nat (seq 1 n))) (Z.to_nat 464).
Example C154_brightest_case n : (0 < n)%nat -> largest (sample (ex_back n) (Z.of_nat 0 * 464 / 3) (Z.of_nat 0 * 3712 / 50)) (List.concat (ex_back n)).
Proof.
  intros N. assert (E : sample (ex_back n) (Z.of_nat 0 * 464 / 3) (Z.of_nat 0 * 3712 / 50) = Z.of_nat n).
  { change (Z.of_nat 0 * 464 / 3) with 0. change (Z.of_nat 0 * 3712 / 50) with 0. unfold sample, ex_back. rewrite nth_repeat_lt by lia.
    change (Z.to_nat 0) with 0%nat. rewrite rev_nth by (rewrite map_length, seq_length; lia). rewrite map_length, seq_length.
    rewrite nth_indep with (d' := Z.of_nat 0) by (rewrite map_length, seq_length; lia). rewrite map_nth, seq_nth by lia. f_equal. lia. }
  rewrite E. split.
  - apply in_concat. exists (rev (map Z.of_nat (seq 1 n))). split.
    + unfold ex_back. change (Z.to_nat 464) with (S (Z.to_nat 463)). now left.
    + apply -> in_rev. apply in_map. apply in_seq. lia.
  - apply Forall_forall. intros x X. apply in_concat in X as (r & R & X). apply repeat_spec in R as ->. apply in_rev in X.
    apply in_map_iff in X as (i & <- & I). apply in_seq in I. lia.
Qed.
Definition ex_hole (n : nat) : segments := set_nth (ex_full n) 2 None.
Example C154_missing_case : let n := Z.to_nat 3712 in let g := ex_geo n false in
  product (set_nth (repeat (codes "f") 8) 2 []) (fun _ => Ok (List.concat (ex_seg n))) g (ex_hole n) /\ g_hrv g = false /\ g_columns g <= 3712 /\
  nth 0 (ex_hole n) None = Some (ex_seg n) /\ (forall k r x, nth k (ex_hole n) None = Some r -> In x (List.concat r) -> 0 < x) /\
  nth (Z.to_nat ((3711 - Z.of_nat 15 * 3712 / 24) / g_seglines g)) (ex_hole n) None = None.
Proof.
  cbv zeta. split; [|split; [reflexivity|split; [unfold ex_geo, g_columns; lia|split; [reflexivity|split; [|reflexivity]]]]].
  - apply ex_product; [lia|lia|reflexivity|]. intros k K. change (k < 8)%nat in K. do 8 (destruct k as [|k]; [cbn; auto|]). lia.
  - intros k r x NK X. assert (r = ex_seg (Z.to_nat 3712)).
    { do 8 (destruct k as [|k]; [cbn [ex_hole ex_full set_nth repeat nth] in NK; congruence|]). destruct k; discriminate. }
    subst r. apply ex_In in X. lia.
Qed.
Example C154_hrv_case : let n := Z.to_nat 5568 in let g := ex_geo n true in
  product (repeat (codes "f") 8) (fun _ => Ok (List.concat (ex_seg n))) g (ex_full n) /\ g_hrv g = true /\ g_columns g <= 10913 /\
  1 <= MaxLine (mk_win 2000 1 7567 6000 1000 6001 6567 11136) < 2 ^ 32 /\ nth 0 (ex_full n) None = Some (ex_seg n) /\
  (forall k r x, nth k (ex_full n) None = Some r -> In x (List.concat r) -> 0 < x).
Proof.
  cbv zeta. split; [|split; [reflexivity|split; [unfold ex_geo, g_columns; lia|split; [cbn; lia|split; [reflexivity|]]]]].
  - apply ex_product; [lia|lia|reflexivity|]. intros k K. unfold ex_full in *. rewrite repeat_length in K. now rewrite !nth_repeat_lt by exact K.
  - intros k r x NK X. destruct (Nat.lt_ge_cases k 8) as [I | O].
    + unfold ex_full in NK. rewrite nth_repeat_lt in NK by exact I. apply Some_inj in NK. subst r. apply ex_In in X. lia.
    + rewrite nth_overflow in NK by exact O. discriminate.
Qed.
(** All samples the same, or not. *)
Example C154_constant_case : constant [[7; 7]; [7; 7]] /\ ~ constant [[7; 7]; [8; 7]].
Proof. split; [intros x y X Y; cbn in X, Y; intuition congruence|]. intros C. specialize (C 7 8 ltac:(cbn; tauto) ltac:(cbn; tauto)). discriminate. Qed.
