(** C217: the texts that are taken for a time. *)
From Verif Require Import Base BaseFacts IniModel GeoModel GribModel GribProps ScanModel NcModel NcCopyProps ProxyModel ProxyProps.
Open Scope string_scope.
Open Scope list_scope.
Open Scope Z_scope.

(** ** What is asked for *)
Definition blank (c : Z) : Prop := c = 32 \/ 9 <= c <= 13.
Definition figure (c : Z) : Prop := 48 <= c <= 57.
Definition no_figure (t : str) : Prop := match t with c :: _ => ~ figure c | [] => True end.
Definition no_blank (t : str) : Prop := match t with c :: _ => ~ blank c | [] => True end.
Definition value (ds : str) : Z := fold_left (fun a c => 10 * a + (c - 48)) ds 0.
(** [t] starts with the number [v], of at most [w] characters after blanks, and [rest]
    follows it; a number goes on as far as it can. *)
Definition number_in (w : nat) (t : str) (v : Z) (rest : str) : Prop :=
  exists bl sg ds, t = bl ++ sg ++ ds ++ rest /\ Forall blank bl /\ (sg = [] \/ sg = [43] \/ sg = [45]) /\ ds <> [] /\ Forall figure ds /\
    (List.length sg + List.length ds <= w)%nat /\ ((List.length sg + List.length ds)%nat = w \/ no_figure rest) /\
    v = if list_eq_dec Z.eq_dec sg [45] then - value ds else value ds.
(** The six numbers of a time, as 2006-11-13 12:15:00, and anything after them. *)
Definition time_in (t : str) (y mo d h mi s : Z) : Prop :=
  exists t1 t2 t3 t4 t5 bl rest,
    number_in 4 t y (codes "-" ++ t1) /\ number_in 2 t1 mo (codes "-" ++ t2) /\ number_in 2 t2 d (bl ++ t3) /\ Forall blank bl /\ no_blank t3 /\
    number_in 2 t3 h (codes ":" ++ t4) /\ number_in 2 t4 mi (codes ":" ++ t5) /\ number_in 2 t5 s rest.
Definition is_time (t : str) : Prop := exists y mo d h mi s, time_in t y mo d h mi s.

(** ** The scanner *)
Lemma isspace_blank c : isspace c = true <-> blank c.
Proof. unfold isspace, blank. lia. Qed.
Lemma strskp_cut s : exists bl, s = bl ++ strskp s /\ Forall blank bl /\ no_blank (strskp s).
Proof.
  induction s as [|c s (bl & E & F & N)]; [exists []; repeat split; constructor|]. cbn [strskp]. destruct (isspace c) eqn:I.
  - exists (c :: bl). split; [cbn; congruence|]. split; [|exact N]. constructor; [now apply isspace_blank|exact F].
  - exists []. split; [reflexivity|]. split; [constructor|]. cbn. rewrite <- isspace_blank. congruence.
Qed.
Lemma strskp_drop bl s : Forall blank bl -> no_blank s -> strskp (bl ++ s) = s.
Proof.
  intros F N. induction F as [|c bl B F IH]; cbn [app].
  - destruct s as [|c s]; [reflexivity|]. cbn [strskp]. destruct (isspace c) eqn:I; [|reflexivity]. apply isspace_blank in I. contradiction.
  - cbn [strskp]. apply isspace_blank in B. now rewrite B.
Qed.
Lemma take_cut w s : exists rest, s = take_digits w s ++ rest /\ Forall figure (take_digits w s) /\ (List.length (take_digits w s) <= w)%nat /\ (List.length (take_digits w s) = w \/ no_figure rest).
Proof.
  revert s. induction w as [|w IH]; intros s; [exists s; cbn; repeat split; auto|]. destruct s as [|c s]; [exists []; cbn; repeat split; auto; lia|]. cbn [take_digits]. destruct ((48 <=? c) && (c <=? 57)) eqn:D.
  - destruct (IH s) as (rest & E & F & L & M). exists rest. cbn [app List.length]. split; [congruence|]. split; [constructor; [unfold figure; lia|exact F]|]. split; [lia|]. destruct M as [M|M]; [left; lia|auto].
  - exists (c :: s). cbn. repeat split; auto; try lia. right. unfold figure. lia.
Qed.
Lemma take_full w ds rest : Forall figure ds -> (List.length ds <= w)%nat -> List.length ds = w \/ no_figure rest -> take_digits w (ds ++ rest) = ds.
Proof.
  intros F. revert w. induction F as [|c ds B F IH]; intros w L M; cbn [app].
  - destruct w as [|w]; [now destruct rest|]. destruct M as [M|M]; [discriminate|]. destruct rest as [|c r]; [reflexivity|]. cbn in *. unfold figure in M. now replace ((48 <=? c) && (c <=? 57)) with false by lia.
  - destruct w as [|w]; [cbn in L; lia|]. cbn [take_digits]. unfold figure in B. replace ((48 <=? c) && (c <=? 57)) with true by lia. f_equal. apply IH; [cbn in L; lia|]. destruct M as [M|M]; [left; cbn in M; lia|auto].
Qed.
Lemma digits_value ds : Forall figure ds -> forall a, digits a ds = fold_left (fun a c => 10 * a + (c - 48)) ds a.
Proof.
  induction 1 as [|c ds B F IH]; intros a; [reflexivity|]. cbn [digits fold_left]. unfold figure in B. replace ((48 <=? c) && (c <=? 57)) with true by lia. rewrite IH. f_equal. lia.
Qed.
Lemma skip_take (a b : str) : skipn (List.length a) (a ++ b) = b.
Proof. now rewrite skipn_app, skipn_all, Nat.sub_diag. Qed.
Lemma scan_int_number w t v rest : scan_int w t = Some (v, rest) <-> number_in w t v rest.
Proof.
  split.
  - intros H. unfold scan_int in H. destruct (strskp_cut t) as (bl & Et & Fb & Nb). set (r := strskp t) in *.
    assert (X : exists sg, (sg = [] \/ sg = [43] \/ sg = [45]) /\ (List.length sg <= w)%nat /\ r = sg ++ skipn (List.length sg) r /\
      match take_digits (w - List.length sg) (skipn (List.length sg) r) with [] => None
      | ds => Some (if list_eq_dec Z.eq_dec sg [45] then - digits 0 ds else digits 0 ds, skipn (List.length ds) (skipn (List.length sg) r)) end = Some (v, rest)).
    { destruct w as [|w]; [cbn in H; discriminate|]. destruct r as [|c r']; [discriminate|]. destruct (Z.eqb_spec c 45) as [->|N1]; [|destruct (Z.eqb_spec c 43) as [->|N2]].
      - exists [45]. cbn [List.length skipn app]. rewrite Nat.sub_succ, Nat.sub_0_r. split; [auto|]. split; [lia|]. split; [reflexivity|]. destruct (list_eq_dec _ _ _) as [_|N]; [exact H|contradiction].
      - exists [43]. cbn [List.length skipn app]. rewrite Nat.sub_succ, Nat.sub_0_r. split; [auto|]. split; [lia|]. split; [reflexivity|]. destruct (list_eq_dec _ _ _) as [N|_]; [discriminate|exact H].
      - exists []. cbn [List.length skipn app]. rewrite Nat.sub_0_r. split; [auto|]. split; [lia|]. split; [reflexivity|]. destruct (list_eq_dec _ _ _) as [N|_]; [discriminate|exact H]. }
    destruct X as (sg & S & LS & Er & X). set (q := skipn (List.length sg) r) in *. destruct (take_cut (w - List.length sg) q) as (z & Eq & Fd & Ld & Md). set (ds := take_digits (w - List.length sg) q) in *.
    assert (N : ds <> []) by (intro N; rewrite N in X; discriminate).
    assert (Y : (if list_eq_dec Z.eq_dec sg [45] then - digits 0 ds else digits 0 ds) = v /\ skipn (List.length ds) q = rest) by (destruct ds; [contradiction|]; injection X as X1 X2; auto). clear X. destruct Y as [Y1 Y2].
    rewrite Eq in Y2. rewrite skip_take in Y2. subst z. rewrite (digits_value ds Fd 0) in Y1. exists bl, sg, ds. split; [congruence|]. repeat split; auto; [lia|]. destruct Md as [Md|Md]; [left; lia|auto].
  - intros (bl & sg & ds & -> & Fb & S & N & Fd & L & M & V). unfold scan_int. destruct ds as [|c ds]; [contradiction|]. pose proof Fd as Fd0. inversion Fd as [|? ? B _]; subst.
    assert (NB : no_blank (sg ++ (c :: ds) ++ rest)) by (destruct S as [S|[S|S]]; subst sg; cbn; unfold blank, figure in *; lia). rewrite strskp_drop by assumption.
    pose proof (digits_value _ Fd0 0) as DV. unfold figure in B.
    destruct S as [S|[S|S]]; subst sg; cbn [List.length Nat.add] in L, M; (destruct w as [|w]; [lia|]).
    + change ([] ++ (c :: ds) ++ rest) with (c :: ds ++ rest). cbv beta iota. replace (c =? 45) with false by lia. replace (c =? 43) with false by lia. cbv beta iota. change (c :: ds ++ rest) with ((c :: ds) ++ rest).
      rewrite take_full; [|assumption|cbn [List.length]; lia|destruct M; auto]. rewrite skip_take, DV. destruct (list_eq_dec _ _ _) as [Q|_]; [discriminate|reflexivity].
    + change ([43] ++ (c :: ds) ++ rest) with (43 :: (c :: ds) ++ rest). cbv beta iota. cbn [Z.eqb Pos.eqb]. cbv beta iota. rewrite take_full; [|assumption|cbn [List.length]; lia|destruct M; [left; cbn [List.length]; lia|auto]]. rewrite skip_take, DV. destruct (list_eq_dec _ _ _) as [Q|_]; [discriminate|reflexivity].
    + change ([45] ++ (c :: ds) ++ rest) with (45 :: (c :: ds) ++ rest). cbv beta iota. cbn [Z.eqb Pos.eqb]. cbv beta iota. rewrite take_full; [|assumption|cbn [List.length]; lia|destruct M; [left; cbn [List.length]; lia|auto]]. rewrite skip_take, DV. destruct (list_eq_dec _ _ _) as [_|Q]; [reflexivity|contradiction].
Qed.
Lemma scan_char_there c t r : c <> 32 -> scan_char c t = Some r <-> t = c :: r.
Proof.
  intros N. unfold scan_char. replace (c =? 32) with false by lia. destruct t as [|d t]; [split; discriminate|]. destruct (Z.eqb_spec d c) as [->|M]; split; intros H; try congruence. 
Qed.
Lemma scan_more w c f x : forall t l, scan_fields ((w, Some c) :: x :: f) t = Some l <-> exists v r r' l', l = v :: l' /\ scan_int w t = Some (v, r) /\ scan_char c r = Some r' /\ scan_fields (x :: f) r' = Some l'.
Proof.
  intros t l. change (scan_fields ((w, Some c) :: x :: f) t) with (match scan_int w t with None => None | Some (v, r) => match scan_char c r with None => None | Some r' => match scan_fields (x :: f) r' with Some l => Some (v :: l) | None => None end end end).
  split.
  - intros H. destruct (scan_int w t) as [[v r]|] eqn:E1; [|discriminate]. destruct (scan_char c r) as [r'|] eqn:E2; [|discriminate]. destruct (scan_fields (x :: f) r') as [l'|] eqn:E3; [|discriminate]. injection H as <-. exists v, r, r', l'. auto.
  - intros (v & r & r' & l' & -> & -> & -> & ->). reflexivity.
Qed.
Lemma scan_last w a t l : scan_fields [(w, a)] t = Some l <-> exists v r, l = [v] /\ scan_int w t = Some (v, r).
Proof.
  cbn [scan_fields]. split.
  - intros H. destruct (scan_int w t) as [[v r]|]; [|discriminate]. injection H as <-. eauto.
  - intros (v & r & -> & ->). reflexivity.
Qed.

(** ** C217 *)
(** Exactly the texts that start with six such numbers are read, as those numbers. *)
Theorem C217_reading t l : scan_iso t = Some l <-> exists y mo d h mi s, l = [y; mo; d; h; mi; s] /\ time_in t y mo d h mi s.
Proof.
  unfold scan_iso, iso_format. split.
  - intros H. apply scan_more in H as (y & r1 & t1 & l1 & -> & N1 & C1 & H). apply scan_more in H as (mo & r2 & t2 & l2 & -> & N2 & C2 & H). apply scan_more in H as (d & r3 & t3 & l3 & -> & N3 & C3 & H).
    apply scan_more in H as (h & r4 & t4 & l4 & -> & N4 & C4 & H). apply scan_more in H as (mi & r5 & t5 & l5 & -> & N5 & C5 & H). apply scan_last in H as (s & r6 & -> & N6).
    apply scan_char_there in C1, C2, C4, C5; try discriminate. subst r1 r2 r4 r5. change (scan_char 32 r3) with (Some (strskp r3)) in C3. injection C3 as <-. destruct (strskp_cut r3) as (bl & E & F & N). rewrite E in N3.
    apply scan_int_number in N1, N2, N3, N4, N5, N6. exists y, mo, d, h, mi, s. split; [reflexivity|]. exists t1, t2, (strskp r3), t4, t5, bl, r6. change (codes "-") with [45]. change (codes ":") with [58]. cbn [app]. repeat split; assumption.
  - intros (y & mo & d & h & mi & s & -> & t1 & t2 & t3 & t4 & t5 & bl & rest & N1 & N2 & N3 & Fb & Nb & N4 & N5 & N6).
    change (codes "-") with [45] in *. change (codes ":") with [58] in *. cbn [app] in *. apply scan_int_number in N1, N2, N3, N4, N5, N6.
    apply scan_more. exists y, (45 :: t1), t1, [mo; d; h; mi; s]. repeat split; auto. apply scan_more. exists mo, (45 :: t2), t2, [d; h; mi; s]. repeat split; auto. apply scan_more. exists d, (bl ++ t3), t3, [h; mi; s]. repeat split; auto; [change (scan_char 32 (bl ++ t3)) with (Some (strskp (bl ++ t3))); now rewrite strskp_drop|].
    apply scan_more. exists h, (58 :: t4), t4, [mi; s]. repeat split; auto. apply scan_more. exists mi, (58 :: t5), t5, [s]. repeat split; auto. apply scan_last. eauto.
Qed.
Print Assumptions C217_reading.
Lemma is_time_scan t : is_time t <-> scan_iso t <> None.
Proof.
  split.
  - intros (y & mo & d & h & mi & s & T). assert (E : scan_iso t = Some [y; mo; d; h; mi; s]) by (apply C217_reading; exists y, mo, d, h, mi, s; auto). congruence.
  - intros H. destruct (scan_iso t) as [l|] eqn:E; [|contradiction]. apply C217_reading in E as (y & mo & d & h & mi & s & _ & T). exists y, mo, d, h, mi, s. exact T.
Qed.
(** Datasets of the angle of the sun and of the day of the year are made of a source with such a time and of no
    other; the angle of the satellite does not ask. *)
Theorem C217_derived_partial same k d b m l t : k = SatZA \/ k = CosSolZA \/ k = JDay -> complete d -> d_time d = Some t -> d_bands d = b :: l -> b_md b = Some m ->
  exists p, derive same k d = (p, Some (b_block b), Done) /\ (k = SatZA \/ is_time t) \/ derive same k d = (p, None, Thrown) /\ k <> SatZA /\ ~ is_time t.
Proof.
  intros K C T B M. destruct (add_first same d C) as (p & E & D). exists p. unfold derive. rewrite E, B, M. destruct D as (_ & _ & _ & _ & DT & _). assert (p_time p = t) as -> by congruence.
  pose proof (is_time_scan t) as I. destruct K as [K|[K|K]]; subst k; [left; auto| |]; destruct (scan_iso t) as [v|]; [left|right|left|right]; (split; [reflexivity|]); try (right; apply I; discriminate); (split; [discriminate|]); intro X; now apply I in X.
Qed.
Print Assumptions C217_derived_partial.
(** A reflectance is not made without one either, and a NetCDF file is not opened. *)
Theorem C217_reflectance p ch blk : init_rasterband p ch = Some blk -> is_time (p_time p).
Proof.
  intros H. apply is_time_scan. intro N. unfold init_rasterband, base_ok in H. rewrite N in H. destruct (_ || _); [discriminate|]. destruct (ch =? 4); discriminate.
Qed.
Print Assumptions C217_reflectance.
Theorem C217_netcdf nt f x : open_nc nt f = Some x -> is_time (attr_text nt (f_attrs f) "Time" (codes "0000-00-00 00:00:00 UTC")).
Proof.
  intros H. apply is_time_scan. intro N. unfold open_nc in H. destruct (get_att _ "Satellite"); [|discriminate]. destruct (negb _); [discriminate|]. destruct (negb _); [discriminate|]. cbv zeta in H. rewrite N in H. discriminate.
Qed.
Print Assumptions C217_netcdf.
(** It need not be a date: any numbers of two digits do. *)
Theorem C217_refuted_date same k d b m l y mo dy h mi s r : k = CosSolZA \/ k = JDay -> complete d -> 0 <= y <= 9999 -> two mo -> two dy -> two h -> two mi -> two s ->
  d_time d = Some (iso_text y mo dy h mi s ++ 32 :: r) -> d_bands d = b :: l -> b_md b = Some m -> exists p, derive same k d = (p, Some (b_block b), Done).
Proof.
  intros K C Y MO DY H MI S T B M. destruct (C217_derived_partial same k d b m l _ (or_intror K) C T B M) as (p & [[E _]|(_ & _ & N)]); [eauto|]. exfalso. apply N, is_time_scan. rewrite scan_iso_text by assumption. discriminate.
Qed.
Print Assumptions C217_refuted_date.
Definition dated (t : string) : ds := mk_ds 1 (Some 7) (Some [0; 3]) (Some (codes t)) (Some 5) true 10 20 [mk_band (Some (codes "1")) (Some 5) true true (10, 1)].
Example C217_case : complete (dated "2006-11-13 12:15:00 UTC") /\ (exists p, derive Z.eqb JDay (dated "2006-11-13 12:15:00 UTC") = (p, Some (10, 1), Done)) /\
  (exists p, derive Z.eqb JDay (dated "2006-99-99 99:99:99 UTC") = (p, Some (10, 1), Done)) /\ (exists p, derive Z.eqb JDay (dated "2006-11-13T12:15:00") = (p, None, Thrown)) /\
  time_in (codes "2006-11-13 12:15:00 UTC") 2006 11 13 12 15 0 /\ ~ is_time (codes "2006-11-13T12:15:00").
Proof.
  split; [unfold complete; cbn; repeat split; discriminate|]. split; [eexists; reflexivity|]. split; [eexists; reflexivity|]. split; [eexists; reflexivity|]. split.
  - assert (E : scan_iso (codes "2006-11-13 12:15:00 UTC") = Some [2006; 11; 13; 12; 15; 0]) by reflexivity. apply C217_reading in E as (y & mo & d & h & mi & s & E & T). injection E as <- <- <- <- <- <-. exact T.
  - intros I. apply is_time_scan in I. apply I. reflexivity.
Qed.
