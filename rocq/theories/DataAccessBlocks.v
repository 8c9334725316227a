From Verif Require Import BaseFacts MachineModel HeaderModel HeaderSpec HeaderProofs
  DataAccessModel DataAccessSpec DataAccessProofs DataAccessScan.
From Coq Require Import Permutation.

(** * C08: scanning *)
Lemma wf_recs_any rs : forall c, wf_recs None rs = true -> wf_recs c rs = true.
Proof.
  induction rs as [|r rs IH]; intros c H; [reflexivity|].
  cbn [wf_recs] in *. apply andb_prop in H as [H1 H2]. apply andb_true_intro.
  destruct r; cbn [wf_rec next_lines] in *; auto. discriminate.
Qed.
Lemma wf_header_any c ft dfl rs : wf_header None ft dfl rs = true -> wf_header c ft dfl rs = true.
Proof.
  unfold wf_header. intros H. rewrite !andb_true_iff in *. destruct H as [[H1 H2] H3].
  repeat split; try tauto. apply wf_recs_any. exact H2.
Qed.

Lemma last_of_some {A} (f : rec -> option A) rs : forall b x,
  last_of f None rs = Some x -> last_of f b rs = Some x.
Proof.
  unfold last_of. induction rs as [|r rs IH]; intros b x H; cbn [fold_left] in *; [discriminate|].
  destruct (f r) as [y|]; [exact H|]. apply IH. exact H.
Qed.

Definition hd_common (hd : header) : option (Z * Z * Z * Z * bool * bool) :=
  match h_seg hd, h_image hd, h_navig hd with
  | Some s, Some i, Some n =>
      Some (si_last s, si_channel s, is_lines i, is_cols i, nv_cfac n <? 0, nv_lfac n <? 0)
  | _, _, _ => None
  end.

Definition scanned (c : Z * Z * Z * Z * bool * bool) (done : list seg_file) (names : list fname) (hd : header) : Prop :=
  (forall f, In f done -> 1 <= sf_seq f /\ nth (Z.to_nat (sf_seq f - 1)) names [] = sf_name f /\ sf_seq f <= Z.of_nat (List.length names)) /\
  (forall i, nth i names [] <> [] -> exists f, In f done /\ sf_seq f = Z.of_nat i + 1 /\ sf_name f = nth i names []) /\
  (List.length names = 0%nat \/ exists f, In f done /\ sf_seq f = Z.of_nat (List.length names)) /\
  (done = [] \/ hd_common hd = Some c).

Lemma nth_resize l n i : nth i (resize l n) [] = if (i <? n)%nat then nth i l [] else [].
Proof.
  unfold resize. destruct (Nat.ltb_spec i n) as [H|H].
  - destruct (Nat.lt_ge_cases i (List.length l)) as [Hl|Hl].
    + rewrite app_nth1 by (rewrite firstn_length; lia).
      rewrite <- (firstn_skipn n l) at 2. rewrite app_nth1 by (rewrite firstn_length; lia). reflexivity.
    + rewrite (nth_overflow l) by exact Hl.
      rewrite firstn_all2 by lia. rewrite app_nth2 by lia. apply nth_repeat.
  - apply nth_overflow. rewrite app_length, firstn_length, repeat_length. lia.
Qed.
Lemma resize_length l n : List.length (resize l n) = n.
Proof. unfold resize. rewrite app_length, firstn_length, repeat_length. lia. Qed.

Lemma scan_file_step h c done names hd f :
  scanned c done names hd -> sf_common f = Some c ->
  wf_header None (sf_type f) (sf_dfl f) (sf_recs f) = true -> sf_name f <> [] -> 1 <= sf_seq f ->
  ~ In (sf_seq f) (map sf_seq done) ->
  exists names' hd', scan_file h (names, hd) (sf_bytes f) = Ok (names', hd') /\
    scanned c (done ++ [f]) names' hd'.
Proof.
  intros (Ha & Hb & Hc & Hd) Hcom Hwf Hne Hseq Hni.
  unfold scan_file, sf_bytes. cbn [fst snd].
  rewrite header_round_trip by (apply wf_header_any; exact Hwf). cbn [bind].
  assert (Hfs : sf_seq f = match last_of report_seg None (sf_recs f) with Some s => si_seq s | None => 0 end) by reflexivity.
  unfold sf_common, sf_seg, sf_image, sf_navig in Hcom.
  destruct (last_of report_seg None (sf_recs f)) as [sg|] eqn:Esg; [|discriminate].
  destruct (last_of report_image None (sf_recs f)) as [im|] eqn:Eim; [|discriminate].
  destruct (last_of report_navig None (sf_recs f)) as [nv|] eqn:Env; [|discriminate].
  destruct (Z.eqb_spec (si_format sg) 0) as [|Hfmt]; [discriminate|].
  set (hd' := expected hd (sf_type f) (sf_dfl f) (sf_recs f)).
  assert (Hs : h_seg hd' = Some sg) by (apply last_of_some; exact Esg).
  assert (Hi : h_image hd' = Some im) by (apply last_of_some; exact Eim).
  assert (Hn : h_navig hd' = Some nv) by (apply last_of_some; exact Env).
  rewrite Hs. replace (si_format sg =? 0) with false by lia. replace (si_seq sg - 1 <? 0) with false by lia.
  set (names1 := if Z.of_nat (List.length names) <=? si_seq sg - 1 then resize names (Z.to_nat (si_seq sg - 1 + 1)) else names).
  eexists _, hd'. split; [reflexivity|].
  assert (Hlen1 : si_seq sg <= Z.of_nat (List.length names1) /\ Z.of_nat (List.length names) <= Z.of_nat (List.length names1)
     /\ (Z.of_nat (List.length names1) = si_seq sg \/ List.length names1 = List.length names)).
  { unfold names1. destruct (Z.leb_spec (Z.of_nat (List.length names)) (si_seq sg - 1)); rewrite ?resize_length; lia. }
  assert (Hnth1 : forall i, nth i names1 [] = nth i names []).
  { intros i. unfold names1. destruct (Z.leb_spec (Z.of_nat (List.length names)) (si_seq sg - 1)); [|reflexivity].
    rewrite nth_resize. destruct (Nat.ltb_spec i (Z.to_nat (si_seq sg - 1 + 1))); [reflexivity|].
    rewrite nth_overflow by lia. reflexivity. }
  assert (Hne' : forall g, In g done -> sf_seq g <> si_seq sg).
  { intros g Hg E. apply Hni. apply in_map_iff. exists g. split; [congruence|exact Hg]. }
  split; [|split; [|split]].
  - intros g Hg. rewrite set_nth_length. apply in_app_or in Hg as [Hg|[<-|[]]].
    + destruct (Ha g Hg) as (P & E & L). assert (Hng := Hne' g Hg). split; [exact P|]. split; [|lia].
      rewrite set_nth_other by lia. rewrite Hnth1. exact E.
    + rewrite Hfs. rewrite set_nth_same by lia. split; [lia|]. split; [reflexivity|lia].
  - intros i Hi'. destruct (Nat.eq_dec (Z.to_nat (si_seq sg - 1)) i) as [<-|En].
    + exists f. rewrite set_nth_same by lia. split; [apply in_or_app; right; left; reflexivity|]. split; [lia|reflexivity].
    + rewrite set_nth_other in * by exact En. rewrite Hnth1 in *.
      destruct (Hb i Hi') as (g & Hg & Hg2). exists g. split; [apply in_or_app; left; exact Hg|exact Hg2].
  - right. rewrite set_nth_length. destruct Hlen1 as (L1 & L2 & [L3|L3]).
    + exists f. split; [apply in_or_app; right; left; reflexivity|lia].
    + destruct Hc as [Hc|(g & Hg & Hg2)]; [lia|]. exists g. split; [apply in_or_app; left; exact Hg|lia].
  - right. unfold hd_common. rewrite Hs, Hi, Hn. exact Hcom.
Qed.

Lemma scan_files_spec h c : forall fs done names hd,
  scanned c done names hd ->
  Forall (fun f => sf_common f = Some c) fs ->
  Forall (fun f => wf_header None (sf_type f) (sf_dfl f) (sf_recs f) = true /\ sf_name f <> [] /\ 1 <= sf_seq f) fs ->
  NoDup (map sf_seq (done ++ fs)) ->
  exists names' hd', scan_files h (names, hd) (map sf_bytes fs) = Ok (names', hd') /\
    scanned c (done ++ fs) names' hd'.
Proof.
  induction fs as [|f fs IH]; intros done names hd I Hc Hw Hnd; cbn [map scan_files].
  - rewrite app_nil_r. eauto.
  - inversion Hc; subst. inversion Hw as [|? ? (W1 & W2 & W3) Hw']; subst.
    destruct (scan_file_step h c done names hd f) as (n1 & h1 & E & I1); auto.
    + rewrite map_app in Hnd. cbn [map] in Hnd. apply NoDup_remove_2 in Hnd. intros Hin. apply Hnd, in_or_app. auto.
    + rewrite E. cbn [bind]. destruct (IH (done ++ [f]) n1 h1) as (n2 & h2 & E2 & I2); auto.
      * rewrite <- app_assoc. exact Hnd.
      * exists n2, h2. rewrite <- app_assoc in I2. auto.
Qed.

Lemma consistent_perm fs fs' : Permutation fs fs' -> consistent fs -> consistent fs'.
Proof.
  intros Hp ((c & Hc) & Hw & Hn). split; [|split].
  - exists c. eapply Permutation_Forall; eauto.
  - eapply Permutation_Forall; eauto.
  - eapply Permutation_NoDup; [|exact Hn]. apply Permutation_map. exact Hp.
Qed.

Lemma recorded_nth names i : recorded names (Z.of_nat i) = match nth i names [] with [] => None | n => Some n end.
Proof.
  unfold recorded. rewrite Nat2Z.id. replace (Z.of_nat i <? 0) with false by lia.
  destruct (nth_error names i) as [n|] eqn:E.
  - rewrite (nth_error_nth _ _ _ E). destruct n; reflexivity.
  - apply nth_error_None in E. rewrite nth_overflow by exact E. reflexivity.
Qed.

Lemma scanned_names_of c fs names hd : fs <> [] -> Forall (fun f => sf_name f <> []) fs ->
  NoDup (map sf_seq fs) -> scanned c fs names hd -> names_of fs names.
Proof.
  intros Hne Hnm Hnd (Ha & Hb & Hc & _). rewrite Forall_forall in Hnm.
  split; [|split].
  - intros f Hf. apply (Ha f Hf).
  - destruct Hc as [Hc|Hc]; [|exact Hc]. destruct fs as [|f fs]; [contradiction|].
    destruct (Ha f (or_introl eq_refl)) as (P & _ & L). lia.
  - intros k n. split.
    + intros H. destruct (Z_lt_le_dec k 0) as [Hk|Hk].
      { unfold recorded in H. destruct (nth_error _ _) as [[|]|]; try discriminate.
        replace (k <? 0) with true in H by lia. discriminate. }
      rewrite <- (Z2Nat.id k) in H by lia. rewrite recorded_nth in H.
      destruct (nth (Z.to_nat k) names []) as [|c0 n0] eqn:E; [discriminate|]. injection H as <-.
      destruct (Hb (Z.to_nat k)) as (f & Hf & Hs & Hn); [congruence|].
      exists f. split; [exact Hf|]. split; [lia|congruence].
    + intros (f & Hf & Hs & <-). destruct (Ha f Hf) as (P & E & L).
      rewrite <- (Z2Nat.id k), recorded_nth by lia. replace (sf_seq f - 1) with k in E by lia. rewrite E.
      specialize (Hnm f Hf). destruct (sf_name f); [contradiction|reflexivity].
Qed.

Lemma scan_result h fs : consistent fs -> fs <> [] ->
  exists names last ch lines cols sx sy,
    Forall (fun f => sf_common f = Some (last, ch, lines, cols, sx, sy)) fs /\
    scan h (map sf_bytes fs) =
      Ok (names, mk_geo lines cols (wrap64 (lines * last)) (wrap64 (cols * lines)) (ch =? 12) sx sy) /\
    names_of fs names.
Proof.
  intros ((c & Hc) & Hw & Hnd) Hne. destruct c as [[[[[last ch] lines] cols] sx] sy].
  destruct (scan_files_spec h (last, ch, lines, cols, sx, sy) fs [] [] empty_header) as (names & hd & E & I); auto.
  { split; [intros f []|]. split; [|split; left; reflexivity]. intros i Hi. destruct i; cbn in Hi; congruence. }
  cbn [app] in I. exists names, last, ch, lines, cols, sx, sy.
  assert (N : names_of fs names).
  { eapply scanned_names_of; eauto. eapply Forall_impl; [|exact Hw]. cbn. tauto. }
  split; [exact Hc|]. split; [|exact N].
  unfold scan. rewrite E. cbn [bind].
  destruct names as [|n0 names].
  { destruct I as (Ha & _). destruct fs as [|f fs]; [contradiction|].
    destruct (Ha f (or_introl eq_refl)) as (P & _ & L). cbn in L. lia. }
  destruct I as (_ & _ & _ & [Hd|Hd]); [contradiction|].
  unfold scan_segment, hd_common in *.
  destruct (h_seg hd); [|discriminate]. destruct (h_image hd); [|discriminate]. destruct (h_navig hd); [|discriminate].
  injection Hd as -> -> -> -> -> ->. reflexivity.
Qed.

Lemma names_of_unique fs n1 n2 : names_of fs n1 -> names_of fs n2 -> n1 = n2.
Proof.
  intros (A1 & (f1 & F1 & L1) & R1) (A2 & (f2 & F2 & L2) & R2).
  assert (Hlen : List.length n1 = List.length n2).
  { specialize (A1 f2 F2). specialize (A2 f1 F1). lia. }
  apply nth_ext with [] []; [exact Hlen|]. intros i _.
  assert (H : forall x, recorded n1 (Z.of_nat i) = Some x <-> recorded n2 (Z.of_nat i) = Some x).
  { intros x. rewrite R1, R2. reflexivity. }
  rewrite !recorded_nth in H.
  destruct (nth i n1 []) as [|c1 x1], (nth i n2 []) as [|c2 x2]; auto.
  - destruct (H (c2 :: x2)) as [_ H']. specialize (H' eq_refl). discriminate.
  - destruct (H (c1 :: x1)) as [H' _]. specialize (H' eq_refl). discriminate.
  - destruct (H (c1 :: x1)) as [H' _]. specialize (H' eq_refl). congruence.
Qed.
Lemma names_of_perm fs fs' n : Permutation fs fs' -> names_of fs n -> names_of fs' n.
Proof.
  intros Hp (A & (f & F & L) & R).
  assert (Hin : forall f, In f fs <-> In f fs').
  { intros g. split; apply Permutation_in; [exact Hp|symmetry; exact Hp]. }
  split; [|split].
  - intros g Hg. apply A, Hin, Hg.
  - exists f. split; [apply Hin, F|exact L].
  - intros k x. rewrite R. split; intros (g & Hg & Hr); exists g; (split; [apply Hin, Hg|exact Hr]).
Qed.

Lemma scan_order_independent h h' fs fs' : consistent fs -> Permutation fs fs' ->
  scan h (map sf_bytes fs) = scan h' (map sf_bytes fs').
Proof.
  intros Hc Hp. destruct fs as [|f fs].
  { apply Permutation_nil in Hp. subst. reflexivity. }
  assert (Hne' : fs' <> []) by (intros ->; symmetry in Hp; apply Permutation_nil in Hp; discriminate).
  destruct (scan_result h (f :: fs) Hc ltac:(discriminate)) as (n & l & c & li & co & sx & sy & C1 & E1 & N1).
  destruct (scan_result h' fs' (consistent_perm _ _ Hp Hc) Hne') as (n' & l' & c' & li' & co' & sx' & sy' & C2 & E2 & N2).
  rewrite E1, E2.
  assert (n = n') as -> by (eapply names_of_unique; [eapply names_of_perm; [exact Hp|exact N1]|exact N2]).
  apply (Permutation_Forall Hp) in C1. destruct fs' as [|g fs']; [contradiction|].
  inversion C1; inversion C2; subst. congruence.
Qed.

(** * C09: raster rows *)
Lemma write_at_ok {A} (buf : list A) off xs : (off + List.length xs <= List.length buf)%nat ->
  write_at buf off xs = Ok (firstn off buf ++ xs ++ skipn (off + List.length xs) buf).
Proof. intros H. unfold write_at. replace (_ <=? _)%nat with true by lia. reflexivity. Qed.
Lemma write_at_UB {A} (buf : list A) off xs : (List.length buf < off + List.length xs)%nat ->
  write_at buf off xs = UB.
Proof. intros H. unfold write_at. replace (_ <=? _)%nat with false by lia. reflexivity. Qed.

Lemma firstn_repeat {A} (x : A) n m : firstn n (repeat x m) = repeat x (Nat.min n m).
Proof. revert m; induction n as [|n IH]; intros [|m]; cbn; try reflexivity. f_equal. apply IH. Qed.
Lemma skipn_repeat {A} (x : A) n m : skipn n (repeat x m) = repeat x (m - n).
Proof. revert m; induction n as [|n IH]; intros [|m]; cbn; try reflexivity. apply IH. Qed.

Lemma linear_block xsize buf ls row : List.length buf = xsize -> 0 <= ls ->
  read_block_linear xsize buf ls row =
  if (Z.to_nat ls + List.length row <=? xsize)%nat then Ok (placed 0 xsize (Z.to_nat ls) row) else UB.
Proof.
  intros Hb Hls. unfold read_block_linear.
  rewrite write_at_ok by (rewrite repeat_length; lia). cbn [bind firstn app Nat.add].
  rewrite repeat_length, skipn_all2, app_nil_r by lia.
  destruct (Nat.leb_spec (Z.to_nat ls + List.length row) xsize) as [H|H].
  - rewrite write_at_ok by (rewrite repeat_length; lia). unfold placed.
    rewrite firstn_repeat, skipn_repeat. do 2 f_equal; [f_equal; lia|]. do 2 f_equal; lia.
  - apply write_at_UB. rewrite repeat_length. exact H.
Qed.

Lemma fill_loop_spec : forall n pre mid post,
  List.length mid = n ->
  fill_loop (pre ++ mid ++ post) (List.length pre) n = Ok (pre ++ repeat (Fin 0) n ++ post).
Proof.
  induction n as [|n IH]; intros pre mid post Hm; cbn [fill_loop].
  - destruct mid; [reflexivity|discriminate].
  - destruct mid as [|m mid]; [discriminate|]. injection Hm as Hm.
    rewrite write_at_ok by (cbn [List.length app]; rewrite !app_length; cbn [List.length app]; lia).
    cbn [bind]. rewrite firstn_app_exact by reflexivity.
    replace (skipn (List.length pre + List.length [Fin 0]) (pre ++ (m :: mid) ++ post)) with (mid ++ post).
    + specialize (IH (pre ++ [Fin 0]) mid post Hm). rewrite app_length in IH. cbn [List.length] in IH.
      rewrite Nat.add_1_r in IH. rewrite <- !app_assoc in IH. cbn [app] in *. exact IH.
    + rewrite skipn_app, skipn_all2 by (cbn; lia). cbn [List.length app].
      replace (List.length pre + 1 - List.length pre)%nat with 1%nat by lia. reflexivity.
Qed.
Lemma fill_loop_UB : forall n buf i, (0 < n)%nat -> (List.length buf < i + n)%nat -> fill_loop buf i n = UB.
Proof.
  induction n as [|n IH]; intros buf i Hn H; [lia|]. cbn [fill_loop].
  destruct (Nat.lt_ge_cases i (List.length buf)) as [Hi|Hi].
  - rewrite write_at_ok by (cbn; lia). cbn [bind]. apply IH; [lia|].
    rewrite !app_length, firstn_length, skipn_length. cbn [List.length]. lia.
  - rewrite write_at_UB by (cbn; lia). reflexivity.
Qed.
Lemma clean_physical cal x v : nth_error cal (Z.to_nat x) = Some v -> clean v = physical cal x.
Proof.
  intros H. unfold physical. rewrite H. destruct v as [q|]; [|reflexivity]. cbn [clean].
  destruct (Z.ltb_spec q 0), (Z.ltb_spec 0 q); try lia; try reflexivity. f_equal. lia.
Qed.
Lemma cal_loop_spec cal : forall row pre mid post,
  List.length mid = List.length row -> Forall (in_table cal) row ->
  cal_loop cal (pre ++ mid ++ post) (List.length pre) row = Ok (pre ++ map (physical cal) row ++ post).
Proof.
  induction row as [|x row IH]; intros pre mid post Hm Hf; cbn [cal_loop map].
  - destruct mid; [reflexivity|discriminate].
  - destruct mid as [|m mid]; [discriminate|]. injection Hm as Hm. inversion Hf as [|? ? Hx Hf']; subst.
    unfold in_table in Hx.
    destruct (nth_error cal (Z.to_nat x)) as [v|] eqn:E; [|apply nth_error_None in E; lia].
    rewrite (clean_physical _ _ _ E).
    rewrite write_at_ok by (cbn [List.length app]; rewrite !app_length; cbn [List.length app]; lia).
    cbn [bind]. rewrite firstn_app_exact by reflexivity.
    replace (skipn (List.length pre + List.length [physical cal x]) (pre ++ (m :: mid) ++ post)) with (mid ++ post).
    + specialize (IH (pre ++ [physical cal x]) mid post Hm Hf'). rewrite app_length in IH. cbn [List.length] in IH.
      rewrite Nat.add_1_r in IH. rewrite <- !app_assoc in IH. cbn [app] in *. exact IH.
    + rewrite skipn_app, skipn_all2 by (cbn; lia). cbn [List.length app].
      replace (List.length pre + 1 - List.length pre)%nat with 1%nat by lia. reflexivity.
Qed.
Lemma cal_loop_UB cal : forall row buf i, (List.length buf < i + List.length row)%nat \/ Exists (fun x => ~ in_table cal x) row ->
  Forall (fun x => 0 <= x) row -> row <> [] ->
  cal_loop cal buf i row = UB.
Proof.
  induction row as [|x row IH]; intros buf i H Hp Hne; [contradiction|]. cbn [cal_loop].
  inversion Hp as [|? ? Hx Hp']; subst.
  destruct (nth_error cal (Z.to_nat x)) as [v|] eqn:E; [|reflexivity].
  assert (Hx' : in_table cal x).
  { assert (Hlt : (Z.to_nat x < List.length cal)%nat) by (apply nth_error_Some; congruence). unfold in_table. lia. }
  destruct (Nat.lt_ge_cases i (List.length buf)) as [Hi|Hi].
  - rewrite write_at_ok by (cbn; lia). cbn [bind]. destruct row as [|y row].
    + exfalso. destruct H as [H|H]; [cbn in H; lia|]. inversion H as [? ? Hn|? ? Hn]; subst; [contradiction|inversion Hn].
    + apply IH; [|exact Hp'|discriminate]. destruct H as [H|H].
      * left. rewrite !app_length, firstn_length, skipn_length. cbn [List.length] in *. lia.
      * right. inversion H; subst; [contradiction|assumption].
  - rewrite write_at_UB by (cbn; lia). reflexivity.
Qed.

Lemma list_split3 {A} (l : list A) a b : (a + b <= List.length l)%nat ->
  exists p m q, l = p ++ m ++ q /\ List.length p = a /\ List.length m = b /\ List.length q = (List.length l - a - b)%nat.
Proof.
  intros H. exists (firstn a l), (firstn b (skipn a l)), (skipn b (skipn a l)).
  rewrite !firstn_skipn. rewrite !skipn_length, !firstn_length, skipn_length. repeat split; lia.
Qed.

Lemma calibrated_block xsize cal buf ls row : List.length buf = xsize -> 0 <= ls ->
  (Z.to_nat ls + List.length row <= xsize)%nat -> Forall (in_table cal) row ->
  read_block_calibrated xsize cal buf ls row = Ok (placed (Fin 0) xsize (Z.to_nat ls) (map (physical cal) row)).
Proof.
  intros Hb Hls Hfit Htab. unfold read_block_calibrated. subst xsize.
  destruct (list_split3 buf _ _ Hfit) as (p & m & q & Eb & Lp & Lm & Lq).
  assert (E1 := fill_loop_spec (Z.to_nat ls) [] p (m ++ q) Lp). cbn [app List.length] in E1.
  rewrite <- Eb in E1. rewrite E1. cbn [bind].
  assert (E2 := cal_loop_spec cal row (repeat (Fin 0) (Z.to_nat ls)) m q Lm Htab). rewrite repeat_length in E2.
  rewrite E2. cbn [bind].
  assert (E3 := fill_loop_spec (List.length buf - (Z.to_nat ls + List.length row)) (repeat (Fin 0) (Z.to_nat ls) ++ map (physical cal) row) q []).
  rewrite app_length, repeat_length, map_length in E3. rewrite !app_nil_r in E3. rewrite <- !app_assoc in E3.
  rewrite E3 by lia. unfold placed. rewrite map_length. do 4 f_equal. lia.
Qed.
Lemma calibrated_block_UB xsize cal buf ls row : List.length buf = xsize -> 0 <= ls ->
  Forall (fun x => 0 <= x) row -> row <> [] ->
  (xsize < Z.to_nat ls + List.length row)%nat \/ Exists (fun x => ~ in_table cal x) row ->
  read_block_calibrated xsize cal buf ls row = UB.
Proof.
  intros Hb Hls Hp Hne H. unfold read_block_calibrated.
  destruct (Nat.le_gt_cases (Z.to_nat ls) xsize) as [Hl|Hl].
  - destruct (list_split3 buf (Z.to_nat ls) 0 ltac:(lia)) as (p & m & q & Eb & Lp & Lm & Lq).
    destruct m; [|discriminate]. cbn [app] in Eb.
    assert (E1 := fill_loop_spec (Z.to_nat ls) [] p q Lp). cbn [app List.length] in E1.
    rewrite <- Eb in E1. rewrite E1. cbn [bind].
    rewrite cal_loop_UB; [reflexivity| |exact Hp|exact Hne].
    destruct H as [H|H]; [left|right; exact H]. rewrite app_length, repeat_length. lia.
  - rewrite fill_loop_UB by lia. reflexivity.
Qed.

(** end to end *)
Lemma phys_row_length names ld seglines cols segs r : 0 < seglines -> 0 <= cols -> 0 <= r ->
  holds names ld seglines cols segs -> Z.of_nat (List.length (phys_row seglines cols segs r)) = cols.
Proof.
  intros Hs Hc Hr H. assert (0 <= r / seglines) by (apply Z.div_pos; lia).
  assert (Hm := Z.mod_pos_bound r seglines Hs).
  specialize (H (r / seglines) ltac:(assumption)). unfold phys_row.
  destruct (nth _ segs None) as [rows|].
  - destruct H as (f & _ & _ & Hl & Hf). rewrite Forall_forall in Hf. apply Hf. apply nth_In. lia.
  - unfold zero_row. rewrite repeat_length. lia.
Qed.
Lemma orient_length b r : List.length (orient b r) = List.length r.
Proof. destruct b; [apply rev_length|reflexivity]. Qed.

Lemma block_linear names g w ld segs h xsize line buf :
  requests_ok h -> (forall ld' i, In (ld', i) h -> ld' = ld) ->
  0 < g_seglines g -> 0 <= g_columns g -> image_rows g w < 2 ^ 32 -> 0 <= line < image_rows g w ->
  holds names ld (g_seglines g) (g_columns g) segs -> List.length buf = xsize ->
  0 <= line_start (g_hrv g) w line -> line_start (g_hrv g) w line + g_columns g <= Z.of_nat xsize ->
  snd (iread_block_linear names g w ld xsize (run names da_init h) 0 line buf) =
    Ok (Some (placed 0 xsize (Z.to_nat (line_start (g_hrv g) w line))
      (orient (g_swapX g) (phys_row (g_seglines g) (g_columns g) segs (image_rows g w - 1 - line))))).
Proof.
  intros Hr Hh Hs Hc H32 Hl Hholds Hb Hls Hfit. unfold iread_block_linear. cbn [Z.eqb negb].
  assert (P := placement names g w ld segs h line Hr Hh Hs Hc H32 Hl Hholds).
  destruct (line_read names g w ld (run names da_init h) line) as [st' r]. cbn [snd] in *. subst r. cbn [bind].
  assert (L := phys_row_length names ld (g_seglines g) (g_columns g) segs (image_rows g w - 1 - line) Hs Hc ltac:(lia) Hholds).
  rewrite linear_block by assumption. rewrite orient_length.
  replace (_ <=? _)%nat with true by lia. reflexivity.
Qed.
Lemma orient_Forall (P : Z -> Prop) b r : Forall P r -> Forall P (orient b r).
Proof. destruct b; [apply Forall_rev|auto]. Qed.
Lemma block_calibrated names g w ld segs h xsize cal line buf :
  requests_ok h -> (forall ld' i, In (ld', i) h -> ld' = ld) ->
  0 < g_seglines g -> 0 <= g_columns g -> image_rows g w < 2 ^ 32 -> 0 <= line < image_rows g w ->
  holds names ld (g_seglines g) (g_columns g) segs -> List.length buf = xsize ->
  0 <= line_start (g_hrv g) w line -> line_start (g_hrv g) w line + g_columns g <= Z.of_nat xsize ->
  Forall (in_table cal) (phys_row (g_seglines g) (g_columns g) segs (image_rows g w - 1 - line)) ->
  snd (iread_block_calibrated names g w ld xsize cal (run names da_init h) 0 line buf) =
    Ok (Some (placed (Fin 0) xsize (Z.to_nat (line_start (g_hrv g) w line))
      (map (physical cal) (orient (g_swapX g) (phys_row (g_seglines g) (g_columns g) segs (image_rows g w - 1 - line)))))).
Proof.
  intros Hr Hh Hs Hc H32 Hl Hholds Hb Hls Hfit Htab. unfold iread_block_calibrated. cbn [Z.eqb negb].
  assert (P := placement names g w ld segs h line Hr Hh Hs Hc H32 Hl Hholds).
  destruct (line_read names g w ld (run names da_init h) line) as [st' r]. cbn [snd] in *. subst r. cbn [bind].
  assert (L := phys_row_length names ld (g_seglines g) (g_columns g) segs (image_rows g w - 1 - line) Hs Hc ltac:(lia) Hholds).
  rewrite calibrated_block; auto using orient_Forall. rewrite orient_length. lia.
Qed.

(** * Forms used by the property file *)
Lemma placement_nonhrv names g w ld segs h line :
  requests_ok h -> (forall ld' i, In (ld', i) h -> ld' = ld) ->
  0 < g_seglines g -> 0 <= g_columns g -> g_hrv g = false -> 0 <= line < 3712 ->
  holds names ld (g_seglines g) (g_columns g) segs ->
  snd (line_read names g w ld (run names da_init h) line) =
    Ok (orient (g_swapX g) (phys_row (g_seglines g) (g_columns g) segs (3711 - line))).
Proof.
  intros Hr Hh Hs Hc Hv Hl Hholds. assert (E : image_rows g w = 3712) by (unfold image_rows; rewrite Hv; reflexivity).
  rewrite (placement names g w ld segs) by (auto; lia). rewrite E. do 3 f_equal.
Qed.
Lemma placement_hrv names g w ld segs h line :
  requests_ok h -> (forall ld' i, In (ld', i) h -> ld' = ld) ->
  0 < g_seglines g -> 0 <= g_columns g -> g_hrv g = true -> MaxLine w < 2 ^ 32 -> 0 <= line < MaxLine w ->
  holds names ld (g_seglines g) (g_columns g) segs ->
  snd (line_read names g w ld (run names da_init h) line) =
    Ok (orient (g_swapX g) (phys_row (g_seglines g) (g_columns g) segs (MaxLine w - 1 - line))).
Proof.
  intros Hr Hh Hs Hc Hv Hm Hl Hholds. assert (E : image_rows g w = MaxLine w) by (unfold image_rows; rewrite Hv; reflexivity).
  rewrite (placement names g w ld segs) by (auto; lia). rewrite E. reflexivity.
Qed.
Lemma whole_image_nonhrv names g w ld segs h :
  requests_ok h -> (forall ld' i, In (ld', i) h -> ld' = ld) ->
  0 < g_seglines g -> 0 <= g_columns g -> g_hrv g = false ->
  holds names ld (g_seglines g) (g_columns g) segs ->
  Forall (fun s => exists rows, s = Some rows /\ Z.of_nat (List.length rows) = g_seglines g) segs ->
  g_seglines g * Z.of_nat (List.length segs) = 3712 ->
  snd (read_lines names g w ld (run names da_init h) (range 0 3712)) =
    map (fun r => Ok (orient (g_swapX g) r)) (rev (whole_image segs)).
Proof.
  intros Hr Hh Hs Hc Hv Hholds Hall Ht. assert (E : image_rows g w = 3712) by (unfold image_rows; rewrite Hv; reflexivity).
  rewrite <- E at 1. apply whole_image_read; auto; lia.
Qed.
Lemma whole_image_hrv names g w ld segs h :
  requests_ok h -> (forall ld' i, In (ld', i) h -> ld' = ld) ->
  0 < g_seglines g -> 0 <= g_columns g -> g_hrv g = true -> MaxLine w < 2 ^ 32 ->
  holds names ld (g_seglines g) (g_columns g) segs ->
  Forall (fun s => exists rows, s = Some rows /\ Z.of_nat (List.length rows) = g_seglines g) segs ->
  g_seglines g * Z.of_nat (List.length segs) = MaxLine w ->
  snd (read_lines names g w ld (run names da_init h) (range 0 (MaxLine w))) =
    map (fun r => Ok (orient (g_swapX g) r)) (rev (whole_image segs)).
Proof.
  intros Hr Hh Hs Hc Hv Hm Hholds Hall Ht. assert (E : image_rows g w = MaxLine w) by (unfold image_rows; rewrite Hv; reflexivity).
  rewrite <- E at 1. apply whole_image_read; auto; lia.
Qed.
Lemma missing_file names names' g w ld segs k h h' line :
  requests_ok h -> (forall ld' i, In (ld', i) h -> ld' = ld) ->
  requests_ok h' -> (forall ld' i, In (ld', i) h' -> ld' = ld) ->
  0 < g_seglines g -> 0 <= g_columns g -> image_rows g w < 2 ^ 32 -> 0 <= line < image_rows g w ->
  0 <= k < Z.of_nat (List.length segs) ->
  holds names ld (g_seglines g) (g_columns g) segs ->
  holds names' ld (g_seglines g) (g_columns g) (set_nth segs (Z.to_nat k) None) ->
  snd (line_read names' g w ld (run names' da_init h') line) =
    if (image_rows g w - 1 - line) / g_seglines g =? k
    then Ok (zero_row (g_columns g))
    else snd (line_read names g w ld (run names da_init h) line).
Proof.
  intros Hr Hh Hr' Hh' Hs Hc H32 Hl Hk H1 H2.
  rewrite (placement names' g w ld _ h' line Hr' Hh' Hs Hc H32 Hl H2).
  rewrite (placement names g w ld _ h line Hr Hh Hs Hc H32 Hl H1).
  rewrite missing_segment by lia. destruct (_ =? k); [|reflexivity].
  unfold orient, zero_row. destruct (g_swapX g); [rewrite rev_repeat|]; reflexivity.
Qed.
Lemma missing_rows names g w ld segs h line :
  requests_ok h -> (forall ld' i, In (ld', i) h -> ld' = ld) ->
  0 < g_seglines g -> 0 <= g_columns g -> image_rows g w < 2 ^ 32 -> 0 <= line < image_rows g w ->
  holds names ld (g_seglines g) (g_columns g) segs ->
  nth (Z.to_nat ((image_rows g w - 1 - line) / g_seglines g)) segs None = None ->
  snd (line_read names g w ld (run names da_init h) line) = Ok (zero_row (g_columns g)).
Proof.
  intros Hr Hh Hs Hc H32 Hl H1 Hn.
  rewrite (placement names g w ld _ h line Hr Hh Hs Hc H32 Hl H1). unfold phys_row. rewrite Hn.
  unfold orient, zero_row. destruct (g_swapX g); [rewrite rev_repeat|]; reflexivity.
Qed.
Lemma placed_length {A} (z : A) xsize off row : (off + List.length row <= xsize)%nat ->
  List.length (placed z xsize off row) = xsize.
Proof. intros H. unfold placed. rewrite !app_length, !repeat_length. lia. Qed.
Lemma block_linear_hrv names g w ld segs h line buf :
  requests_ok h -> (forall ld' i, In (ld', i) h -> ld' = ld) ->
  0 < g_seglines g -> g_hrv g = true -> windows_ok w (g_columns g) -> 0 <= line < MaxLine w ->
  holds names ld (g_seglines g) (g_columns g) segs -> Z.of_nat (List.length buf) = 11136 ->
  snd (iread_block_linear names g w ld (List.length buf) (run names da_init h) 0 line buf) =
    Ok (Some (placed 0 (List.length buf) (Z.to_nat (line_start true w line))
      (orient (g_swapX g) (phys_row (g_seglines g) (g_columns g) segs (MaxLine w - 1 - line))))).
Proof.
  intros Hr Hh Hs Hv Hw Hl Hholds Hb.
  assert (E : image_rows g w = MaxLine w) by (unfold image_rows; rewrite Hv; reflexivity).
  destruct (window_placement w (g_columns g) line Hw ltac:(lia)) as (_ & _ & _ & P1 & P2).
  assert (Hm : MaxLine w < 2 ^ 32 /\ 0 <= g_columns g) by (unfold windows_ok, window_ok, MaxLine in *; lia).
  rewrite (block_linear names g w ld segs h (List.length buf) line buf); try assumption; try lia; try reflexivity.
  - rewrite Hv, E. reflexivity.
  - rewrite Hv. exact P1.
  - rewrite Hv. lia.
Qed.
Lemma block_calibrated_nonhrv names g w ld segs h cal line buf :
  requests_ok h -> (forall ld' i, In (ld', i) h -> ld' = ld) ->
  0 < g_seglines g -> g_hrv g = false -> 0 <= line < 3712 ->
  holds names ld (g_seglines g) (g_columns g) segs -> Z.of_nat (List.length buf) = g_columns g ->
  Forall (in_table cal) (phys_row (g_seglines g) (g_columns g) segs (3711 - line)) ->
  snd (iread_block_calibrated names g w ld (List.length buf) cal (run names da_init h) 0 line buf) =
    Ok (Some (map (physical cal)
      (orient (g_swapX g) (phys_row (g_seglines g) (g_columns g) segs (3711 - line))))).
Proof.
  intros Hr Hh Hs Hv Hl Hholds Hb Htab.
  assert (E : image_rows g w = 3712) by (unfold image_rows; rewrite Hv; reflexivity).
  assert (E3 : image_rows g w - 1 - line = 3711 - line) by lia.
  assert (Els : line_start (g_hrv g) w line = 0) by (rewrite Hv; reflexivity).
  assert (L := phys_row_length names ld (g_seglines g) (g_columns g) segs (3711 - line) Hs ltac:(lia) ltac:(lia) Hholds).
  rewrite (block_calibrated names g w ld segs h (List.length buf) cal line buf); try assumption; try lia; try reflexivity.
  - rewrite Els, E3. unfold placed. cbn [Z.to_nat repeat app].
    rewrite map_length, orient_length. replace (_ - _ - _)%nat with 0%nat by lia. cbn [repeat]. rewrite app_nil_r. reflexivity.
  - rewrite E3. exact Htab.
Qed.
