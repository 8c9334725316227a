From Verif Require Import BaseFacts MachineModel HeaderModel HeaderSpec DataAccessModel DataAccessSpec DataAccessProofs.
From Coq Require Import Sorted.

(** * C03: recency *)
Lemma perm_singleton {A} (a b : A) l : Permutation [a] (b :: l) -> a = b /\ l = [].
Proof.
  intros H. assert (Hl := Permutation_length H). destruct l; [|discriminate].
  apply Permutation_length_1 in H. auto.
Qed.
Lemma perm_pair {A} (a b c : A) l : Permutation [a; b] (c :: l) ->
  (c = a /\ l = [b]) \/ (c = b /\ l = [a]).
Proof.
  intros H. assert (Hl := Permutation_length H). destruct l as [|d [|]]; try discriminate.
  apply Permutation_length_2_inv in H as [H|H]; injection H as -> ->; auto.
Qed.

Lemma two_latest_inv_1 a acc : two_latest acc = [a] ->
  exists l, acc = a :: l /\ find (fun b => negb (b =? a)) l = None.
Proof.
  destruct acc as [|x l]; [discriminate|]. cbn [two_latest].
  destruct (find _ l) eqn:E; [discriminate|]. intros [= ->]. eauto.
Qed.
Lemma two_latest_inv_2 a b acc : two_latest acc = [a; b] ->
  exists l, acc = a :: l /\ find (fun b => negb (b =? a)) l = Some b.
Proof.
  destruct acc as [|x l]; [discriminate|]. cbn [two_latest].
  destruct (find _ l) eqn:E; [|discriminate]. intros [= -> ->]. eauto.
Qed.

Lemma recency_step names (P : fname -> list Z -> Prop) ld st idx r acc : inv names P st -> loads_all names ld ->
  seg_step names ld st idx r -> map fst (da_cache st) = two_latest acc ->
  map fst (da_cache (fst r)) = two_latest (match snd r with Ok (Some _) => idx :: acc | _ => acc end).
Proof.
  intros I Hld S Hc. assert (Hlen := inv_len _ _ _ I). assert (Hk := inv_keys _ _ _ I).
  destruct S as [p others Hperm Hfront|Hn Hr|f cache heap Hn Hr Hch]; cbn [fst snd da_cache map].
  - destruct (da_cache st) as [|[k0 p0] [|[k1 p1] [|]]] eqn:Ec; cbn [List.length map fst] in *; try lia.
    + apply Permutation_nil in Hperm. discriminate.
    + apply perm_singleton in Hperm as [[= -> ->] ->]. cbn [map].
      destruct (two_latest_inv_1 idx acc) as (l & -> & Hf); [congruence|].
      cbn [two_latest find]. rewrite Z.eqb_refl. cbn [negb]. rewrite Hf. reflexivity.
    + destruct (two_latest_inv_2 k0 k1 acc) as (l & -> & Hf); [congruence|].
      apply perm_pair in Hperm as [([= -> ->] & ->)|([= -> ->] & ->)]; cbn [map fst two_latest find].
      * rewrite Z.eqb_refl. cbn [negb]. rewrite Hf. reflexivity.
      * inversion Hk as [|? ? Hni _]; subst.
        destruct (Z.eqb_spec k0 k1) as [->|]; [exfalso; apply Hni; left; reflexivity|]. reflexivity.
  - exact Hc.
  - destruct (Hld idx f Hr) as [d Hd]. rewrite Hd. cbn [as_result map fst].
    destruct Hch as [(Hl & -> & ->)|(k0 & p0 & k1 & p1 & Ec & -> & _ & ->)].
    + destruct (da_cache st) as [|[k0 p0] [|]] eqn:Ec; cbn [List.length map fst] in *; try lia.
      * destruct acc as [|x l]; [reflexivity|]. cbn [two_latest] in Hc. destruct (find _ l); discriminate.
      * destruct (two_latest_inv_1 k0 acc) as (l & -> & Hf); [congruence|]. cbn [two_latest find].
        destruct (Z.eqb_spec k0 idx) as [->|]; [exfalso; apply Hn; left; reflexivity|]. reflexivity.
    + rewrite Ec in *. cbn [map fst] in *.
      destruct (two_latest_inv_2 k0 k1 acc) as (l & -> & Hf); [congruence|]. cbn [two_latest find].
      destruct (Z.eqb_spec k0 idx) as [->|]; [exfalso; apply Hn; left; reflexivity|]. reflexivity.
Qed.

Lemma recency_run names : forall h st acc, requests_ok h -> inv names anyP st ->
  (forall ld i, In (ld, i) h -> loads_all names ld) ->
  map fst (da_cache st) = two_latest acc ->
  map fst (da_cache (run names st h)) = two_latest (delivered_from names st h acc).
Proof.
  induction h as [|[ld idx] h IH]; intros st acc Hr I Hld Hc; [exact Hc|].
  inversion Hr; subst. cbn [run delivered_from].
  assert (S := segment_step names anyP ld st idx ltac:(assumption) I).
  apply IH.
  - assumption.
  - eapply inv_step; [eassumption|intros; exact Logic.I|exact I|exact S].
  - intros ld' i Hin. apply (Hld ld' i). right; exact Hin.
  - eapply recency_step; [exact I| |exact S|exact Hc]. apply (Hld ld idx). left; reflexivity.
Qed.

Lemma hit_no_read names (P : fname -> list Z -> Prop) ld st idx r : inv names P st ->
  seg_step names ld st idx r ->
  In idx (map fst (da_cache st)) -> da_reads (fst r) = da_reads st.
Proof.
  intros I S Hin. destruct S; cbn [fst da_reads]; [reflexivity|reflexivity|contradiction].
Qed.

Lemma working_set names h ld idx : requests_ok h -> 0 <= idx ->
  (forall ld' i, In (ld', i) h -> loads_all names ld') ->
  In idx (two_latest (delivered names h)) ->
  let st := run names da_init h in
  da_reads (fst (segment names ld st idx)) = da_reads st.
Proof.
  intros Hr H0 Hld Hin st.
  assert (I : inv names anyP st) by (apply inv_run; [exact Hr|intros; exact Logic.I|apply inv_init]).
  eapply hit_no_read; [exact I|eapply segment_step; eauto|].
  unfold st. rewrite (recency_run names h da_init []); auto using inv_init.
Qed.

Lemma front_step names (P : fname -> list Z -> Prop) ld st idx r acc : inv names P st ->
  seg_step names ld st idx r ->
  hd_error (map fst (da_cache st)) = hd_error acc ->
  hd_error (map fst (da_cache (fst r))) =
    hd_error (match snd r with Ok (Some _) => idx :: acc | _ => acc end).
Proof.
  intros I S Hc. destruct S as [p others Hperm Hfront|Hn Hr|f cache heap Hn Hr Hch]; cbn [fst snd da_cache map].
  - reflexivity.
  - exact Hc.
  - destruct (ld f); cbn [as_result map fst hd_error]; [reflexivity|..];
    (destruct Hch as [(Hl & -> & ->)|(k0 & p0 & k1 & p1 & Ec & -> & _ & ->)]; [exact Hc|rewrite Ec in Hc; exact Hc]).
Qed.
Lemma front_run names : forall h st acc, requests_ok h -> inv names anyP st ->
  hd_error (map fst (da_cache st)) = hd_error acc ->
  hd_error (map fst (da_cache (run names st h))) = hd_error (delivered_from names st h acc).
Proof.
  induction h as [|[ld idx] h IH]; intros st acc Hr I Hc; [exact Hc|].
  inversion Hr; subst. cbn [run delivered_from].
  assert (S := segment_step names anyP ld st idx ltac:(assumption) I).
  apply IH; [assumption| |].
  - eapply inv_step; [eassumption|intros; exact Logic.I|exact I|exact S].
  - eapply front_step; eassumption.
Qed.
Lemma latest_no_reload names h ld idx : requests_ok h -> 0 <= idx ->
  hd_error (delivered names h) = Some idx ->
  let st := run names da_init h in
  da_reads (fst (segment names ld st idx)) = da_reads st.
Proof.
  intros Hr H0 Hin st.
  assert (I : inv names anyP st) by (apply inv_run; [exact Hr|intros; exact Logic.I|apply inv_init]).
  eapply hit_no_read; [exact I|eapply segment_step; eauto|].
  assert (F := front_run names h da_init [] Hr (inv_init _ _) eq_refl). fold st in F.
  unfold delivered in Hin. rewrite Hin in F. destruct (map fst (da_cache st)); [discriminate|].
  injection F as ->. left; reflexivity.
Qed.

(** * C03: raster scans *)
Definition front_is (st : da) (x : Z) : Prop := exists p c, da_cache st = (x, p) :: c.

Lemma scan_reads names (R : Z -> Z -> Prop) ld : loads_all names ld ->
  (forall x y : Z, R x y -> R y x -> x = y) ->
  forall l st, StronglySorted R l -> Forall (fun i => 0 <= i) l -> inv names anyP st ->
  exists new, da_reads (run names st (map (fun i => (ld, i)) l)) = new ++ da_reads st /\
    NoDup new /\ incl new l /\
    (match l with x :: _ => front_is st x -> ~ In x new | [] => True end).
Proof.
  intros Hld Ranti. induction l as [|x l IH]; intros st Hs Hpos I.
  - exists []. cbn. repeat split; auto using NoDup_nil, incl_nil_l.
  - inversion Hs as [|? ? Hs' Hx]; subst. inversion Hpos as [|? ? H0 Hpos']; subst.
    assert (S := segment_step names anyP ld st x H0 I).
    assert (I' := inv_step names anyP ld st x _ H0 ltac:(intros; exact Logic.I) I S).
    cbn [map run]. destruct (IH _ Hs' Hpos' I') as (new & E & Hnd & Hincl & Hfr).
    (* after the request the segment is in front, unless it is not recorded *)
    assert (Hx_notin : front_is (fst (segment names ld st x)) x -> ~ In x new).
    { intros F Hin. destruct l as [|y l]; [exact (Hincl x Hin)|].
      assert (x = y).
      { destruct (Hincl x Hin) as [->|Hin']; [reflexivity|].
        inversion Hs' as [|? ? _ Hy]; subst. rewrite Forall_forall in Hx, Hy.
        apply Ranti; [apply Hx; left; reflexivity|apply Hy; exact Hin']. }
      subst y. exact (Hfr F Hin). }
    rewrite E.
    destruct S as [p others Hperm Hfront|Hn Hr|f cache heap Hn Hr Hch]; cbn [fst snd da_reads] in *.
    + exists new. repeat split; [exact Hnd|intros a Ha; right; exact (Hincl a Ha)|].
      intros _. apply Hx_notin. eexists _, _. reflexivity.
    + exists new. repeat split; [exact Hnd|intros a Ha; right; exact (Hincl a Ha)|].
      intros (p & c & Hc). exfalso. apply Hn. rewrite Hc. left; reflexivity.
    + destruct (Hld x f Hr) as [d Hd]. rewrite Hd in *.
      exists (new ++ [x]). split; [rewrite <- app_assoc; reflexivity|].
      assert (Hni : ~ In x new) by (apply Hx_notin; eexists _, _; reflexivity).
      split; [|split].
      * apply NoDup_rev in Hnd. rewrite <- (rev_involutive (new ++ [x])), rev_app_distr. apply NoDup_rev.
        cbn [rev app]. constructor; [rewrite <- in_rev; exact Hni|exact Hnd].
      * intros a Ha. apply in_app_or in Ha as [Ha|[<-|[]]]; [right; exact (Hincl a Ha)|left; reflexivity].
      * intros (p & c & Hc). exfalso. apply Hn. rewrite Hc. left; reflexivity.
Qed.

(** line_read issues one segment request *)
Definition segnum_of g w line := phys_line g w line / g_seglines g.
Lemma read_lines_state names g w ld : g_seglines g <> 0 -> forall ls st,
  fst (read_lines names g w ld st ls) =
  run names st (map (fun i => (ld, i)) (map (segnum_of g w) ls)).
Proof.
  intros Hs. induction ls as [|l ls IH]; intros st; [reflexivity|].
  cbn [read_lines map run]. unfold line_read. replace (g_seglines g =? 0) with false by lia.
  fold (segnum_of g w l). destruct (segment names ld st (segnum_of g w l)) as [st1 r] eqn:E.
  specialize (IH st1).
  destruct (read_lines names g w ld st1 ls) as [st2 rs]. cbn [fst] in *.
  rewrite IH. reflexivity.
Qed.

Lemma phys_line_in g w line : 0 <= line < image_rows g w -> image_rows g w < 2 ^ 32 ->
  phys_line g w line = image_rows g w - 1 - line.
Proof.
  unfold image_rows, phys_line, wrap64, SouthLineActual. intros H H32.
  assert (2 ^ 32 < 2 ^ 64) by lia.
  destruct (g_hrv g).
  - rewrite (Z.mod_small (MaxLine w - line)) by lia. rewrite Z.mod_small by lia. lia.
  - rewrite (Z.mod_small (3712 - line)) by lia. rewrite Z.mod_small by lia. lia.
Qed.

Lemma StronglySorted_map {A B} (f : A -> B) (R : A -> A -> Prop) (Q : B -> B -> Prop) l :
  (forall x y, In x l -> In y l -> R x y -> Q (f x) (f y)) ->
  StronglySorted R l -> StronglySorted Q (map f l).
Proof.
  intros HRQ. induction l as [|a l IH]; intros H; [constructor|].
  inversion H as [|? ? Hs Ha]; subst. cbn [map]. constructor.
  - apply IH; [|exact Hs]. intros x y Hx Hy. apply HRQ; right; assumption.
  - rewrite Forall_forall in Ha. rewrite Forall_map, Forall_forall. intros x Hx.
    apply HRQ; [left; reflexivity|right; exact Hx|exact (Ha x Hx)].
Qed.
Lemma seq_sorted n : forall a, StronglySorted (fun x y => (x <= y)%nat) (seq a n).
Proof.
  induction n as [|n IH]; intros a; cbn [seq]; constructor; [apply IH|].
  apply Forall_forall. intros x Hx. apply in_seq in Hx. lia.
Qed.
Lemma range_in a n x : In x (range a n) <-> (0 <= n /\ a <= x < a + n).
Proof.
  unfold range. rewrite in_map_iff. split.
  - intros (i & <- & Hi). apply in_seq in Hi. lia.
  - intros H. exists (Z.to_nat (x - a)). split; [lia|]. apply in_seq. lia.
Qed.
Lemma range_sorted a n : StronglySorted (fun x y => x <= y) (range a n).
Proof.
  unfold range. eapply StronglySorted_map; [|apply seq_sorted]. cbn. intros; lia.
Qed.

Lemma StronglySorted_rev {A} (R : A -> A -> Prop) l :
  StronglySorted R l -> StronglySorted (fun x y => R y x) (rev l).
Proof.
  induction 1 as [|a l Hs IH Ha]; cbn [rev]; [constructor|].
  assert (Hall : Forall (fun x => R a x) (rev l)) by (apply Forall_rev; exact Ha).
  clear Hs Ha. induction (rev l) as [|b r IHr]; cbn [app]; [repeat constructor|].
  inversion IH as [|? ? Hsr Hb]; subst. inversion Hall; subst.
  constructor; [apply IHr; assumption|]. apply Forall_app. split; [exact Hb|]. repeat constructor. assumption.
Qed.

Lemma raster_scan names g w ld h0 ls :
  requests_ok h0 -> loads_all names ld -> 0 < g_seglines g -> image_rows g w < 2 ^ 32 ->
  Forall (fun l => 0 <= l < image_rows g w) ls ->
  StronglySorted (fun x y => x <= y) ls \/ StronglySorted (fun x y => y <= x) ls ->
  let st := run names da_init h0 in
  exists new, da_reads (fst (read_lines names g w ld st ls)) = new ++ da_reads st /\ NoDup new.
Proof.
  intros Hr Hld Hs H32 Hin Hsort st. rewrite Forall_forall in Hin.
  assert (I : inv names anyP st) by (apply inv_run; [exact Hr|intros; exact Logic.I|apply inv_init]).
  rewrite read_lines_state by lia.
  assert (Hpos : Forall (fun i => 0 <= i) (map (segnum_of g w) ls)).
  { rewrite Forall_map, Forall_forall. intros l Hl. apply Hin in Hl. unfold segnum_of.
    rewrite phys_line_in by lia. apply Z.div_pos; lia. }
  assert (Hmono : forall x y, In x ls -> In y ls -> x <= y -> segnum_of g w y <= segnum_of g w x).
  { intros x y Hx Hy Hxy. apply Hin in Hx, Hy. unfold segnum_of. rewrite !phys_line_in by lia.
    apply Z.div_le_mono; lia. }
  destruct Hsort as [Hsort|Hsort].
  - destruct (scan_reads names (fun x y => y <= x) ld Hld ltac:(cbv beta; intros; lia) (map (segnum_of g w) ls) st)
      as (new & E & Hnd & _); auto.
    + eapply StronglySorted_map; [|exact Hsort]. exact Hmono.
    + exists new. auto.
  - destruct (scan_reads names (fun x y => x <= y) ld Hld ltac:(cbv beta; intros; lia) (map (segnum_of g w) ls) st)
      as (new & E & Hnd & _); auto.
    + eapply StronglySorted_map; [|exact Hsort]. cbn. intros x y Hx Hy H. apply Hmono; assumption.
    + exists new. auto.
Qed.

(** * C04, C05, C07: rows *)
Lemma mirrored_loop data off cols : (off + cols <= List.length data)%nat ->
  fold_left (fun buf i => set_nth buf (cols - i - 1) (nth (off + i) data 0)) (seq 0 cols) (repeat 0 cols)
  = rev (firstn cols (skipn off data)).
Proof.
  intros Hl.
  assert (G : forall n, (n <= cols)%nat ->
    fold_left (fun buf i => set_nth buf (cols - i - 1) (nth (off + i) data 0)) (seq 0 n) (repeat 0 cols)
    = repeat 0 (cols - n) ++ rev (firstn n (skipn off data))).
  { induction n as [|n IH]; intros Hn.
    - cbn. rewrite Nat.sub_0_r, app_nil_r. reflexivity.
    - rewrite seq_S, fold_left_app, IH by lia. cbn [fold_left Nat.add].
      assert (Hf : firstn (S n) (skipn off data) = firstn n (skipn off data) ++ [nth (off + n) data 0]).
      { assert (Hd : (n < List.length (skipn off data))%nat) by (rewrite skipn_length; lia).
        replace (nth (off + n) data 0) with (nth n (skipn off data) 0).
        - clear - Hd. revert n Hd. induction (skipn off data) as [|a l IH]; intros n Hd; [cbn in Hd; lia|].
          destruct n; [reflexivity|]. cbn [firstn nth app]. f_equal. apply IH. cbn in Hd. lia.
        - clear. revert off. induction data as [|a l IH]; intros off.
          + rewrite skipn_nil. destruct n, off; reflexivity.
          + destruct off; [reflexivity|]. cbn [skipn Nat.add nth]. apply IH. }
      rewrite Hf, rev_app_distr. cbn [rev app].
      replace (cols - n)%nat with (S (cols - S n)) by lia.
      replace (S (cols - S n) - 1)%nat with (cols - S n)%nat by lia.
      generalize (cols - S n)%nat (rev (firstn n (skipn off data))) (nth (off + n) data 0).
      clear. intros m. induction m as [|m IH]; intros l x; [reflexivity|].
      cbn [repeat app set_nth] in *. f_equal. apply IH. }
  rewrite G by lia. rewrite Nat.sub_diag. reflexivity.
Qed.

Lemma concat_row (rows : list row) cols k : (k < List.length rows)%nat ->
  Forall (fun r => List.length r = cols) rows ->
  firstn cols (skipn (k * cols) (List.concat rows)) = nth k rows [] /\
  (k * cols + cols <= List.length (List.concat rows))%nat.
Proof.
  revert k. induction rows as [|r rows IH]; intros k Hk Hf; [cbn in Hk; lia|].
  inversion Hf; subst. cbn [List.concat]. destruct k as [|k].
  - cbn [Nat.mul skipn nth]. rewrite firstn_app_exact by reflexivity. rewrite app_length. split; [reflexivity|lia].
  - cbn [List.length] in Hk. destruct (IH k ltac:(lia) ltac:(assumption)) as [E L].
    cbn [nth]. rewrite <- E, app_length. split; [|lia].
    f_equal. rewrite skipn_app, skipn_all2 by lia. cbn [app]. f_equal. lia.
Qed.

Lemma line_read_value names g w ld segs h line :
  requests_ok h -> (forall ld' i, In (ld', i) h -> ld' = ld) ->
  0 < g_seglines g -> 0 <= g_columns g -> 0 <= phys_line g w line ->
  holds names ld (g_seglines g) (g_columns g) segs ->
  snd (line_read names g w ld (run names da_init h) line) =
    Ok (orient (g_swapX g && match nth (Z.to_nat (segnum_of g w line)) segs None with Some _ => true | None => false end)
         (phys_row (g_seglines g) (g_columns g) segs (phys_line g w line))).
Proof.
  intros Hr Hh Hs Hcol Hph Hholds. unfold line_read. replace (g_seglines g =? 0) with false by lia.
  set (r := phys_line g w line) in *. fold (segnum_of g w line). unfold segnum_of. fold r.
  assert (Hk : 0 <= r / g_seglines g) by (apply Z.div_pos; lia).
  assert (Hm := Z.mod_pos_bound r (g_seglines g) Hs).
  set (P := fun f d => ld f = Ok d).
  assert (I : inv names P (run names da_init h)).
  { apply inv_run; [exact Hr| |apply inv_init]. intros ld' i f d Hin _ E. rewrite (Hh _ _ Hin) in E. exact E. }
  assert (O := observe_step names P ld _ _ _ I (segment_step names P ld _ _ Hk I)).
  specialize (Hholds _ Hk). unfold phys_row.
  destruct (segment names ld (run names da_init h) (r / g_seglines g)) as [st' res] eqn:Eseg.
  unfold observe in O. cbn [fst snd] in O.
  destruct (nth (Z.to_nat (r / g_seglines g)) segs None) as [rows|].
  - destruct Hholds as (f & Hf & Hld & Hrows & Hcols).
    destruct O as [[Hn _]|(f' & Hf' & O)]; [congruence|]. assert (f' = f) by congruence. subst f'.
    assert (O' : match res with
        | Ok None => Ok None
        | Ok (Some p) => match heap_get (da_heap st') p with Some d => Ok (Some d) | None => UB end
        | Throw => Throw | Terminate => Terminate | UB => UB | Loop => Loop
        end = Ok (Some (List.concat rows))).
    { destruct O as [(d & HP & O)|O].
      - unfold P in HP. rewrite O. congruence.
      - rewrite O, Hld. reflexivity. }
    clear O. destruct res as [[p|]| | | |]; try discriminate. cbn [snd].
    destruct (heap_get (da_heap st') p) as [d|]; [|discriminate]. injection O' as ->.
    assert (Hcols' : Forall (fun r => List.length r = Z.to_nat (g_columns g)) rows).
    { eapply Forall_impl; [|exact Hcols]. cbn. intros; lia. }
    destruct (concat_row rows (Z.to_nat (g_columns g)) (Z.to_nat (r mod g_seglines g)) ltac:(lia) Hcols') as [E L].
    unfold copy_row. replace (_ <? _)%nat with false by lia.
    rewrite andb_true_r. unfold orient. destruct (g_swapX g).
    + rewrite mirrored_loop by exact L. rewrite E. reflexivity.
    + rewrite E. reflexivity.
  - rewrite andb_false_r. cbn [orient].
    destruct O as [[_ O]|(f' & Hf' & _)]; [|congruence].
    destruct res as [[p|]| | | |]; try discriminate; [|reflexivity].
    destruct (heap_get (da_heap st') p); discriminate.
Qed.

Lemma rev_repeat {A} (x : A) n : rev (repeat x n) = repeat x n.
Proof.
  induction n as [|n IH]; [reflexivity|]. cbn [repeat rev]. rewrite IH. clear IH.
  induction n as [|n IH]; [reflexivity|]. cbn [repeat app]. f_equal. exact IH.
Qed.

Lemma line_read_row names g w ld segs h line :
  requests_ok h -> (forall ld' i, In (ld', i) h -> ld' = ld) ->
  0 < g_seglines g -> 0 <= g_columns g -> 0 <= phys_line g w line ->
  holds names ld (g_seglines g) (g_columns g) segs ->
  snd (line_read names g w ld (run names da_init h) line) =
    Ok (orient (g_swapX g) (phys_row (g_seglines g) (g_columns g) segs (phys_line g w line))).
Proof.
  intros. rewrite (line_read_value names g w ld segs) by assumption. f_equal.
  unfold phys_row. unfold segnum_of.
  destruct (nth _ segs None); [rewrite andb_true_r; reflexivity|].
  rewrite andb_false_r. cbn [orient]. unfold orient, zero_row. destruct (g_swapX g); [|reflexivity].
  rewrite rev_repeat. reflexivity.
Qed.

Lemma placement names g w ld segs h line :
  requests_ok h -> (forall ld' i, In (ld', i) h -> ld' = ld) ->
  0 < g_seglines g -> 0 <= g_columns g -> image_rows g w < 2 ^ 32 -> 0 <= line < image_rows g w ->
  holds names ld (g_seglines g) (g_columns g) segs ->
  snd (line_read names g w ld (run names da_init h) line) =
    Ok (orient (g_swapX g) (phys_row (g_seglines g) (g_columns g) segs (image_rows g w - 1 - line))).
Proof.
  intros Hr Hh Hs Hc H32 Hl Hholds.
  rewrite (line_read_row names g w ld segs) by (auto; rewrite phys_line_in by lia; lia).
  rewrite phys_line_in by lia. reflexivity.
Qed.

(** whole images *)
Lemma whole_image_nth segs seglines : 0 < seglines ->
  Forall (fun s => exists rows, s = Some rows /\ Z.of_nat (List.length rows) = seglines) segs ->
  forall cols r, 0 <= r < seglines * Z.of_nat (List.length segs) ->
  phys_row seglines cols segs r = nth (Z.to_nat r) (whole_image segs) [].
Proof.
  intros Hs H cols. induction H as [|s segs (rows & -> & Hrows) _ IH]; intros r Hr.
  { cbn [List.length] in Hr. lia. }
  cbn [List.length] in Hr. cbn [whole_image]. unfold phys_row in *.
  destruct (Z_lt_le_dec r seglines) as [Hlt|Hge].
  - rewrite Z.div_small, Z.mod_small by lia. cbn [Z.to_nat nth].
    rewrite app_nth1 by lia. reflexivity.
  - specialize (IH (r - seglines) ltac:(lia)).
    rewrite app_nth2 by lia.
    replace (Z.to_nat r - List.length rows)%nat with (Z.to_nat (r - seglines)) by lia.
    rewrite <- IH.
    assert (E1 : r / seglines = (r - seglines) / seglines + 1).
    { rewrite <- (Z.div_add (r - seglines) 1 seglines) by lia. f_equal. lia. }
    assert (E2 : r mod seglines = (r - seglines) mod seglines).
    { rewrite <- (Z.mod_add (r - seglines) 1 seglines) by lia. f_equal. lia. }
    rewrite E1, E2. assert (0 <= (r - seglines) / seglines) by (apply Z.div_pos; lia).
    replace (Z.to_nat ((r - seglines) / seglines + 1)) with (S (Z.to_nat ((r - seglines) / seglines))) by lia.
    reflexivity.
Qed.
Lemma whole_image_length segs seglines :
  Forall (fun s => exists rows, s = Some rows /\ Z.of_nat (List.length rows) = seglines) segs ->
  Z.of_nat (List.length (whole_image segs)) = seglines * Z.of_nat (List.length segs).
Proof.
  induction 1 as [|s segs (rows & -> & Hrows) _ IH]; cbn [whole_image List.length]; [lia|].
  rewrite app_length. lia.
Qed.

Lemma run_app names : forall h1 st h2, run names st (h1 ++ h2) = run names (run names st h1) h2.
Proof. induction h1 as [|[ld i] h1 IH]; intros st h2; [reflexivity|]. cbn [app run]. apply IH. Qed.

Lemma read_lines_values names g w ld segs : g_seglines g > 0 -> 0 <= g_columns g -> image_rows g w < 2 ^ 32 ->
  holds names ld (g_seglines g) (g_columns g) segs ->
  forall ls h, requests_ok h -> (forall ld' i, In (ld', i) h -> ld' = ld) ->
  Forall (fun l => 0 <= l < image_rows g w) ls ->
  snd (read_lines names g w ld (run names da_init h) ls) =
    map (fun l => Ok (orient (g_swapX g) (phys_row (g_seglines g) (g_columns g) segs (image_rows g w - 1 - l)))) ls.
Proof.
  intros Hs Hc H32 Hholds. induction ls as [|l ls IH]; intros h Hr Hh Hin; [reflexivity|].
  inversion Hin as [|? ? Hl Hin']; subst. cbn [read_lines map].
  assert (V := placement names g w ld segs h l Hr Hh ltac:(lia) Hc H32 Hl Hholds).
  assert (E : fst (line_read names g w ld (run names da_init h) l) = run names da_init (h ++ [(ld, segnum_of g w l)])).
  { rewrite run_app. cbn [run]. unfold line_read. replace (g_seglines g =? 0) with false by lia.
    fold (segnum_of g w l). destruct (segment names ld (run names da_init h) (segnum_of g w l)); reflexivity. }
  destruct (line_read names g w ld (run names da_init h) l) as [st1 r]. cbn [fst snd] in *. subst st1 r.
  specialize (IH (h ++ [(ld, segnum_of g w l)])).
  destruct (read_lines names g w ld (run names da_init (h ++ [(ld, segnum_of g w l)])) ls) as [st2 rs].
  cbn [snd] in *. f_equal. apply IH; [| |exact Hin'].
  - apply Forall_app. split; [exact Hr|]. repeat constructor. cbn [snd]. unfold segnum_of.
    rewrite phys_line_in by lia. apply Z.div_pos; lia.
  - intros ld' i Hi. apply in_app_or in Hi as [Hi|[[= <- _]|[]]]; [eauto|reflexivity].
Qed.

Lemma rev_nth_map {A B} (f : A -> B) (l : list A) (d : A) :
  map (fun i => f (nth (List.length l - 1 - i) l d)) (seq 0 (List.length l)) = map f (rev l).
Proof.
  rewrite <- (map_map (fun i => nth (List.length l - 1 - i) l d) f). f_equal.
  apply nth_ext with d d; [rewrite map_length, seq_length, rev_length; reflexivity|].
  rewrite map_length, seq_length. intros n Hn.
  rewrite (nth_indep _ d (nth (List.length l - 1 - List.length l) l d)) by (rewrite map_length, seq_length; exact Hn).
  rewrite (map_nth (fun i => nth (List.length l - 1 - i) l d)), seq_nth by exact Hn. cbn [Nat.add].
  rewrite rev_nth by exact Hn. f_equal. lia.
Qed.

Lemma whole_image_read names g w ld segs h : g_seglines g > 0 -> 0 <= g_columns g -> image_rows g w < 2 ^ 32 ->
  requests_ok h -> (forall ld' i, In (ld', i) h -> ld' = ld) ->
  holds names ld (g_seglines g) (g_columns g) segs ->
  Forall (fun s => exists rows, s = Some rows /\ Z.of_nat (List.length rows) = g_seglines g) segs ->
  g_seglines g * Z.of_nat (List.length segs) = image_rows g w ->
  snd (read_lines names g w ld (run names da_init h) (range 0 (image_rows g w))) =
    map (fun r => Ok (orient (g_swapX g) r)) (rev (whole_image segs)).
Proof.
  intros Hs Hc H32 Hr Hh Hholds Hall Htot.
  rewrite (read_lines_values names g w ld segs); auto.
  - assert (Hlen := whole_image_length segs _ Hall). rewrite Htot in Hlen.
    rewrite <- (rev_nth_map (fun r => Ok (orient (g_swapX g) r)) (whole_image segs) []).
    unfold range. rewrite map_map. replace (Z.to_nat (image_rows g w)) with (List.length (whole_image segs)) by lia.
    apply map_ext_in. intros i Hi. apply in_seq in Hi. cbn beta. do 2 f_equal.
    rewrite (whole_image_nth segs (g_seglines g)) by (auto; lia). f_equal. lia.
  - apply Forall_forall. intros l Hl. apply range_in in Hl. lia.
Qed.

(** rows past the end *)
Lemma past_end names g w ld h line :
  requests_ok h -> (forall ld' i, In (ld', i) h -> ld' = ld) ->
  0 < g_seglines g -> 0 <= g_columns g -> 0 <= image_rows g w < 2 ^ 32 ->
  image_rows g w <= line < 2 ^ 62 -> g_seglines g * Z.of_nat (List.length names) <= 2 ^ 62 ->
  snd (line_read names g w ld (run names da_init h) line) = Ok (zero_row (g_columns g)).
Proof.
  intros Hr Hh Hs Hc H32 Hl Hn. unfold line_read. replace (g_seglines g =? 0) with false by lia.
  assert (Hp : 2 ^ 63 <= phys_line g w line).
  { unfold phys_line, image_rows, wrap64, SouthLineActual in *.
    assert (E64 : 2 ^ 64 = 4 * 2 ^ 62) by lia. assert (E63 : 2 ^ 63 = 2 * 2 ^ 62) by lia.
    assert (E32 : 2 ^ 32 < 2 ^ 62) by lia.
    destruct (g_hrv g).
    - destruct (Z.eq_dec (MaxLine w) line) as [->|].
      + rewrite Z.sub_diag, Z.mod_0_l by lia. rewrite <- (Z.mod_unique (0 - 1) (2 ^ 64) (-1) (2 ^ 64 - 1)); lia.
      + rewrite <- (Z.mod_unique (MaxLine w - line) (2 ^ 64) (-1) (2 ^ 64 + MaxLine w - line)) by lia.
        rewrite Z.mod_small by lia. lia.
    - destruct (Z.eq_dec 3712 line) as [<-|].
      + rewrite Z.sub_diag, Z.mod_0_l by lia. rewrite <- (Z.mod_unique (0 - 1) (2 ^ 64) (-1) (2 ^ 64 - 1)); lia.
      + rewrite <- (Z.mod_unique (3712 - line) (2 ^ 64) (-1) (2 ^ 64 + 3712 - line)) by lia.
        rewrite Z.mod_small by lia. lia. }
  assert (Hk : Z.of_nat (List.length names) <= phys_line g w line / g_seglines g).
  { apply Z.div_le_lower_bound; [lia|]. lia. }
  assert (I : inv names anyP (run names da_init h)) by (apply inv_run; [exact Hr|intros; exact Logic.I|apply inv_init]).
  assert (Hrec : recorded names (phys_line g w line / g_seglines g) = None).
  { rewrite recorded_spec by lia. replace (_ <=? _) with true by lia. reflexivity. }
  assert (O := observe_step names anyP ld _ _ _ I (segment_step names anyP ld _ (phys_line g w line / g_seglines g) ltac:(lia) I)).
  destruct O as [[_ O]|(f & Hf & _)]; [|congruence].
  unfold observe in O. destruct (segment _ _ _ _) as [st' res]. cbn [fst snd] in *.
  destruct res as [[p|]| | | |]; try discriminate; [|reflexivity].
  destruct (heap_get (da_heap st') p); discriminate.
Qed.

(** removing a segment *)
Lemma missing_segment seglines cols segs k r : 0 < seglines -> 0 <= r -> 0 <= k ->
  (k < Z.of_nat (List.length segs)) ->
  phys_row seglines cols (set_nth segs (Z.to_nat k) None) r =
  if r / seglines =? k then zero_row cols else phys_row seglines cols segs r.
Proof.
  intros Hs Hr Hk Hlen. unfold phys_row. assert (0 <= r / seglines) by (apply Z.div_pos; lia).
  destruct (Z.eqb_spec (r / seglines) k) as [->|Hne].
  - rewrite set_nth_same by lia. reflexivity.
  - rewrite set_nth_other by lia. reflexivity.
Qed.

(** * C06 *)
Lemma window_placement w cols line : windows_ok w cols -> 0 <= line ->
  let r := MaxLine w - line in
  let s := line_start true w line in
  (in_window (LowerSouth w) (LowerNorth w) r = true -> s = 11136 - LowerWest w) /\
  (in_window (UpperSouth w) (UpperNorth w) r = true -> 1 <= r -> s = 11136 - UpperWest w) /\
  (in_window (LowerSouth w) (LowerNorth w) r = false ->
   (in_window (UpperSouth w) (UpperNorth w) r = false \/ r <= 0) -> s = 0) /\
  0 <= s /\ s + cols <= 11136.
Proof.
  intros Hw Hl r s. unfold windows_ok, window_ok in Hw. subst s. unfold line_start. cbn [negb].
  unfold in_window, MaxLine in *. subst r. unfold wrap64.
  destruct (Z.leb_spec (Z.max (LowerNorth w) (UpperNorth w)) line).
  - repeat split; lia.
  - rewrite (Z.mod_small (Z.max (LowerNorth w) (UpperNorth w) - line)) by lia.
    set (r := Z.max (LowerNorth w) (UpperNorth w) - line) in *.
    rewrite !Z.mod_small by lia.
    destruct (Z.ltb_spec r (LowerSouth w)); [repeat split; lia|].
    destruct (Z.leb_spec r (LowerNorth w)); [repeat split; lia|].
    destruct (Z.ltb_spec r (UpperSouth w)); [repeat split; lia|].
    destruct (Z.leb_spec r (UpperNorth w)); repeat split; lia.
Qed.
