From Verif Require Import BaseFacts MachineModel MachineProofs HeaderModel HeaderSpec HeaderProofs.

(** * Reads inside a record *)
Lemma ba_in b rest o n : (o + n <= List.length b)%nat ->
  bytes_at (b ++ rest) o n = Ok (piece o n b).
Proof.
  intros H. rewrite bytes_at_ok by (rewrite app_length; lia). unfold piece.
  rewrite skipn_app, firstn_app, skipn_length.
  replace (n - (List.length b - o))%nat with 0%nat by lia. cbn [firstn].
  rewrite app_nil_r. reflexivity.
Qed.
Lemma rdu_in h b rest o n : (o + n <= List.length b)%nat ->
  rd_ui h (b ++ rest) o n = Ok (be_val (piece o n b)).
Proof. intros H. rewrite rd_ui_spec, ba_in by lia. reflexivity. Qed.
Lemma rdi_in h b rest o n : (o + n <= List.length b)%nat ->
  rd_i h (b ++ rest) o n = Ok (to_signed (8 * Z.of_nat n) (be_val (piece o n b))).
Proof. intros H. rewrite rd_i_spec, ba_in by lia. reflexivity. Qed.
Lemma rd1_in b rest o : (o < List.length b)%nat -> rd1 (b ++ rest) o = Ok (nth o b 0).
Proof.
  intros H. unfold rd1. rewrite nth_error_app1 by lia. rewrite (nth_error_nth' b 0) by lia. reflexivity.
Qed.
Lemma cds_in h b rest o : (o + 6 <= List.length b)%nat ->
  exists t, read_cds_short h (b ++ rest) o = Ok t.
Proof. intros H. unfold read_cds_short. rewrite !rdu_in by lia. eexists. reflexivity. Qed.
Lemma line_qs_in h b rest n : forall o, (o + 13 * n <= List.length b)%nat ->
  exists v, read_line_qs h (b ++ rest) o n = Ok v.
Proof.
  induction n as [|n IH]; intros o H; cbn [read_line_qs]; [eauto|].
  unfold read_line_q. rewrite rdi_in by lia. cbn [bind].
  destruct (cds_in h b rest (o + 4) ltac:(lia)) as [t ->]. cbn [bind].
  rewrite !rd1_in by lia. cbn [bind].
  destruct (IH (o + 13)%nat ltac:(lia)) as [v ->]. cbn [bind]. eauto.
Qed.

Definition record_outcome_ok (cur : option Z) (b : list Z) (r : outcome (header * Z)) : Prop :=
  match r with
  | Ok (hd', l) => l = reclen b /\ option_map is_lines (h_image hd') = raw_next cur b
  | UB | Loop => False
  | Throw | Terminate => True
  end.

Lemma piece_len o n (b : list Z) : (o + n <= List.length b)%nat -> List.length (piece o n b) = n.
Proof. intros H. unfold piece. rewrite firstn_length, skipn_length. lia. Qed.
Lemma piece_ok o n b : bytes_ok b -> bytes_ok (piece o n b).
Proof. intros H. unfold piece. apply bytes_ok_firstn, bytes_ok_skipn, H. Qed.

Lemma navig_safe h b rest : List.length b = 51%nat ->
  match piece 3 32 b with
  | 71 :: _ => existsb (nul_or 41) (skipn 5 (piece 3 32 b))
  | 80 :: 79 :: _ => false
  | _ => true
  end = true ->
  exists v, read_image_navig h (b ++ rest) = Ok v.
Proof.
  intros Hl Hs. unfold read_image_navig. rewrite ba_in by lia. cbn [bind].
  rewrite !rdi_in by lia. cbn [bind].
  assert (Hn := piece_len 3 32 b ltac:(lia)).
  set (name := piece 3 32 b) in *.
  destruct name as [|c0 [|c1 [|c2 [|c3 [|c4 name']]]]]; try discriminate.
  change (nth 0 (c0 :: c1 :: c2 :: c3 :: c4 :: name') 0) with c0.
  change (nth 1 (c0 :: c1 :: c2 :: c3 :: c4 :: name') 0) with c1.
  destruct (Z.eqb_spec c0 71) as [->|H71].
  - cbn [set_nth skipn] in *. assert (E := strchr_spec 41 name' ltac:(lia) 0). rewrite Hs in E.
    destruct E as [(k & E1 & E2)|[E1 E2]]; rewrite E1; cbn [Nat.add]; rewrite E2; eauto.
  - destruct (Z.eqb_spec c0 80) as [->|]; cbn [andb].
    + destruct (Z.eqb_spec c1 79) as [->|]; [discriminate|].
      destruct (c1 =? 83); eauto. change (80 =? 77) with false. cbn iota. eauto.
    + destruct (c0 =? 77); eauto.
Qed.

Lemma upto_app0 l : exists s, upto_nul (l ++ [0]) = Some s.
Proof. rewrite upto_nul_app0. eauto. Qed.
Lemma substr_cases s pos n : (exists v, substr s pos n = Ok v) \/ substr s pos n = Throw.
Proof. unfold substr. destruct (pos <=? List.length s)%nat; eauto. Qed.

Lemma raw_next_nth cur b : raw_next cur b = if nth 0 b 0 =? 1 then Some (be_val (piece 6 2 b)) else cur.
Proof.
  destruct b as [|t b]; [reflexivity|]. change (nth 0 (t :: b) 0) with t. unfold raw_next.
  destruct (Z.eqb_spec t 1) as [->|H]; [reflexivity|].
  destruct t as [|[p|p|]|p]; try reflexivity. now contradict H.
Qed.
Lemma safe_rec_1 cur b len : nth 0 b 0 = 1 ->
  safe_rec cur b len = (len <? 9) || (be_val (piece 4 2 b) * be_val (piece 6 2 b) <? 2 ^ 31).
Proof. destruct b as [|t b]; [discriminate|]. change (nth 0 (t :: b) 0) with t. intros ->. reflexivity. Qed.
Lemma safe_rec_2 cur b len : nth 0 b 0 = 2 ->
  safe_rec cur b len = (len <? 51) ||
      match piece 3 32 b with
      | 71 :: _ => existsb (nul_or 41) (skipn 5 (piece 3 32 b))
      | 80 :: 79 :: _ => false
      | _ => true
      end.
Proof. destruct b as [|t b]; [discriminate|]. change (nth 0 (t :: b) 0) with t. intros ->. reflexivity. Qed.
Lemma safe_rec_129 cur b len : nth 0 b 0 = 129 ->
  safe_rec cur b len = match cur with Some n => 3 + 13 * n <=? len | None => false end.
Proof. destruct b as [|t b]; [discriminate|]. change (nth 0 (t :: b) 0) with t. intros ->. reflexivity. Qed.

Lemma record_safe h hd cur b rest :
  cur = option_map is_lines (h_image hd) -> bytes_ok b ->
  3 <= reclen b -> Z.of_nat (List.length b) = reclen b -> safe_rec cur b (reclen b) = true ->
  record_outcome_ok cur b (read_record h hd (b ++ rest)).
Proof.
  intros Hcur Hb H3 Hl Hs.
  assert (Hlen : rd_ui h (b ++ rest) 1 2 = Ok (reclen b)) by (rewrite rdu_in by lia; reflexivity).
  assert (H16 : reclen b < 2 ^ 16).
  { assert (Hr := be_val_range _ (piece_ok 1 2 b Hb)).
    rewrite piece_len in Hr by lia. unfold reclen. exact (proj2 Hr). }
  unfold read_record. rewrite rd1_in by lia. cbn [bind].
  unfold record_outcome_ok. rewrite raw_next_nth.
  remember (nth 0 b 0) as t eqn:Ht. symmetry in Ht.
  destruct (Z.eqb_spec t 1) as [->|_].
  { unfold fixed. rewrite Hlen. cbn [bind].
    destruct (Z.eqb_spec (reclen b) 9) as [E|E]; cbn [negb]; [|exact I].
    unfold read_image_struct. rewrite !rd1_in, !rdu_in by lia. cbn [bind].
    rewrite safe_rec_1, E in Hs by exact Ht. change (9 <? 9) with false in Hs. cbn [orb] in Hs.
    destruct (Z.leb_spec (2 ^ 31) (be_val (piece 4 2 b) * be_val (piece 6 2 b))); [lia|].
    cbn [bind with_image h_image option_map is_lines].
    split; [auto|reflexivity]. }
  destruct (Z.eqb_spec t 2) as [->|_].
  { unfold fixed. rewrite Hlen. cbn [bind].
    destruct (Z.eqb_spec (reclen b) 51) as [E|E]; cbn [negb]; [|exact I].
    rewrite safe_rec_2, E in Hs by exact Ht. change (51 <? 51) with false in Hs. cbn [orb] in Hs.
    destruct (navig_safe h b rest ltac:(lia) Hs) as [v ->].
    cbn [bind with_navig h_image]. split; [auto|rewrite Hcur; reflexivity]. }
  destruct (Z.eqb_spec t 3) as [->|_].
  { rewrite Hlen. cbn [bind]. unfold read_datafunc. rewrite Hlen. cbn [bind].
    rewrite Z.mod_small by lia.
    replace (reclen b - 2 =? 0) with false by lia.
    replace (2 ^ 63 <=? reclen b - 2) with false by lia.
    rewrite ba_in by lia. cbn [bind].
    destruct (upto_app0 (piece 3 (Z.to_nat (reclen b - 2 - 1)) b)) as [s ->].
    cbn [bind with_datafunc h_image]. split; [auto|rewrite Hcur; reflexivity]. }
  destruct (Z.eqb_spec t 4) as [->|_].
  { unfold fixed. rewrite Hlen. cbn [bind].
    destruct (Z.eqb_spec (reclen b) 64) as [E|E]; cbn [negb]; [|exact I].
    unfold read_annotation. rewrite ba_in by lia. cbn [bind].
    destruct (upto_app0 (piece 3 61 b)) as [s ->].
    repeat match goal with |- context [substr s ?p ?n] =>
      destruct (substr_cases s p n) as [[? ->]| ->]; cbn [bind]; try exact I end.
    cbn [with_annot h_image]. split; [auto|rewrite Hcur; reflexivity]. }
  destruct (Z.eqb_spec t 5) as [->|_].
  { unfold fixed. rewrite Hlen. cbn [bind].
    destruct (Z.eqb_spec (reclen b) 10) as [E|E]; cbn [negb]; [|exact I].
    unfold read_timestamp. destruct (cds_in h b rest 4 ltac:(lia)) as [v ->].
    cbn [bind with_time h_image]. split; [auto|rewrite Hcur; reflexivity]. }
  destruct (Z.eqb_spec t 6) as [->|_].
  { rewrite Hlen. cbn [bind]. unfold read_ancillary. rewrite Hlen. cbn [bind].
    rewrite Z.mod_small by lia.
    destruct (reclen b - 3 =? 0); [exact I|].
    replace (2 ^ 63 <=? reclen b - 3) with false by lia.
    rewrite ba_in by lia.
    cbn [bind with_anc h_image]. split; [auto|rewrite Hcur; reflexivity]. }
  destruct (Z.eqb_spec t 7) as [->|_].
  { unfold fixed. rewrite Hlen. cbn [bind].
    destruct (Z.eqb_spec (reclen b) 12) as [E|E]; cbn [negb]; [|exact I].
    unfold read_key. rewrite rd1_in, rdu_in by lia.
    cbn [bind with_key h_image]. split; [auto|rewrite Hcur; reflexivity]. }
  destruct (Z.eqb_spec t 128) as [->|_].
  { unfold fixed. rewrite Hlen. cbn [bind].
    destruct (Z.eqb_spec (reclen b) 13) as [E|E]; cbn [negb]; [|exact I].
    unfold read_segment_id. rewrite !rd1_in, !rdu_in by lia.
    cbn [bind with_seg h_image]. split; [auto|rewrite Hcur; reflexivity]. }
  destruct (Z.eqb_spec t 129) as [->|_]; [|exact I].
  rewrite safe_rec_129, Hcur in Hs by exact Ht.
  destruct (h_image hd) as [im|] eqn:Him; cbn [option_map] in Hs; [|discriminate].
  destruct (line_qs_in h b rest (Z.to_nat (is_lines im)) 3 ltac:(lia)) as [v ->]. cbn [bind].
  rewrite Hlen. cbn [bind with_quality h_image].
  split; [reflexivity|]. rewrite Hcur, Him. reflexivity.
Qed.

Lemma records_safe h cur body : framed cur body -> forall hd fuel,
  cur = option_map is_lines (h_image hd) -> bytes_ok body ->
  (List.length body < fuel)%nat -> Z.of_nat (List.length body) < 2 ^ 32 ->
  defined (read_records fuel h hd body (Z.of_nat (List.length body))) = true.
Proof.
  induction 1 as [cur|cur b rest H3 Hl Hs _ IH]; intros hd fuel Hcur Hok Hf H32.
  - destruct fuel; reflexivity.
  - destruct fuel as [|fuel]; [lia|]. rewrite app_length in *. cbn [read_records].
    replace (Z.of_nat (List.length b + List.length rest) =? 0) with false by lia.
    apply bytes_ok_app in Hok as [Hb Hr].
    assert (R := record_safe h hd cur b rest Hcur Hb H3 Hl Hs).
    destruct (read_record h hd (b ++ rest)) as [[hd' l]| | | |]; cbn [record_outcome_ok bind] in *;
      try reflexivity; try contradiction.
    destruct R as [-> Hn]. replace (reclen b =? 0) with false by lia.
    rewrite skipn_app_exact by lia.
    replace ((Z.of_nat (List.length b + List.length rest) - reclen b) mod 2 ^ 64)
      with (Z.of_nat (List.length rest)) by (rewrite Z.mod_small; lia).
    apply IH; auto; lia.
Qed.

(** Header body announced by the primary record. *)
Definition announced (s : list Z) : nat := Z.to_nat ((be_val (piece 4 4 s) - 16) mod 2 ^ 32).

Lemma firstn_app_l {A} (l : list A) n k m : (k + m <= n)%nat ->
  firstn m (skipn k (firstn n l)) = firstn m (skipn k l).
Proof.
  intros H. rewrite skipn_firstn_comm, firstn_firstn. f_equal. lia.
Qed.
Lemma piece_firstn o n m (s : list Z) : (o + n <= m)%nat -> piece o n (firstn m s) = piece o n s.
Proof. intros H. unfold piece. apply firstn_app_l. lia. Qed.

Lemma prim_reads h s : (16 <= List.length s)%nat ->
  rd1 (firstn 16 s) 0 = Ok (nth 0 s 0) /\ rd1 (firstn 16 s) 3 = Ok (nth 3 s 0) /\
  rd_ui h (firstn 16 s) 1 2 = Ok (be_val (piece 1 2 s)) /\
  rd_ui h (firstn 16 s) 4 4 = Ok (be_val (piece 4 4 s)) /\
  rd_ui h (firstn 16 s) 8 8 = Ok (be_val (piece 8 8 s)).
Proof.
  intros H. assert (Hl : List.length (firstn 16 s) = 16%nat) by (rewrite firstn_length; lia).
  rewrite <- (app_nil_r (firstn 16 s)). rewrite !rd1_in, !rdu_in by lia.
  rewrite !piece_firstn by lia.
  replace (nth 0 (firstn 16 s) 0) with (nth 0 s 0).
  replace (nth 3 (firstn 16 s) 0) with (nth 3 s 0). auto.
  - do 4 (destruct s as [|? s]; [reflexivity|]). reflexivity.
  - destruct s as [|? s]; reflexivity.
Qed.

Lemma header_safe h hd0 s : bytes_ok s ->
  framed (option_map is_lines (h_image hd0)) (firstn (announced s) (skipn 16 s)) ->
  defined (read_header h hd0 s) = true.
Proof.
  intros Hok Hf. unfold read_header.
  destruct (Nat.ltb_spec (List.length s) 16) as [|H16]; [reflexivity|].
  destruct (prim_reads h s H16) as (-> & -> & -> & -> & ->). cbn [bind].
  destruct (negb (nth 0 s 0 =? 0)); [reflexivity|].
  destruct (negb (be_val (piece 1 2 s) =? 16)); [reflexivity|].
  unfold announced in Hf. set (hs := (be_val (piece 4 4 s) - 16) mod 2 ^ 32) in *.
  assert (Hhs : 0 <= hs < 2 ^ 32) by (apply Z.mod_pos_bound; lia).
  destruct (Z.ltb_spec (Z.of_nat (List.length (skipn 16 s))) hs) as [|Hle]; [reflexivity|].
  set (hb := firstn (Z.to_nat hs) (skipn 16 s)) in *.
  assert (Hhb : Z.of_nat (List.length hb) = hs) by (unfold hb; rewrite firstn_length; lia).
  match goal with |- context [read_records ?f h ?hd hb _] =>
    assert (R := records_safe h _ hb Hf hd f eq_refl (bytes_ok_firstn _ _ (bytes_ok_skipn _ _ Hok))
      ltac:(lia) ltac:(lia)); rewrite Hhb in R; destruct (read_records f h hd hb hs) end;
  try discriminate; reflexivity.
Qed.

(** * What acceptance implies *)
Lemma rd_ui_ok_len h b o n v : rd_ui h b o n = Ok v ->
  (o + n <= List.length b)%nat /\ v = be_val (piece o n b).
Proof.
  rewrite rd_ui_spec. unfold bytes_at. destruct (Nat.leb_spec (o + n) (List.length b)); [|discriminate].
  cbn [bind]. intros E. apply Ok_inj in E. auto.
Qed.

Lemma fixed_ok_inv h b len k hd l : fixed h b len k = Ok (hd, l) -> l = reclen b /\ (3 <= List.length b)%nat /\ k = Ok hd.
Proof.
  unfold fixed. intros E. apply bind_Ok in E as (x & Ex & E). apply rd_ui_ok_len in Ex as [Hl Hx].
  destruct (Z.eqb_spec x len) as [->|]; [|discriminate]. cbn [negb] in E.
  apply bind_Ok in E as (hd' & Ek & E). apply Ok_inj in E. injection E as -> <-.
  repeat split; [exact Hx|lia|exact Ek].
Qed.

Lemma record_ok_len h hd b hd' l : read_record h hd b = Ok (hd', l) ->
  l = reclen b /\ (3 <= List.length b)%nat.
Proof.
  unfold read_record. intros E. apply bind_Ok in E as (t & Et & E).
  repeat match goal with
  | E : (if ?c then _ else _) = _ |- _ => destruct c
  | E : fixed _ _ _ _ = _ |- _ => apply fixed_ok_inv in E; tauto
  end.
  - apply bind_Ok in E as (x & Ex & E). apply bind_Ok in E as (y & Ey & E).
    apply Ok_inj in E. injection E as _ <-. apply rd_ui_ok_len in Ex as [? ->]. split; [reflexivity|lia].
  - apply bind_Ok in E as (x & Ex & E). apply bind_Ok in E as (y & Ey & E).
    apply Ok_inj in E. injection E as _ <-. apply rd_ui_ok_len in Ex as [? ->]. split; [reflexivity|lia].
  - destruct (h_image hd); [|discriminate].
    apply bind_Ok in E as (x & Ex & E). apply bind_Ok in E as (y & Ey & E).
    apply Ok_inj in E. injection E as _ <-. apply rd_ui_ok_len in Ey as [? ->]. split; [reflexivity|lia].
  - discriminate.
Qed.

Lemma reclen_range b : bytes_ok b -> 0 <= reclen b < 2 ^ 16.
Proof.
  intros Hb. assert (Hr := be_val_range _ (piece_ok 1 2 b Hb)). unfold reclen. fold (piece 1 2 b).
  assert (List.length (piece 1 2 b) <= 2)%nat by (unfold piece; rewrite firstn_length; lia).
  assert (256 ^ Z.of_nat (List.length (piece 1 2 b)) <= 256 ^ 2) by (apply Z.pow_le_mono_r; lia). lia.
Qed.

Lemma records_tiled h : forall fuel hd b hd', bytes_ok b -> Z.of_nat (List.length b) < 2 ^ 32 ->
  read_records fuel h hd b (Z.of_nat (List.length b)) = Ok hd' -> tiled b.
Proof.
  induction fuel as [|fuel IH]; intros hd b hd' Hb Hl E; cbn [read_records] in E.
  - destruct (Z.eqb_spec (Z.of_nat (List.length b)) 0) as [Z0|]; [|discriminate].
    destruct b; [constructor|discriminate].
  - destruct (Z.eqb_spec (Z.of_nat (List.length b)) 0) as [Z0|NZ].
    { destruct b; [constructor|discriminate]. }
    apply bind_Ok in E as ([hd1 l] & Er & E). apply record_ok_len in Er as [-> H3].
    destruct (Z.eqb_spec (reclen b) 0) as [|Hn0]; [discriminate|].
    assert (Hr := reclen_range b Hb).
    destruct (Z_le_gt_dec (reclen b) (Z.of_nat (List.length b))) as [Hle|Hgt].
    + constructor; [lia|]. apply IH with hd1 hd'.
      * apply bytes_ok_skipn, Hb.
      * rewrite skipn_length. lia.
      * replace (Z.of_nat (List.length (skipn (Z.to_nat (reclen b)) b)))
          with ((Z.of_nat (List.length b) - reclen b) mod 2 ^ 64); [exact E|].
        rewrite skipn_length, Z.mod_small; lia.
    + exfalso. rewrite skipn_all2 in E by lia.
      set (left := (Z.of_nat (List.length b) - reclen b) mod 2 ^ 64) in E.
      assert (left <> 0).
      { unfold left. intros H0. apply Z.mod_divide in H0; [|lia]. destruct H0 as [k Hk].
        assert (2 ^ 16 < 2 ^ 64) by lia. assert (2 ^ 32 < 2 ^ 64) by lia. nia. }
      destruct fuel; cbn [read_records] in E; replace (left =? 0) with false in E by lia; discriminate.
Qed.

Lemma header_accepts_tiled h hd0 s hd rest : bytes_ok s -> read_header h hd0 s = Ok (hd, rest) ->
  (16 + announced s <= List.length s)%nat /\ rest = skipn (16 + announced s) s /\
  tiled (firstn (announced s) (skipn 16 s)).
Proof.
  intros Hok. unfold read_header.
  destruct (Nat.ltb_spec (List.length s) 16) as [|H16]; [discriminate|].
  destruct (prim_reads h s H16) as (-> & -> & -> & -> & ->). cbn [bind].
  destruct (negb (nth 0 s 0 =? 0)); [discriminate|].
  destruct (negb (be_val (piece 1 2 s) =? 16)); [discriminate|].
  unfold announced. set (hs := (be_val (piece 4 4 s) - 16) mod 2 ^ 32) in *.
  assert (Hhs : 0 <= hs < 2 ^ 32) by (apply Z.mod_pos_bound; lia).
  destruct (Z.ltb_spec (Z.of_nat (List.length (skipn 16 s))) hs) as [|Hle]; [discriminate|].
  intros E. apply bind_Ok in E as (hd1 & E & E'). apply Ok_inj in E'. apply pair_inj in E' as [<- <-].
  rewrite skipn_length in Hle. rewrite skipn_skipn, (Nat.add_comm _ 16). split; [lia|]. split; [reflexivity|].
  set (hb := firstn (Z.to_nat hs) (skipn 16 s)) in *.
  assert (Hhb : Z.of_nat (List.length hb) = hs) by (unfold hb; rewrite firstn_length, skipn_length; lia).
  rewrite <- Hhb in E. eapply records_tiled; [|lia|exact E].
  apply bytes_ok_firstn, bytes_ok_skipn, Hok.
Qed.

(** * Divergence *)
Lemma bind_Loop {A B} (m : outcome A) (f : A -> outcome B) : bind m f = Loop ->
  m = Loop \/ exists a, m = Ok a /\ f a = Loop.
Proof. destruct m as [a| | | |]; cbn [bind]; try discriminate; eauto. Qed.
Lemma rd_ui_not_loop h b o n : rd_ui h b o n <> Loop.
Proof. unfold rd_ui, bytes_at. destruct (_ <=? _)%nat; discriminate. Qed.
Lemma rd_i_not_loop h b o n : rd_i h b o n <> Loop.
Proof. unfold rd_i, bytes_at. destruct (_ <=? _)%nat; discriminate. Qed.
Lemma rd1_not_loop b o : rd1 b o <> Loop.
Proof. unfold rd1. destruct (nth_error b o); discriminate. Qed.
Lemma ba_not_loop b o n : bytes_at b o n <> Loop.
Proof. unfold bytes_at. destruct (_ <=? _)%nat; discriminate. Qed.
Lemma substr_not_loop b o n : substr b o n <> Loop.
Proof. unfold substr. destruct (_ <=? _)%nat; discriminate. Qed.
Ltac noloop :=
  repeat (match goal with
  | H : rd_ui _ _ _ _ = Loop |- _ => exfalso; exact (rd_ui_not_loop _ _ _ _ H)
  | H : rd_i _ _ _ _ = Loop |- _ => exfalso; exact (rd_i_not_loop _ _ _ _ H)
  | H : rd1 _ _ = Loop |- _ => exfalso; exact (rd1_not_loop _ _ H)
  | H : bytes_at _ _ _ = Loop |- _ => exfalso; exact (ba_not_loop _ _ _ H)
  | H : substr _ _ _ = Loop |- _ => exfalso; exact (substr_not_loop _ _ _ H)
  | H : bind _ _ = Loop |- _ => apply bind_Loop in H; destruct H as [H|(? & _ & H)]
  | H : Ok _ = Loop |- _ => discriminate H
  | H : UB = Loop |- _ => discriminate H
  | H : Throw = Loop |- _ => discriminate H
  | H : Terminate = Loop |- _ => discriminate H
  | H : (if ?c then _ else _) = Loop |- _ => destruct c
  | H : match ?x with Some _ => _ | None => _ end = Loop |- _ => destruct x
  end).
Lemma cds_not_loop h b o : read_cds_short h b o <> Loop.
Proof. unfold read_cds_short. intros H. noloop. Qed.
Lemma line_qs_not_loop h b n : forall o, read_line_qs h b o n <> Loop.
Proof.
  induction n as [|n IH]; intros o H; cbn [read_line_qs] in H; [discriminate|].
  apply bind_Loop in H as [H|(? & _ & H)].
  - unfold read_line_q in H. apply bind_Loop in H as [H|(? & _ & H)]; [noloop|].
    apply bind_Loop in H as [H|(? & _ & H)]; [exact (cds_not_loop _ _ _ H)|]. noloop.
  - apply bind_Loop in H as [H|(? & _ & H)]; [exact (IH _ H)|discriminate].
Qed.
Lemma record_not_loop h hd b : read_record h hd b <> Loop.
Proof.
  unfold read_record, fixed, read_image_struct, read_image_navig, read_datafunc, read_annotation,
    read_timestamp, read_ancillary, read_key, read_segment_id.
  intros H. noloop; try exact (cds_not_loop _ _ _ H); exact (line_qs_not_loop _ _ _ _ H).
Qed.

(** Only a line quality record announcing length 0 makes the reader hang. *)
Lemma zero_len_is_quality h hd b hd' : read_record h hd b = Ok (hd', 0) -> nth_error b 0 = Some 129.
Proof.
  unfold read_record. intros E. apply bind_Ok in E as (t & Et & E).
  unfold rd1 in Et. destruct (nth_error b 0) as [t'|]; [|discriminate]. apply Ok_inj in Et. subst t'.
  repeat match goal with
  | E : (if ?c then _ else _) = _ |- _ => destruct c eqn:?
  | E : fixed _ _ _ _ = _ |- _ => unfold fixed in E; apply bind_Ok in E as (x & Ex & E)
  end; try discriminate; try (apply bind_Ok in E as (? & _ & E); discriminate).
  - apply bind_Ok in E as (x & Ex & E). apply bind_Ok in E as (y & Ey & E).
    apply Ok_inj in E. injection E as _ ->. unfold read_datafunc in Ey. rewrite Ex in Ey. discriminate.
  - apply bind_Ok in E as (x & Ex & E). apply bind_Ok in E as (y & Ey & E).
    apply Ok_inj in E. injection E as _ ->. unfold read_ancillary in Ey. rewrite Ex in Ey. discriminate.
  - f_equal. lia.
Qed.

Lemma skipn_nth_error {A} (l : list A) k j : nth_error (skipn k l) j = nth_error l (k + j).
Proof.
  revert l; induction k as [|k IH]; intros l; [reflexivity|].
  destruct l; cbn [skipn Nat.add nth_error]; [destruct j; reflexivity|apply IH].
Qed.

Lemma records_loop h : forall fuel hd b left, bytes_ok b -> (List.length b < fuel)%nat ->
  read_records fuel h hd b left = Loop ->
  exists k, nth_error b k = Some 129 /\ reclen (skipn k b) = 0.
Proof.
  induction fuel as [|fuel IH]; intros hd b left Hb Hf E; [lia|].
  cbn [read_records] in E. destruct (left =? 0); [discriminate|].
  apply bind_Loop in E as [E|([hd1 l] & Er & E)]; [exfalso; exact (record_not_loop _ _ _ E)|].
  assert (Hrl := record_ok_len _ _ _ _ _ Er). destruct Hrl as [Hl H3].
  destruct (Z.eqb_spec l 0) as [Hl0|Hn0].
  - exists 0%nat. split; [|now cbn [skipn]; rewrite <- Hl].
    rewrite Hl0 in Er. exact (zero_len_is_quality _ _ _ _ Er).
  - assert (Hr := reclen_range b Hb).
    apply IH in E; [|apply bytes_ok_skipn, Hb|rewrite skipn_length; lia].
    destruct E as (k & Hk & Hz). exists (Z.to_nat l + k)%nat.
    rewrite skipn_nth_error in Hk. rewrite skipn_skipn in Hz.
    split; [exact Hk|]. rewrite Nat.add_comm. exact Hz.
Qed.

Lemma header_loop h hd0 s : bytes_ok s -> read_header h hd0 s = Loop ->
  exists k, nth_error (firstn (announced s) (skipn 16 s)) k = Some 129 /\
            reclen (skipn k (firstn (announced s) (skipn 16 s))) = 0.
Proof.
  intros Hok. unfold read_header.
  destruct (Nat.ltb_spec (List.length s) 16) as [|H16]; [discriminate|].
  destruct (prim_reads h s H16) as (-> & -> & -> & -> & ->). cbn [bind].
  destruct (negb (nth 0 s 0 =? 0)); [discriminate|].
  destruct (negb (be_val (piece 1 2 s) =? 16)); [discriminate|].
  fold (announced s). destruct (_ <? _); [discriminate|].
  intros E. apply bind_Loop in E as [E|(? & _ & E)]; [|discriminate].
  eapply records_loop; [|apply Nat.lt_succ_diag_r|exact E].
  apply bytes_ok_firstn, bytes_ok_skipn, Hok.
Qed.

(** * Derived values (C13) *)
Definition image_derived (im : img_struct) : Prop :=
  is_pixels im = is_cols im * is_lines im /\
  8 * (is_size im - 1) < is_pixels im * is_bpp im <= 8 * is_size im.
Definition derived_ok (hd : header) : Prop :=
  forall im, h_image hd = Some im -> image_derived im.

Lemma record_derived h hd b hd' l : bytes_ok b -> derived_ok hd ->
  read_record h hd b = Ok (hd', l) -> derived_ok hd' /\
  h_typecode hd' = h_typecode hd /\ h_total hd' = h_total hd /\ h_dfl hd' = h_dfl hd /\ h_filesize hd' = h_filesize hd.
Proof.
  intros Hb Hd. unfold read_record. intros E. apply bind_Ok in E as (t & Et & E).
  repeat match goal with
  | E : (if ?c then _ else _) = _ |- _ => destruct c
  | E : fixed _ _ _ _ = _ |- _ => apply fixed_ok_inv in E as (_ & _ & E); apply bind_Ok in E as (v & Ev & E); apply Ok_inj in E; subst hd'
  end; try (split; [exact Hd|repeat split; reflexivity]).
  - split; [|repeat split; reflexivity].
    unfold read_image_struct in Ev.
    apply bind_Ok in Ev as (bpp & Hbpp & Ev). apply bind_Ok in Ev as (cols & Hcols & Ev).
    apply bind_Ok in Ev as (lines & Hlines & Ev). apply bind_Ok in Ev as (comp & Hcomp & Ev).
    destruct (_ <=? _); [discriminate|]. apply Ok_inj in Ev. subst v.
    intros im Him. cbn [with_image h_image] in Him. injection Him as <-.
    unfold image_derived. cbn [is_pixels is_cols is_lines is_size is_bpp].
    split; [reflexivity|]. destruct (Z.eqb_spec (cols * lines * bpp mod 8) 0); lia.
  - apply bind_Ok in E as (x & _ & E). apply bind_Ok in E as (y & _ & E).
    apply Ok_inj in E. injection E as <- _. split; [exact Hd|repeat split; reflexivity].
  - apply bind_Ok in E as (x & _ & E). apply bind_Ok in E as (y & _ & E).
    apply Ok_inj in E. injection E as <- _. split; [exact Hd|repeat split; reflexivity].
  - destruct (h_image hd) eqn:Him; [|discriminate].
    apply bind_Ok in E as (x & _ & E). apply bind_Ok in E as (y & _ & E).
    apply Ok_inj in E. injection E as <- _. split; [exact Hd|repeat split; reflexivity].
  - discriminate.
Qed.

Lemma records_derived h : forall fuel hd b left hd', bytes_ok b -> derived_ok hd ->
  read_records fuel h hd b left = Ok hd' -> derived_ok hd' /\
  h_total hd' = h_total hd /\ h_dfl hd' = h_dfl hd /\ h_filesize hd' = h_filesize hd.
Proof.
  induction fuel as [|fuel IH]; intros hd b left hd' Hb Hd E; cbn [read_records] in E.
  - destruct (left =? 0); [|discriminate]. apply Ok_inj in E. subst. auto.
  - destruct (left =? 0). { apply Ok_inj in E. subst. auto. }
    apply bind_Ok in E as ([hd1 l] & Er & E). destruct (l =? 0); [discriminate|].
    apply record_derived in Er as (Hd1 & _ & H1 & H2 & H3); [|exact Hb|exact Hd].
    apply IH in E as (Hd2 & H4 & H5 & H6); [|apply bytes_ok_skipn, Hb|exact Hd1].
    split; [exact Hd2|]. repeat split; congruence.
Qed.

Lemma header_derived h hd0 s hd rest : bytes_ok s -> derived_ok hd0 ->
  read_header h hd0 s = Ok (hd, rest) ->
  derived_ok hd /\ h_total hd = be_val (piece 4 4 s) /\ h_dfl hd = be_val (piece 8 8 s) /\
  h_filesize hd = h_total hd + h_dfl hd / 8.
Proof.
  intros Hok Hd. unfold read_header.
  destruct (Nat.ltb_spec (List.length s) 16) as [|H16]; [discriminate|].
  destruct (prim_reads h s H16) as (-> & -> & -> & -> & ->). cbn [bind].
  destruct (negb (nth 0 s 0 =? 0)); [discriminate|].
  destruct (negb (be_val (piece 1 2 s) =? 16)); [discriminate|].
  destruct (_ <? _); [discriminate|].
  intros E. apply bind_Ok in E as (hd1 & E & E'). apply Ok_inj in E'. injection E' as <- _.
  apply records_derived in E as (Hd1 & H1 & H2 & H3);
    [|apply bytes_ok_firstn, bytes_ok_skipn, Hok|exact Hd].
  cbn [h_total h_dfl h_filesize] in *.
  split; [exact Hd1|]. rewrite H1, H2, H3. repeat split. apply Z.add_comm.
Qed.
