(** Properties C39-C43 and C73: OpenMTP-IDS files. *)
From Verif Require Import BaseFacts IdsModel IdsSpec IdsProofs IdsBytes.

(** ** C39. An object is consistent when some bytes hold it: each count field is
    the number of items, the lengths leave room for them, fields fit 16 bits. *)
Definition consistent (x : ids) : Prop := exists w, ids_bytes x w.
Theorem C39_round_trip : forall x, consistent x ->
  exists w, write_ids x = Ok w /\ ids_bytes x w /\ read_file w = Ok x /\
            forall tail, read_ids (mk_stream (w ++ tail) true) = Ok (x, mk_stream tail true).
Proof.
  intros x [w0 H]. destruct (write_ids_bytes _ _ H) as (w & E & W & _). exists w. split; [exact E|]. split; [exact W|].
  split; [|intros tail; now apply read_ids_fwd]. unfold read_file. rewrite <- (app_nil_r w), (read_ids_fwd _ _ _ W). reflexivity.
Qed.
Print Assumptions C39_round_trip.
(** Any padding is read. *)
Theorem C39_any_padding : forall x w, ids_bytes x w -> read_file w = Ok x.
Proof. intros x w H. unfold read_file. rewrite <- (app_nil_r w), (read_ids_fwd _ _ _ H). reflexivity. Qed.
Print Assumptions C39_any_padding.
(** The only dangerous objects announce more records than they have; no records
    field 0 does so. *)
Theorem C39_write_undefined_iff : forall x,
  (Z.of_nat (List.length (id_records x)) < announced (id_header x) <-> write_ids x = UB) /\
  (fh_no_records (id_header x) = 0 -> Z.of_nat (List.length (id_records x)) < 2 ^ 32 - 1 -> write_ids x = UB).
Proof.
  intros x. unfold write_ids. split.
  - destruct (Z.leb_spec (announced (id_header x)) (Z.of_nat (List.length (id_records x)))); split; intros; try congruence; lia.
  - intros E L. unfold announced. rewrite E. change ((0 - 1) mod 2 ^ 32) with (2 ^ 32 - 1). destruct (Z.leb_spec (2 ^ 32 - 1) (Z.of_nat (List.length (id_records x)))); [lia|reflexivity].
Qed.
Print Assumptions C39_write_undefined_iff.

Definition sample_line (n : Z) (px : list Z) : scan_line := mk_scan_line (mk_line_header (18 + Z.of_nat (List.length px)) n 1 (Z.of_nat (List.length px)) 2 0 0 65535) px.
Definition sample : ids :=
  mk_ids (mk_file_header [0; 1] 4 1998 365 23 59 1999 1 0 30 3 1 2 4 (codes "METEOSAT") 7 60 1 1 1 0 1 65535 256 255 6 7)
    [ mk_record (mk_record_header [0; 1] 8 2 100 0) [sample_line 1 [5; 255; 0]; sample_line 2 []];
      mk_record (mk_record_header [9; 9] 8 0 0 0) [];
      mk_record (mk_record_header [0; 1] 8 1 50 0) [sample_line 3 [7; 8]] ].
Lemma sample_line_ok n px : word n -> bytes_ok px -> (List.length px <= 100)%nat -> line_bytes (sample_line n px)
  (words [18 + Z.of_nat (List.length px); n; 1; Z.of_nat (List.length px); 2; 0; 0; 65535] ++ px ++ [3; 4]).
Proof.
  intros N B L. unfold sample_line. constructor; [|exact B| |cbn [List.length]; lia].
  - unfold word in *. repeat (apply Forall_cons; [lia|]). apply Forall_nil.
  - repeat (apply Forall_cons; [unfold is_byte; lia|]). apply Forall_nil.
Qed.
Ltac bytes := unfold bytes_ok, is_byte, word; repeat (apply Forall_cons; [lia|]); apply Forall_nil.
Example C39_case : consistent sample.
Proof.
  unfold consistent, sample. eexists. apply ids_bytes_intro with (fill := [170; 187]).
  1,3: reflexivity. 1-5: cbn; bytes. 1,2: reflexivity.
  repeat (apply seq_cons; [|]); [| | |apply seq_nil].
  - apply (record_bytes_intro [0; 1] 8 100 0 [sample_line 1 [5; 255; 0]; sample_line 2 []]); [reflexivity|bytes|cbn; bytes|].
    repeat (apply seq_cons; [apply sample_line_ok; [unfold word; lia|bytes|cbn; lia]|]). apply seq_nil.
  - apply (record_bytes_intro [9; 9] 8 0 0 []); [reflexivity|bytes|cbn; bytes|apply seq_nil].
  - apply (record_bytes_intro [0; 1] 8 50 0 [sample_line 3 [7; 8]]); [reflexivity|bytes|cbn; bytes|].
    repeat (apply seq_cons; [apply sample_line_ok; [unfold word; lia|bytes|cbn; lia]|]). apply seq_nil.
Qed.
Example C39_case_bytes : exists w, write_ids sample = Ok w /\ List.length w = 151%nat /\ read_file w = Ok sample.
Proof. exists (match write_ids sample with Ok w => w | _ => [] end). vm_compute. auto. Qed.

(** ** C40 *)
Lemma ids_bytes_ok x w : ids_bytes x w -> bytes_ok w.
Proof.
  assert (W : forall l, bytes_ok (words l)).
  { induction l as [|v l IH]; [constructor|]. change (words (v :: l)) with (be 2 v ++ words l). apply bytes_ok_app. split; [apply be_bytes|exact IH]. }
  assert (L : forall l b, line_bytes l b -> bytes_ok b) by (destruct 1; repeat (apply bytes_ok_app; split; auto)).
  assert (Q : forall A (P : A -> list Z -> Prop), (forall a b, P a b -> bytes_ok b) -> forall l b, seq_bytes P l b -> bytes_ok b).
  { intros A P H l b. induction 1; [constructor|]. apply bytes_ok_app. eauto. }
  assert (R : forall l b, record_bytes l b -> bytes_ok b) by (destruct 1; repeat (apply bytes_ok_app; split; auto); eapply Q; eauto).
  destruct 1. repeat (apply bytes_ok_app; split; auto). eapply Q; eauto.
Qed.
Lemma prefix_free x w y v r : ids_bytes x w -> ids_bytes y v -> w = v ++ r -> r = [].
Proof.
  intros X Y ->. pose proof (read_ids_fwd _ _ [] X) as A. rewrite app_nil_r in A. rewrite (read_ids_fwd _ _ r Y) in A. apply Ok_inj, pair_inj in A as [_ A]. congruence.
Qed.
Lemma read_file_bytes content x : bytes_ok content -> Z.of_nat (List.length content) < 2 ^ 32 - 1 ->
  (read_file content = Ok x <-> exists w tail, content = w ++ tail /\ ids_bytes x w).
Proof.
  intros B S. unfold read_file. split.
  - destruct (read_ids (mk_stream content true)) as [[y s]| | | |] eqn:E; cbn [bind fst snd]; try discriminate.
    destruct (read_ids_bwd (mk_stream content true) _ _ B S E) as (G & w & W & R). rewrite G. intros H. apply Ok_inj in H. subst y. exists w, (rest s). split; [exact R|exact W].
  - intros (w & tail & -> & W). rewrite (read_ids_fwd _ _ _ W). reflexivity.
Qed.
Lemma read_file_total content : bytes_ok content -> (exists x, read_file content = Ok x) \/ read_file content = Throw.
Proof.
  intros B. unfold read_file. destruct (read_ids_total (mk_stream content true) B) as [[[x s] ->]| ->]; cbn [bind fst snd]; [|auto]. destruct (good s); eauto.
Qed.
Theorem C40_truncation_rejected : forall x w, consistent x -> write_ids x = Ok w -> Z.of_nat (List.length w) < 2 ^ 32 - 1 ->
  forall cut, (cut < List.length w)%nat -> read_file (firstn cut w) = Throw.
Proof.
  intros x w C E L cut K. assert (W : ids_bytes x w).
  { destruct C as [w0 C]. destruct (write_ids_bytes _ _ C) as (w' & E' & W & _). rewrite E in E'. apply Ok_inj in E'. congruence. }
  pose proof (ids_bytes_ok _ _ W) as B. destruct (read_file_total (firstn cut w)) as [[y R]|R]; [now apply bytes_ok_firstn| |exact R]. exfalso.
  apply read_file_bytes in R as (v & tail & Ev & V); [|now apply bytes_ok_firstn|rewrite firstn_length; lia].
  assert (X : tail ++ skipn cut w = []) by (apply (prefix_free x w y v _ W V); rewrite app_assoc, <- Ev; symmetry; apply firstn_skipn).
  apply app_eq_nil in X as [_ X]. assert (Y : List.length (skipn cut w) = 0%nat) by now rewrite X. rewrite skipn_length in Y. lia.
Qed.
Print Assumptions C40_truncation_rejected.
(** Also with any padding in place of zeros. *)
Theorem C40_prefixes_rejected : forall x w r, ids_bytes x (w ++ r) -> r <> [] -> Z.of_nat (List.length w) < 2 ^ 32 - 1 -> read_file w = Throw.
Proof.
  intros x w r W N L. pose proof (ids_bytes_ok _ _ W) as B. apply bytes_ok_app in B as [B _]. destruct (read_file_total w B) as [[y R]|R]; [|exact R]. exfalso.
  apply read_file_bytes in R as (v & tail & -> & V); [|exact B|exact L]. rewrite <- app_assoc in W. pose proof (prefix_free _ _ _ _ _ W V eq_refl) as X.
  apply app_eq_nil in X. tauto.
Qed.
Print Assumptions C40_prefixes_rejected.
Example C40_case : exists w, write_ids sample = Ok w /\ Z.of_nat (List.length w) < 2 ^ 32 - 1 /\
  forallb (fun n => match read_file (firstn n w) with Throw => true | _ => false end) (seq 0 151) = true.
Proof. exists (match write_ids sample with Ok w => w | _ => [] end). vm_compute. auto. Qed.

(** ** C41 *)
Definition lines (x : ids) : list scan_line := List.concat (map rc_lines (id_records x)).
Theorem C41_range : forall x from to, scanline_range x from to = firstn (to - from) (skipn from (lines x)).
Proof.
  intros x from to. unfold scanline_range. destruct (Nat.leb_spec to from) as [L|L]; [|apply range_loop_spec]. replace (to - from)%nat with 0%nat by lia. reflexivity.
Qed.
Print Assumptions C41_range.
Theorem C41_single : forall x n, scanline_one x n = match nth_error (lines x) n with Some l => [l] | None => [] end.
Proof.
  intros x n. unfold scanline_one. rewrite C41_range. replace (n + 1 - n)%nat with 1%nat by lia. generalize (lines x). induction n as [|n IH]; intros [|l ls]; cbn [skipn nth_error]; try reflexivity. apply IH.
Qed.
Print Assumptions C41_single.
Example C41_case : scanline_range sample 1 3 = [sample_line 2 []; sample_line 3 [7; 8]] /\ scanline_one sample 2 = [sample_line 3 [7; 8]] /\ scanline_range sample 2 99 = [sample_line 3 [7; 8]].
Proof. repeat split. Qed.

(** ** C42: the last line is left out. *)
Theorem C42_all_but_last_partial : forall x, Z.of_nat (List.length (lines x)) < 2 ^ 32 -> scanline_all x = removelast (lines x).
Proof.
  intros x L. unfold scanline_all. rewrite C41_range, total_lines. fold (lines x). rewrite Nat.sub_0_r. cbn [skipn]. destruct (lines x) as [|l ls] eqn:E; [now rewrite firstn_nil|].
  rewrite Z.mod_small by (cbn [List.length] in *; lia). rewrite removelast_firstn_len. f_equal. cbn [List.length]. lia.
Qed.
Print Assumptions C42_all_but_last_partial.
Theorem C42_refuted_last_line_missing : forall x, Z.of_nat (List.length (lines x)) < 2 ^ 32 -> lines x <> [] ->
  scanline_all x <> lines x /\ exists l, lines x = scanline_all x ++ [l].
Proof.
  intros x L N. rewrite (C42_all_but_last_partial x L). destruct (exists_last N) as (p & l & E). rewrite E, removelast_last. split; [|eauto].
  intros H. apply (f_equal (@List.length _)) in H. rewrite app_length in H. cbn in H. lia.
Qed.
Print Assumptions C42_refuted_last_line_missing.
Example C42_case : lines sample <> [] /\ scanline_all sample = [sample_line 1 [5; 255; 0]; sample_line 2 []] /\ List.length (lines sample) = 3%nat.
Proof. split; [discriminate|]. split; vm_compute; reflexivity. Qed.

(** ** C43. Counts outside the range mean the full width. *)
Theorem C43_layout : forall bytes v,
  let k top := Z.to_nat (if (0 <=? bytes) && (bytes <=? top) then bytes else top) in
  (big_write2 bytes v = be (k 2) v /\ big_write4 bytes v = be (k 4) v /\ big_write8 bytes v = be (k 8) v) /\
  (little_write2 bytes v = rev (be (k 2) v) /\ little_write4 bytes v = rev (be (k 4) v) /\ little_write8 bytes v = rev (be (k 8) v)).
Proof.
  intros bytes v k. assert (K : forall top, k (Z.of_nat top) = entered top bytes) by (intros top; pose proof (entered_width top bytes) as E; unfold width, k in *; rewrite <- E; apply Nat2Z.id).
  assert (Lit : forall n, little_put 0 n v = rev (be n v)) by (intros n; pose proof (little_put_be n v 0 ltac:(lia)) as E; rewrite Z.pow_0_r, Z.div_1_r in E; exact E).
  pose proof (K 2%nat) as K2. pose proof (K 4%nat) as K4. pose proof (K 8%nat) as K8. cbn [Z.of_nat Pos.of_succ_nat Pos.succ] in K2, K4, K8. rewrite K2, K4, K8.
  split; (split; [|split]); first [apply big_put_be | apply Lit].
Qed.
Print Assumptions C43_layout.
Theorem C43_big_endian_partial : forall bytes v r,
  let k top := if (0 <=? bytes) && (bytes <=? top) then bytes else top in
  (0 <= bytes <= 2 -> big_read2 bytes (mk_stream (big_write2 bytes v ++ r) true) = Ok (v mod 256 ^ bytes, mk_stream r true)) /\
  big_read4 bytes (mk_stream (big_write4 bytes v ++ r) true) = Ok (v mod 256 ^ k 4, mk_stream r true) /\
  big_read8 bytes (mk_stream (big_write8 bytes v ++ r) true) = Ok (v mod 256 ^ k 8, mk_stream r true).
Proof.
  intros bytes v r k. split; [|split].
  - intros H. unfold big_read2, big_write2. assert (E : entered 4 bytes = Z.to_nat bytes /\ entered 2 bytes = Z.to_nat bytes) by (unfold entered; destruct ((0 <=? bytes) && (bytes <=? Z.of_nat 4)) eqn:E4; destruct ((0 <=? bytes) && (bytes <=? Z.of_nat 2)) eqn:E2; lia).
    destruct E as [-> ->]. rewrite big_round by lia. rewrite Z2Nat.id by lia. reflexivity.
  - unfold big_read4, big_write4. rewrite big_round; rewrite entered_width; [reflexivity|]. unfold width. destruct ((0 <=? bytes) && (bytes <=? Z.of_nat 4)) eqn:E; lia.
  - unfold big_read8, big_write8. rewrite big_round; rewrite entered_width; [reflexivity|]. unfold width. destruct ((0 <=? bytes) && (bytes <=? Z.of_nat 8)) eqn:E; lia.
Qed.
Print Assumptions C43_big_endian_partial.
Theorem C43_little_endian : forall bytes v r,
  let k top := if (0 <=? bytes) && (bytes <=? top) then bytes else top in
  little_read2 bytes (mk_stream (little_write2 bytes v ++ r) true) = (v mod 256 ^ k 2, mk_stream r true) /\
  little_read4 bytes (mk_stream (little_write4 bytes v ++ r) true) = (v mod 256 ^ k 4, mk_stream r true) /\
  little_read8 bytes (mk_stream (little_write8 bytes v ++ r) true) = (v mod 256 ^ k 8, mk_stream r true).
Proof.
  intros bytes v r k. split; [|split].
  - unfold little_read2, little_write2. rewrite little_round; rewrite entered_width; [reflexivity|]. unfold width. destruct ((0 <=? bytes) && (bytes <=? Z.of_nat 2)) eqn:E; lia.
  - unfold little_read4, little_write4. rewrite little_round; rewrite entered_width; [reflexivity|]. unfold width. destruct ((0 <=? bytes) && (bytes <=? Z.of_nat 4)) eqn:E; lia.
  - unfold little_read8, little_write8. rewrite little_round; rewrite entered_width; [reflexivity|]. unfold width. destruct ((0 <=? bytes) && (bytes <=? Z.of_nat 8)) eqn:E; lia.
Qed.
Print Assumptions C43_little_endian.
(** With a count outside 0..2 the 16-bit big-endian write gives two bytes, the
    read takes three or four. *)
Theorem C43_refuted_wide_count : forall bytes a b c d r, is_byte a -> is_byte b -> is_byte c -> is_byte d -> bytes < 0 \/ 2 < bytes ->
  big_write2 bytes (a * 256 + b) = [a; b] /\
  big_read2 bytes (mk_stream ([a; b] ++ c :: d :: r) true) =
    (if bytes =? 3 then Ok (b * 256 + c, mk_stream (d :: r) true) else Ok (c * 256 + d, mk_stream r true)).
Proof.
  intros bytes a b c d r A B C D N. unfold is_byte in *. split.
  - unfold big_write2. rewrite big_put_be. assert (E : entered 2 bytes = 2%nat) by (unfold entered; destruct ((0 <=? bytes) && (bytes <=? Z.of_nat 2)) eqn:E; lia).
    rewrite E, word_be by (unfold word; lia). replace ((a * 256 + b) / 256) with a by lia. replace ((a * 256 + b) mod 256) with b by lia. reflexivity.
  - assert (H : forall x, 0 <= x < 256 -> forall n, 16 <= n -> Z.shiftl (x mod 2 ^ 16) n mod 2 ^ 16 = 0).
    { intros x X n Hn. rewrite Z.shiftl_mul_pow2 by lia. replace n with (n - 16 + 16) by lia. rewrite Z.pow_add_r by lia. rewrite Z.mul_assoc. apply Z.mod_mul. lia. }
    assert (T : forall x y, 0 <= x < 256 -> 0 <= y < 256 -> Z.lor (Z.shiftl (x mod 2 ^ 16) 8 mod 2 ^ 16) y mod 2 ^ 16 = x * 256 + y).
    { intros x y X Y. change (2 ^ 16) with 65536. rewrite Z.shiftl_mul_pow2 by lia. change (2 ^ 8) with 256. rewrite (Z.mod_small x), (Z.mod_small (x * 256)) by lia.
      pose proof (lor_disjoint x y 8 ltac:(lia)) as L. change (2 ^ 8) with 256 in L. rewrite L by lia. apply Z.mod_small. lia. }
    unfold big_read2. destruct (Z.eqb_spec bytes 3) as [->|N3].
    + change (entered 4 3) with 3%nat. cbn [big_get get good rest app]. change (8 * Z.of_nat 2) with 16. change (8 * Z.of_nat 1) with 8.
      rewrite (Z.mod_small a), (Z.mod_small b) by lia. rewrite !Z.shiftl_mul_pow2 by lia. destruct (Z.leb_spec (2 ^ 32) (a * 2 ^ 16)); [lia|]. destruct (Z.leb_spec (2 ^ 32) (b * 2 ^ 8)); [lia|]. cbn [andb Z.eqb Pos.eqb].
      replace (Z.lor 0 (a * 2 ^ 16) mod 2 ^ 16) with 0 by (rewrite Z.lor_0_l, Z.mod_mul; lia). rewrite Z.lor_0_l. f_equal. f_equal.
      rewrite <- (T b c B C). rewrite (Z.mod_small b) by lia. now rewrite Z.shiftl_mul_pow2 by lia.
    + assert (E : entered 4 bytes = 4%nat) by (unfold entered; destruct ((0 <=? bytes) && (bytes <=? Z.of_nat 4)) eqn:E; lia). rewrite E.
      cbn [big_get get good rest app]. change (8 * Z.of_nat 3) with 24. change (8 * Z.of_nat 2) with 16. change (8 * Z.of_nat 1) with 8.
      rewrite (Z.mod_small a), (Z.mod_small b), (Z.mod_small c) by lia. rewrite !Z.shiftl_mul_pow2 by lia. destruct (Z.leb_spec (2 ^ 32) (a * 2 ^ 24)); [lia|]. destruct (Z.leb_spec (2 ^ 32) (b * 2 ^ 16)); [lia|]. destruct (Z.leb_spec (2 ^ 32) (c * 2 ^ 8)); [lia|]. cbn [andb Z.eqb Pos.eqb].
      replace (Z.lor 0 (a * 2 ^ 24) mod 2 ^ 16) with 0 by (rewrite Z.lor_0_l; change (2 ^ 24) with (256 * 2 ^ 16); rewrite Z.mul_assoc, Z.mod_mul; lia). replace (Z.lor 0 (b * 2 ^ 16) mod 2 ^ 16) with 0 by (rewrite Z.lor_0_l, Z.mod_mul; lia). rewrite Z.lor_0_l. f_equal. f_equal.
      rewrite <- (T c d C D). rewrite (Z.mod_small c) by lia. now rewrite Z.shiftl_mul_pow2 by lia.
Qed.
Print Assumptions C43_refuted_wide_count.
Example C43_case : big_write4 3 305419896 = [52; 86; 120] /\ little_write4 3 305419896 = [120; 86; 52] /\ big_read2 4 (mk_stream [1; 2; 3; 4] true) = Ok (772, mk_stream [] true).
Proof. repeat split. Qed.

(** ** C73 *)
Theorem C73_accepted_is_wellformed : forall content, bytes_ok content -> Z.of_nat (List.length content) < 2 ^ 32 - 1 ->
  (forall x, read_file content = Ok x <-> exists w tail, content = w ++ tail /\ ids_bytes x w) /\
  ((exists x, read_file content = Ok x) \/ read_file content = Throw).
Proof. intros content B L. split; [intros x; now apply read_file_bytes|now apply read_file_total]. Qed.
Print Assumptions C73_accepted_is_wellformed.
(** Writing back what was read gives a file of the same length. *)
Theorem C73_rewrite : forall content x, bytes_ok content -> Z.of_nat (List.length content) < 2 ^ 32 - 1 -> read_file content = Ok x ->
  exists w w' tail, content = w ++ tail /\ write_ids x = Ok w' /\ List.length w' = List.length w /\ read_file w' = Ok x.
Proof.
  intros content x B L E. apply read_file_bytes in E as (w & tail & -> & W); [|exact B|exact L]. destruct (write_ids_bytes _ _ W) as (w' & Ew & W' & Lw).
  exists w, w', tail. repeat split; auto. now apply C39_any_padding.
Qed.
Print Assumptions C73_rewrite.
Example C73_case : read_file (repeat 0 59 ++ [1]) = Throw /\ read_file (repeat 255 200) = Throw.
Proof. split; vm_compute; reflexivity. Qed.
