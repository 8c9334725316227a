(** Properties C44-C47, C74 and C75: MSG native files. *)
From Verif Require Import BaseFacts MachineModel NativeModel NativeSpec NativeProofs.
From Coq Require Import Permutation.

(** ** C44 *)
Theorem C44_unpacking : forall d k, bytes_ok d -> List.length d = (5 * k)%nat ->
  to_new_sample d = Ok (groups d) /\ nsample d = Z.of_nat (4 * k) /\ List.length (groups d) = (4 * k)%nat /\
  Forall (fun v => 0 <= v < 1024) (groups d) /\ pack (groups d) = d.
Proof.
  intros d k B L. destruct (groups_props d B) as (Lg & F & P); [lia|]. assert (N : nsample d = Z.of_nat (4 * k)) by (unfold nsample; rewrite L; lia).
  split; [|split; [exact N|]; split; [rewrite Lg, L; lia|]; split; [exact F|exact P]].
  unfold to_new_sample. rewrite to_sample_spec by exact B. rewrite N, L. replace ((5 * k) mod 5 =? 0)%nat with true by (symmetry; apply Nat.eqb_eq; lia).
  replace (Z.of_nat (5 * k / 5 * 4) <=? Z.of_nat (4 * k)) with true by (symmetry; apply Z.leb_le; lia). rewrite orb_true_r. reflexivity.
Qed.
Print Assumptions C44_unpacking.
(** Sample i is bits 10 i .. 10 i + 9 of the line. *)
Theorem C44_bits : forall d k i, bytes_ok d -> List.length d = (5 * k)%nat -> (i < 4 * k)%nat ->
  exists s, to_new_sample d = Ok s /\ forall j, (j < 10)%nat ->
    Z.testbit (nth i s 0) (Z.of_nat (9 - j)) = Z.testbit (be_val d) (Z.of_nat (40 * k - 1 - (10 * i + j))).
Proof.
  intros d k i B L I. destruct (C44_unpacking d k B L) as (E & _ & Lg & _). exists (groups d). split; [exact E|]. intros j J.
  unfold groups in *. rewrite L in *. replace (5 * k / 5 * 4)%nat with (4 * k)%nat in * by lia.
  rewrite (nth_indep _ 0 (group (be_val d) (4 * k) 0)) by lia. rewrite map_nth, seq_nth by lia. cbn [Nat.add]. unfold group.
  change 1024 with (2 ^ 10). rewrite Z.mod_pow2_bits_low by lia. rewrite <- Z.pow_mul_r, <- Z.shiftr_div_pow2, Z.shiftr_spec by lia. f_equal. lia.
Qed.
Print Assumptions C44_bits.
Example C44_case : bytes_ok [255; 192; 3; 0; 7] /\ to_new_sample [255; 192; 3; 0; 7] = Ok [1023; 0; 192; 7] /\ pack [1023; 0; 192; 7] = [255; 192; 3; 0; 7].
Proof. split; [repeat (apply Forall_cons; [unfold is_byte; lia|]); apply Forall_nil|]. split; reflexivity. Qed.

(** ** C45: only sizes that are a multiple of 5 are safe. *)
Theorem C45_safe_iff_partial : forall d, bytes_ok d -> to_new_sample d = if (List.length d mod 5 =? 0)%nat then Ok (groups d) else UB.
Proof.
  intros d B. unfold to_new_sample. rewrite to_sample_spec by exact B. destruct (Nat.eqb_spec (List.length d mod 5) 0) as [M|M]; [|reflexivity]. cbn [andb].
  replace (Z.of_nat (List.length d / 5 * 4) <=? nsample d) with true by (symmetry; apply Z.leb_le; unfold nsample; lia). rewrite orb_true_r. reflexivity.
Qed.
Print Assumptions C45_safe_iff_partial.
(** Reading a line is safe for every packet length: too small ones are refused. *)
Theorem C45_reading_safe_partial : forall hs h s, defined (read_line hs h s) = true.
Proof. intros hs h s. pose proof (read_line_total hs h s) as T. destruct (read_line hs h s); try contradiction; reflexivity. Qed.
Print Assumptions C45_reading_safe_partial.
Theorem C45_small_packets_refused : forall h s, bytes_ok s -> (38 <= List.length s)%nat -> be_val (firstn 4 (skipn 18 s)) < 42 -> read_line LE h s = Throw.
Proof.
  intros h s B L S. unfold read_line. destruct (Nat.ltb_spec (List.length s) 38); [lia|]. rewrite bytes_at_ok by lia. cbn [bind]. rewrite num_le.
  assert (R : 0 <= be_val (firstn 4 (skipn 18 s))) by (apply be_val_range; apply bytes_ok_firstn, bytes_ok_skipn, B).
  replace (be_val (firstn 4 (skipn 18 s)) - 15 - 27) with (be_val (firstn 4 (skipn 18 s)) - 42 + 2 ^ 64 + (-1) * 2 ^ 64) by lia. rewrite Z.mod_add, Z.mod_small by lia.
  destruct (Z.leb_spec (2 ^ 63) (be_val (firstn 4 (skipn 18 s)) - 42 + 2 ^ 64)); [reflexivity|lia].
Qed.
Print Assumptions C45_small_packets_refused.
(** A packet of any other size is accepted, and unpacking it is undefined. *)
Theorem C45_refuted_odd_sizes : forall p h r, packet_ok p -> (List.length (pk_data p) mod 5 <> 0)%nat ->
  exists l, read_line LE h (packet_bytes p ++ r) = Ok (l, h ++ [Some (pk_data p)], r) /\ to_new_sample (pk_data p) = UB.
Proof.
  intros p h r P M. exists (line_of p (List.length h)). split; [now apply read_line_fwd|]. rewrite C45_safe_iff_partial by apply P.
  destruct (Nat.eqb_spec (List.length (pk_data p) mod 5) 0); [contradiction|reflexivity].
Qed.
Print Assumptions C45_refuted_odd_sizes.
Definition sample_packet (ch : Z) (d : list Z) : packet := mk_packet (repeat 2 18) (repeat 0 16) (repeat 0 13 ++ [0; 0; 1; 2; ch] ++ repeat 1 9) d.
Lemma sample_packet_ok ch d : is_byte ch -> bytes_ok d -> (List.length d < 1000)%nat -> packet_ok (sample_packet ch d).
Proof.
  intros C B L. unfold packet_ok, sample_packet. cbn [pk_head pk_sub pk_line pk_data]. repeat split; try lia; try exact B.
  all: unfold bytes_ok; cbn [repeat app]; repeat (apply Forall_cons; [first [exact C|unfold is_byte; lia]|]); apply Forall_nil.
Qed.
Example C45_case : packet_ok (sample_packet 3 [1; 2; 3; 4; 5; 6]) /\ (List.length [1; 2; 3; 4; 5; 6] mod 5 <> 0)%nat /\ to_new_sample [1; 2; 3; 4; 5; 6] = UB.
Proof. split; [apply sample_packet_ok; [unfold is_byte; lia|repeat (apply Forall_cons; [unfold is_byte; lia|]); apply Forall_nil|cbn; lia]|]. split; [discriminate|reflexivity]. Qed.

(** ** C46 and C47 *)
Definition header_of (p : packet) (l : nline) : Prop :=
  nl_satellite l = be_val (firstn 2 (skipn 1 (pk_line p))) /\ nl_number l = be_val (firstn 4 (skipn 13 (pk_line p))) /\ nl_channel l = nth 17 (pk_line p) 0.
Lemma of_channel_in {A} c (a : A) tags : forall l, In a (of_channel c tags l) -> In a l.
Proof. induction tags as [|t tags IH]; intros [|b l] I; try contradiction. rewrite of_channel_cons in I. apply in_app_or in I as [I|I]; [|right; now apply IH]. destruct (t =? c)%nat; cbn in I; [|contradiction]. destruct I; [now left|contradiction]. Qed.
Lemma numbered_in k ps q : In q (numbered k ps) -> (k <= snd q < k + List.length ps)%nat /\ nth_error ps (snd q - k) = Some (fst q).
Proof.
  unfold numbered. revert k. induction ps as [|p ps IH]; intros k I; [contradiction|]. cbn [List.length seq combine] in I. destruct I as [<-|I].
  - cbn [fst snd List.length]. rewrite Nat.sub_diag. split; [lia|reflexivity].
  - destruct (IH (S k) I) as [R E]. cbn [List.length]. split; [lia|]. replace (snd q - k)%nat with (S (snd q - S k)) by lia. exact E.
Qed.
Lemma numbered_fst k ps : map fst (numbered k ps) = ps.
Proof. unfold numbered. revert k. induction ps as [|p ps IH]; intros k; cbn; [reflexivity|]. f_equal. apply IH. Qed.
Lemma channel_lines c tags ps : of_channel c tags (lines_of 0 ps) = map (fun q => line_of (fst q) (snd q)) (of_channel c tags (numbered 0 ps)).
Proof. apply of_channel_map. Qed.
Lemma channel_packets c tags ps : map (fun l => nth_error ps (nl_ptr l)) (of_channel c tags (lines_of 0 ps)) = map Some (of_channel c tags ps).
Proof.
  rewrite channel_lines, map_map. cbn [line_of nl_ptr]. rewrite (map_ext_in _ (fun q => Some (fst q))).
  - rewrite <- (map_map fst Some), <- of_channel_map, numbered_fst. reflexivity.
  - intros q I. apply of_channel_in in I. apply numbered_in in I as [_ I]. now rewrite Nat.sub_0_r in I.
Qed.
Theorem C47_lines_to_channels : forall sel n s x, bytes_ok s -> read_native LE sel n s = Ok x ->
  exists ps, Forall packet_ok ps /\ List.length ps = List.length (order sel n) /\ s = file_bytes ps ++ nt_rest x /\
    forall c, (c < 12)%nat ->
      map (fun l => nth_error ps (nl_ptr l)) (nth c (nt_lines x) []) = map Some (of_channel c (order sel n) ps) /\
      Forall2 header_of (of_channel c (order sel n) ps) (nth c (nt_lines x) []) /\
      List.length (nth c (nt_lines x) []) = if nth c sel false then if (c =? 11)%nat then (3 * n)%nat else n else 0%nat.
Proof.
  intros sel n s x B E. destruct (read_native_bwd sel n s x B E) as (ps & L & P & S & (_ & _ & N & C)). exists ps. split; [exact P|]. split; [exact L|]. split; [exact S|].
  intros c Hc. rewrite (C c Hc). split; [apply channel_packets|]. split.
  - rewrite channel_lines. rewrite <- (numbered_fst 0 ps) at 1. rewrite of_channel_map. generalize (of_channel c (order sel n) (numbered 0 ps)). clear.
    induction l as [|q l IH]; cbn; constructor; [|exact IH]. unfold header_of, line_of. cbn. auto.
  - rewrite <- order_count by exact Hc. apply of_channel_length. rewrite <- L. unfold lines_of, numbered. rewrite map_length, combine_length, seq_length. lia.
Qed.
Print Assumptions C47_lines_to_channels.
(** Every file with enough packets is read; otherwise the read ends without success. *)
Theorem C47_accepts : forall sel n s, bytes_ok s ->
  ((exists x, read_native LE sel n s = Ok x) <->
   exists ps r, s = file_bytes ps ++ r /\ Forall packet_ok ps /\ List.length ps = List.length (order sel n)) /\
  ((exists x, read_native LE sel n s = Ok x) \/ read_native LE sel n s = Throw \/ read_native LE sel n s = Terminate).
Proof.
  intros sel n s B. split.
  - split; [intros [x E]; destruct (read_native_bwd sel n s x B E) as (ps & L & P & S & _); exists ps, (nt_rest x); auto|].
    intros (ps & r & -> & P & L). destruct (read_native_fwd sel n ps r L P) as (x & E & _). eauto.
  - pose proof (read_native_total LE sel n s) as T. destruct (read_native LE sel n s) as [x| | | |]; try contradiction; eauto.
Qed.
Print Assumptions C47_accepts.
Definition sel3 : list bool := [false; true; false; false; true; false; false; false; false; false; false; true].
Definition sample_packets : list packet :=
  map (fun i => sample_packet i [i; 0; 255; i; 7]) [1; 4; 11; 12; 13; 14; 15; 16; 17; 18].
Example C47_case : List.length sample_packets = List.length (order sel3 2) /\ order sel3 2 = [1; 4; 11; 11; 11; 1; 4; 11; 11; 11]%nat /\
  match read_native LE sel3 2 (file_bytes sample_packets ++ [9]) with
  | Ok x => map (map nl_channel) (nt_lines x) = [[]; [1; 14]; []; []; [4; 15]; []; []; []; []; []; []; [11; 12; 13; 16; 17; 18]] /\ nt_rest x = [9]
  | _ => False
  end.
Proof. vm_compute. auto. Qed.

(** ** C46: every line but the last has its own live data; the last line of the
    file has none, and close frees it again. *)
Theorem C46_own_data_partial : forall sel n s x, bytes_ok s -> read_native LE sel n s = Ok x ->
  let all := List.concat (nt_lines x) in
  NoDup (map nl_ptr all) /\ (forall l, In l all -> (nl_ptr l < List.length all)%nat) /\
  exists ps, s = file_bytes ps ++ nt_rest x /\ List.length ps = List.length all /\
    forall l, In l all -> S (nl_ptr l) <> List.length all ->
      exists p, nth_error ps (nl_ptr l) = Some p /\ nth (nl_ptr l) (nt_heap x) None = Some (pk_data p).
Proof.
  intros sel n s x B E all. destruct (read_native_bwd sel n s x B E) as (ps & L & P & S & St). pose proof (state_ptrs _ _ _ _ _ L St) as Pm. fold all in Pm.
  assert (La : List.length ps = List.length all) by (apply Permutation_length in Pm; rewrite map_length, seq_length in Pm; lia).
  assert (R : forall l, In l all -> (nl_ptr l < List.length all)%nat).
  { intros l I. apply (in_map nl_ptr) in I. eapply Permutation_in in I; [|exact Pm]. apply in_seq in I. lia. }
  split; [eapply Permutation_NoDup; [symmetry; exact Pm|apply seq_NoDup]|]. split; [exact R|]. exists ps. split; [exact S|]. split; [exact La|].
  intros l I Ne. destruct (nth_error ps (nl_ptr l)) as [p|] eqn:Ep; [|apply nth_error_None in Ep; specialize (R l I); lia]. exists p. split; [reflexivity|].
  destruct St as (Hh & _). rewrite Hh, dropped_nth, La. destruct (Nat.eqb_spec (Datatypes.S (nl_ptr l)) (List.length all)); [contradiction|].
  unfold buffers. apply (map_nth_error (fun p => Some (pk_data p))) in Ep. now apply nth_error_nth with (d := None) in Ep.
Qed.
Print Assumptions C46_own_data_partial.
Theorem C46_refuted_last_line : forall sel n s x, bytes_ok s -> read_native LE sel n s = Ok x -> order sel n <> [] ->
  (exists l, In l (List.concat (nt_lines x)) /\ nth (nl_ptr l) (nt_heap x) None = None) /\ close x = UB.
Proof.
  intros sel n s x B E N. destruct (read_native_bwd sel n s x B E) as (ps & L & P & S & St). pose proof (state_ptrs _ _ _ _ _ L St) as Pm.
  assert (K : exists l, In l (List.concat (nt_lines x)) /\ nth (nl_ptr l) (nt_heap x) None = None).
  { destruct ps as [|p0 ps']; [destruct (order sel n); [congruence|discriminate]|]. set (ps := p0 :: ps') in *.
    assert (I : In (List.length ps') (map nl_ptr (List.concat (nt_lines x)))) by (eapply Permutation_in; [symmetry; exact Pm|]; apply in_seq; cbn; lia).
    apply in_map_iff in I as (l & El & I). exists l. split; [exact I|]. destruct St as (Hh & _). rewrite Hh, dropped_nth, El. cbn [ps List.length]. now rewrite Nat.eqb_refl. }
  split; [exact K|]. unfold close. now apply free_all_dead.
Qed.
Print Assumptions C46_refuted_last_line.
Example C46_case : order sel3 2 <> [] /\ match read_native LE sel3 2 (file_bytes sample_packets) with
  | Ok x => close x = UB /\ nth 9 (nt_heap x) None = None /\ nth 8 (nt_heap x) None = Some [17; 0; 255; 17; 7] | _ => False end.
Proof. vm_compute. split; [discriminate|]. repeat split. Qed.

(** ** C74: the image of a channel. *)
Lemma channel_tag c tags k : forall (l : list packet) q, In q (of_channel c tags (combine l (seq k (List.length l)))) -> (k <= snd q)%nat /\ nth_error tags (snd q - k) = Some c.
Proof.
  revert k. induction tags as [|t tags IH]; intros k [|a l] q I; try contradiction. cbn [List.length seq combine] in I. rewrite of_channel_cons in I. apply in_app_or in I as [I|I].
  - destruct (Nat.eqb_spec t c) as [->|]; cbn in I; [|contradiction]. destruct I as [<-|[]]. cbn [snd]. rewrite Nat.sub_diag. split; [lia|reflexivity].
  - apply IH in I as [R I]. split; [lia|]. replace (snd q - k)%nat with (S (snd q - S k)) by lia. exact I.
Qed.
Lemma channel_has c tags k : forall (l : list packet) i p, nth_error tags i = Some c -> nth_error l i = Some p -> In (p, (k + i)%nat) (of_channel c tags (combine l (seq k (List.length l)))).
Proof.
  revert k. induction tags as [|t tags IH]; intros k l i p T L; [destruct i; discriminate|]. destruct l as [|a l]; [destruct i; discriminate|]. cbn [List.length seq combine]. rewrite of_channel_cons.
  apply in_or_app. destruct i as [|i]; cbn [nth_error] in *.
  - left. injection T as ->. injection L as ->. rewrite Nat.eqb_refl, Nat.add_0_r. now left.
  - right. replace (k + S i)%nat with (S k + i)%nat by lia. now apply IH.
Qed.
(** The last selected channel is the last in the file. *)
Definition last_selected (sel : list bool) (c : nat) : Prop := (c < 12)%nat /\ nth c sel false = true /\ forall d, (c < d < 12)%nat -> nth d sel false = false.
Lemma order_last sel c n : last_selected sel c -> (0 < n)%nat -> exists z, order sel n = z ++ [c].
Proof.
  intros (H & Hs & Hn) N. assert (R : exists z, row sel = z ++ [c]).
  { unfold row. replace (seq 0 12) with (seq 0 c ++ [c] ++ seq (S c) (11 - c)) by (clear -H; do 12 (destruct c as [|c]; [reflexivity|]); lia).
    rewrite !flat_map_app. cbn [flat_map]. rewrite Hs, app_nil_r.
    assert (Z0 : flat_map (fun ic => if nth ic sel false then if (ic =? 11)%nat then [11; 11; 11]%nat else [ic] else []) (seq (S c) (11 - c)) = []).
    { assert (G : forall l, (forall d, In d l -> nth d sel false = false) -> flat_map (fun ic => if nth ic sel false then if (ic =? 11)%nat then [11; 11; 11]%nat else [ic] else []) l = []).
      { induction l as [|a l IH]; intros F; [reflexivity|]. cbn [flat_map]. rewrite (F a) by now left. apply IH. intros d I. apply F. now right. }
      apply G. intros d I. apply in_seq in I. apply Hn. lia. }
    rewrite Z0, app_nil_r. destruct (Nat.eqb_spec c 11) as [->|]; [|eauto]. exists (flat_map (fun ic => if nth ic sel false then if (ic =? 11)%nat then [11; 11; 11]%nat else [ic] else []) (seq 0 11) ++ [11; 11]%nat). rewrite <- app_assoc. reflexivity. }
  destruct R as [z R]. destruct n as [|n]; [lia|]. exists (order sel n ++ z). unfold order. rewrite <- app_assoc, <- R. clear. induction n as [|n IH]; cbn [repeat List.concat] in *; [now rewrite app_nil_r|].
  rewrite <- app_assoc, <- IH. reflexivity.
Qed.
Lemma live_data sel n ps last c : List.length ps = List.length (order sel n) -> last_selected sel last -> c <> last ->
  map (fun l => nth (nl_ptr l) (dropped ps) None) (of_channel c (order sel n) (lines_of 0 ps)) = map Some (map pk_data (of_channel c (order sel n) ps)).
Proof.
  intros L La Ne. rewrite channel_lines, map_map. cbn [line_of nl_ptr]. replace (of_channel c (order sel n) ps) with (map fst (of_channel c (order sel n) (numbered 0 ps))) by (rewrite <- of_channel_map, numbered_fst; reflexivity). rewrite !map_map. apply map_ext_in.
    intros qq I. pose proof (of_channel_in _ _ _ _ I) as I2. apply numbered_in in I2 as [R I2]. unfold numbered in I. apply channel_tag in I as [_ I]. rewrite Nat.sub_0_r in *.
    rewrite dropped_nth. destruct (Nat.eqb_spec (Datatypes.S (snd qq)) (List.length ps)) as [Q|Q].
    - exfalso. destruct n as [|n]; [destruct (snd qq); discriminate|]. destruct (order_last sel last (Datatypes.S n) La ltac:(lia)) as [z Z]. rewrite L, Z, app_length in Q. cbn [List.length] in Q.
      rewrite Z in I. rewrite nth_error_app2 in I by lia. replace (snd qq - List.length z)%nat with 0%nat in I by lia. cbn in I. congruence.
    - unfold buffers. apply (map_nth_error (fun p => Some (pk_data p))) in I2. now apply nth_error_nth with (d := None) in I2.
Qed.
Theorem C74_image_partial : forall sel n s x last c, bytes_ok s -> read_native LE sel n s = Ok x -> last_selected sel last -> (c < 12)%nat -> c <> last ->
  exists ps, s = file_bytes ps ++ nt_rest x /\
    let ds := map pk_data (of_channel c (order sel n) ps) in
    forall q, Forall (fun d => List.length d = 5 * q)%nat ds -> data x c (List.length ds) (4 * q) = Ok (map Some (flat_map groups ds)).
Proof.
  intros sel n s x last c B E La Hc Ne. destruct (read_native_bwd sel n s x B E) as (ps & L & P & S & (Hh & _ & N & C)). exists ps. split; [exact S|]. intros ds q F.
  unfold data. rewrite (C c Hc), Hh.
  assert (M : map (fun l => nth (nl_ptr l) (dropped ps) None) (of_channel c (order sel n) (lines_of 0 ps)) = map Some ds) by (eapply live_data; eauto).
  assert (Bd : Forall (fun d => bytes_ok d /\ List.length d = 5 * q)%nat ds).
  { rewrite Forall_forall in *. intros d I. split; [|now apply F]. unfold ds in I. apply in_map_iff in I as (p & <- & I). apply of_channel_in in I. apply P in I. apply I. }
  pose proof (data_loop_full (dropped ps) q _ ds [] 0 M Bd eq_refl) as D. cbn [map app] in D. rewrite <- D. f_equal. f_equal. f_equal.
  apply (f_equal (@List.length _)) in M. rewrite !map_length in M. now rewrite M.
Qed.
Print Assumptions C74_image_partial.
(** The last selected channel - HRV whenever it is selected - cannot be used. *)
Theorem C74_refuted_last_channel : forall sel n s x last rows px, bytes_ok s -> read_native LE sel n s = Ok x -> last_selected sel last -> (0 < n)%nat ->
  data x last rows px = UB.
Proof.
  intros sel n s x last rows px B E La Hn. destruct (read_native_bwd sel n s x B E) as (ps & L & P & S & (Hh & _ & N & C)). unfold data. rewrite (C last ltac:(apply La)), Hh.
  apply data_loop_dead.
  - unfold dropped. destruct (List.length ps) as [|k]; [constructor|]. assert (G : Forall (fun o => match o with Some d => bytes_ok d | None => True end) (buffers ps)).
    { unfold buffers. apply Forall_forall. intros o I. apply in_map_iff in I as (p & <- & I). rewrite Forall_forall in P. apply P in I. apply I. }
    clear -G. revert k. generalize dependent (buffers ps). induction 1 as [|o h Ho Fh IH]; intros [|k]; cbn; constructor; auto.
  - destruct (order_last sel last n La Hn) as [z Z]. assert (T : nth_error (order sel n) (List.length z) = Some last) by (rewrite Z, nth_error_app2, Nat.sub_diag by lia; reflexivity).
    assert (Lp : List.length ps = Datatypes.S (List.length z)) by (rewrite L, Z, app_length; cbn; lia).
    destruct (nth_error ps (List.length z)) as [p|] eqn:Ep; [|apply nth_error_None in Ep; lia].
    pose proof (channel_has last (order sel n) 0 ps (List.length z) p T Ep) as I. exists (line_of p (List.length z)). split.
    + rewrite channel_lines. apply in_map_iff. exists (p, List.length z). split; [reflexivity|exact I].
    + cbn [line_of nl_ptr]. rewrite dropped_nth, Lp, Nat.eqb_refl. reflexivity.
Qed.
Print Assumptions C74_refuted_last_channel.
(** The other channels: safe exactly when every line is whole groups and fits. *)
Theorem C74_safe_iff_partial : forall sel n s x last c rows px, bytes_ok s -> read_native LE sel n s = Ok x -> last_selected sel last -> (c < 12)%nat -> c <> last ->
  exists ps, s = file_bytes ps ++ nt_rest x /\
    let ds := map pk_data (of_channel c (order sel n) ps) in
    ((exists img, data x c rows px = Ok img) <->
     forall i d, nth_error ds i = Some d -> (List.length d mod 5 = 0)%nat /\ (d = [] \/ (i * px + List.length d / 5 * 4 <= rows * px)%nat)).
Proof.
  intros sel n s x last c rows px B E La Hc Ne. destruct (read_native_bwd sel n s x B E) as (ps & L & P & S & (Hh & _ & N & C)). exists ps. split; [exact S|]. intros ds.
  unfold data. rewrite (C c Hc), Hh.
  assert (M : map (fun l => nth (nl_ptr l) (dropped ps) None) (of_channel c (order sel n) (lines_of 0 ps)) = map Some ds) by (eapply live_data; eauto).
  assert (Bd : Forall bytes_ok ds).
  { rewrite Forall_forall in *. intros d I. unfold ds in I. apply in_map_iff in I as (p & <- & I). apply of_channel_in in I. apply P in I. apply I. }
  destruct (data_loop_safe (dropped ps) px _ ds 0 (repeat None (rows * px)) M Bd) as [[(img & D & _) Sf]|[D (i & d & Nd & Sf)]]; rewrite repeat_length in *; cbn [Nat.add] in *; rewrite D.
  - split; [intros _; exact Sf|eauto].
  - split; [intros [img X]; discriminate|]. intros Sf2. exfalso. destruct (Sf2 i d Nd) as [A1 A2]. destruct Sf as [Sf|[Sf1 Sf]]; [contradiction|]. destruct A2; [contradiction|lia].
Qed.
Print Assumptions C74_safe_iff_partial.
Example C74_case : last_selected sel3 11 /\ match read_native LE sel3 2 (file_bytes sample_packets) with
  | Ok x => data x 4 2 4 = Ok (map Some [16; 15; 961; 7; 60; 15; 963; 775]) /\ data x 11 6 4 = UB /\ data x 4 1 4 = UB /\ data x 4 3 4 = Ok (map Some [16; 15; 961; 7; 60; 15; 963; 775] ++ [None; None; None; None]) | _ => False end.
Proof. split; [|vm_compute; repeat split]. split; [lia|]. split; [reflexivity|]. intros d H. lia. Qed.

(** ** C75: the reader relies on a little-endian host. *)
Theorem C75_little_endian_partial : forall p h r, packet_ok p -> exists l, header_of p l /\ read_line LE h (packet_bytes p ++ r) = Ok (l, h ++ [Some (pk_data p)], r).
Proof. intros p h r P. exists (line_of p (List.length h)). split; [unfold header_of, line_of; auto|now apply read_line_fwd]. Qed.
Print Assumptions C75_little_endian_partial.
Theorem C75_refuted_big_endian : (forall bs, num BE bs = be_val (rev bs)) /\
  forall p h r, packet_ok p -> let n := Z.of_nat (List.length (pk_data p)) in 0 < n < 213 ->
    Z.of_nat (List.length r) < 2 ^ 24 -> read_line BE h (packet_bytes p ++ r) = Terminate.
Proof.
  assert (NB : forall bs, num BE bs = be_val (rev bs)) by (intros bs; unfold num, get_ui, load_u; apply MachineProofs.be_load_val). split; [exact NB|].
  intros p h r (Lh & Ls & Ll & _) n Hn Hr. unfold packet_bytes. rewrite <- !app_assoc. fold n. unfold read_line. rewrite !app_length, be_length.
  destruct (Nat.ltb_spec (List.length (pk_head p) + (4 + (List.length (pk_sub p) + (List.length (pk_line p) + (List.length (pk_data p) + List.length r))))) 38); [lia|].
  rewrite bytes_at_app by (rewrite ?be_length; lia). cbn [bind]. rewrite NB.
  assert (V : be_val (rev (be 4 (n + 42))) = (n + 42) * 16777216).
  { cbn [be]. change (256 ^ Z.of_nat 3) with 16777216. change (256 ^ Z.of_nat 2) with 65536. change (256 ^ Z.of_nat 1) with 256. change (256 ^ Z.of_nat 0) with 1.
    replace ((n + 42) / 16777216) with 0 by lia. replace ((n + 42) / 65536) with 0 by lia. replace ((n + 42) / 256) with 0 by lia. rewrite Z.div_1_r. rewrite (Z.mod_small (n + 42)) by lia. change (0 mod 256) with 0. cbn [rev app be_val List.length].
    change (256 ^ Z.of_nat 3) with 16777216. change (256 ^ Z.of_nat 2) with 65536. change (256 ^ Z.of_nat 1) with 256. change (256 ^ Z.of_nat 0) with 1. lia. }
  rewrite V. rewrite Z.mod_small by lia. destruct (Z.leb_spec (2 ^ 63) ((n + 42) * 16777216 - 15 - 27)); [lia|].
  replace (skipn 38 (pk_head p ++ be 4 (n + 42) ++ pk_sub p ++ pk_line p ++ pk_data p ++ r)) with (pk_line p ++ pk_data p ++ r)
    by (rewrite (app_assoc (be 4 (n + 42))), (app_assoc (pk_head p)); symmetry; apply skipn_app_exact; rewrite !app_length, be_length; lia).
  rewrite app_length. destruct (Nat.ltb_spec (List.length (pk_line p) + List.length (pk_data p ++ r)) 27); [reflexivity|].
  rewrite !bytes_at_ok by (rewrite app_length; lia). cbn [bind]. unfold rd1. destruct (nth_error (pk_line p ++ pk_data p ++ r) 17) eqn:Ech; [|apply nth_error_None in Ech; rewrite app_length in Ech; lia].
  cbn [bind]. rewrite skipn_app_exact by lia. rewrite app_length. destruct (Z.ltb_spec (Z.of_nat (List.length (pk_data p) + List.length r)) ((n + 42) * 16777216 - 15 - 27)); [reflexivity|lia].
Qed.
Print Assumptions C75_refuted_big_endian.
Example C75_case : defined (read_line LE [] (packet_bytes (sample_packet 3 [1; 2; 3; 4; 5]))) = true /\ read_line BE [] (packet_bytes (sample_packet 3 [1; 2; 3; 4; 5])) = Terminate.
Proof. vm_compute. auto. Qed.
