(** OpenMTP-IDS: scan line ranges and byte orders. *)
From Verif Require Import BaseFacts IdsModel IdsSpec IdsProofs.

(** ** Scan line ranges *)
Lemma range_loop_spec rs : forall from to, range_loop from to rs = firstn (to - from) (skipn from (List.concat (map rc_lines rs))).
Proof.
  induction rs as [|r rs IH]; intros from to; cbn [range_loop map List.concat]; [now rewrite skipn_nil, firstn_nil|].
  set (n := List.length (rc_lines r)). rewrite skipn_app, firstn_app, skipn_length. fold n.
  destruct (Nat.ltb_spec from n) as [A|A]; destruct (Nat.ltb_spec to n) as [B|B].
  - rewrite Nat.min_l by lia. replace (to - from - (n - from))%nat with 0%nat by lia. reflexivity.
  - rewrite Nat.min_r by lia. rewrite IH. f_equal.
    + rewrite !firstn_all2; [reflexivity| |]; rewrite skipn_length; fold n; lia.
    + replace (from - n)%nat with 0%nat by lia. f_equal. lia.
  - replace (to - from)%nat with 0%nat by lia. reflexivity.
  - rewrite IH. rewrite (skipn_all2 (rc_lines r)) by (fold n; lia). rewrite firstn_nil. cbn [app]. f_equal. lia.
Qed.
Lemma total_lines rs : fold_right Nat.add 0%nat (map (fun r => List.length (rc_lines r)) rs) = List.length (List.concat (map rc_lines rs)).
Proof. induction rs as [|r rs IH]; cbn; [reflexivity|]. now rewrite app_length, IH. Qed.

(** ** Byte orders *)
Lemma land255 x : Z.land x 255 = x mod 256.
Proof. change 255 with (Z.ones 8). now rewrite Z.land_ones by lia. Qed.
Lemma pow256 n : 256 ^ Z.of_nat n = 2 ^ (8 * Z.of_nat n).
Proof. rewrite Z.pow_mul_r by lia. reflexivity. Qed.
Lemma big_put_be k v : big_put k v = be k v.
Proof. induction k as [|k IH]; cbn [big_put be]; [reflexivity|]. now rewrite land255, Z.shiftr_div_pow2, pow256, IH by lia. Qed.
Lemma be_snoc k : forall x, be (S k) x = be k (x / 256) ++ [x mod 256].
Proof.
  induction k as [|k IH]; intros x; [cbn; now rewrite Z.div_1_r|].
  change (be (S (S k)) x) with ((x / 256 ^ Z.of_nat (S k)) mod 256 :: be (S k) x). rewrite IH.
  change (be (S k) (x / 256)) with ((x / 256 / 256 ^ Z.of_nat k) mod 256 :: be k (x / 256)). cbn [app]. f_equal.
  rewrite Z.div_div by lia. f_equal. f_equal. rewrite Nat2Z.inj_succ, Z.pow_succ_r by lia. reflexivity.
Qed.
Lemma little_put_be k v : forall j, 0 <= j -> little_put (8 * j) k v = rev (be k (v / 256 ^ j)).
Proof.
  induction k as [|k IH]; intros j J; [reflexivity|]. cbn [little_put]. rewrite be_snoc, rev_app_distr. cbn [rev app].
  rewrite land255, Z.shiftr_div_pow2 by lia. replace (2 ^ (8 * j)) with (256 ^ j) by (rewrite Z.pow_mul_r by lia; reflexivity). f_equal.
  replace (8 * j + 8) with (8 * (j + 1)) by lia. rewrite IH by lia. f_equal. f_equal. rewrite Z.div_div by lia.
  replace (j + 1) with (Z.succ j) by lia. rewrite Z.pow_succ_r by lia. now rewrite Z.mul_comm.
Qed.
Lemma lor_disjoint a b n : 0 <= n -> 0 <= b < 2 ^ n -> Z.lor (a * 2 ^ n) b = a * 2 ^ n + b.
Proof.
  intros N B. assert (L : Z.land (a * 2 ^ n) b = 0).
  { apply Z.bits_inj'; intros i Hi. rewrite Z.land_spec, Z.bits_0. destruct (Z.ltb_spec i n) as [C|C].
    - now rewrite Z.mul_pow2_bits_low by lia.
    - replace b with (b mod 2 ^ n) by (apply Z.mod_small; lia). rewrite Z.mod_pow2_bits_high by lia. apply andb_false_r. }
  rewrite <- Z.lxor_lor by exact L. symmetry. now apply Z.add_nocarry_lxor.
Qed.
Lemma big_get_fwd W r : forall l a, bytes_ok l -> 8 * Z.of_nat (List.length l) <= W -> 0 <= a -> a * 256 ^ Z.of_nat (List.length l) + 256 ^ Z.of_nat (List.length l) <= 2 ^ W ->
  big_get W (List.length l) (a * 256 ^ Z.of_nat (List.length l)) (mk_stream (l ++ r) true) = Ok (a * 256 ^ Z.of_nat (List.length l) + be_val l, mk_stream r true).
Proof.
  induction l as [|c l IH]; intros a B F A U; [cbn [List.length big_get be_val app]; now rewrite Z.add_0_r|].
  inversion B as [|? ? Bc Bl]; subst. unfold is_byte in Bc. cbn [List.length] in *. set (k := List.length l) in *.
  assert (P : 256 ^ Z.of_nat (S k) = 256 * 256 ^ Z.of_nat k) by (rewrite Nat2Z.inj_succ, Z.pow_succ_r by lia; reflexivity).
  assert (P0 : 0 < 256 ^ Z.of_nat k) by (apply Z.pow_pos_nonneg; lia).
  assert (V : Z.shiftl (c mod 2 ^ W) (8 * Z.of_nat k) = c * 256 ^ Z.of_nat k).
  { rewrite Z.shiftl_mul_pow2, <- pow256 by lia. rewrite Z.mod_small; [reflexivity|]. nia. }
  assert (L : Z.lor (a * 256 ^ Z.of_nat (S k)) (c * 256 ^ Z.of_nat k) mod 2 ^ W = (a * 256 + c) * 256 ^ Z.of_nat k).
  { rewrite (pow256 (S k)), lor_disjoint; [|lia|rewrite <- pow256; nia]. rewrite <- pow256, Z.mod_small by nia. nia. }
  cbn [big_get app get good rest]. destruct k as [|k'] eqn:Ek.
  - destruct l; [|discriminate]. cbn [app be_val List.length]. change (256 ^ Z.of_nat 0) with 1 in *. rewrite !Z.mul_1_r in L. rewrite L, P. f_equal. f_equal. lia.
  - rewrite <- Ek in *. rewrite V. assert (X : (W =? 16) && (2 ^ 32 <=? c * 256 ^ Z.of_nat k) = false).
    { destruct (Z.eqb_spec W 16) as [->|]; [|reflexivity]. apply Z.leb_gt. change (2 ^ 32) with 4294967296. change (2 ^ 16) with 65536 in U. nia. }
    rewrite X, L. rewrite (IH (a * 256 + c)) by (try assumption; nia). cbn [be_val]. fold k. f_equal. f_equal. rewrite P. nia.
Qed.
Lemma little_get_fwd W r : forall l a bits, bytes_ok l -> 0 <= bits -> bits + 8 * Z.of_nat (List.length l) <= W -> 0 <= a < 2 ^ bits ->
  little_get W bits (List.length l) a (mk_stream (l ++ r) true) = (a + 2 ^ bits * be_val (rev l), mk_stream r true).
Proof.
  induction l as [|c l IH]; intros a bits B N F A; [cbn [List.length little_get app rev be_val]; f_equal; lia|].
  inversion B as [|? ? Bc Bl]; subst. unfold is_byte in Bc. cbn [List.length] in F. cbn [List.length little_get get app good rest].
  assert (P : 2 ^ (bits + 8) = 2 ^ bits * 256) by (rewrite Z.pow_add_r by lia; reflexivity).
  assert (Q : 2 ^ (bits + 8) <= 2 ^ W) by (apply Z.pow_le_mono_r; lia).
  assert (P0 : 0 < 2 ^ bits) by (apply Z.pow_pos_nonneg; lia).
  assert (L : Z.lor a (Z.shiftl (c mod 2 ^ W) bits) mod 2 ^ W = a + c * 2 ^ bits).
  { rewrite (Z.mod_small c) by nia. rewrite Z.shiftl_mul_pow2 by lia. rewrite Z.lor_comm, lor_disjoint by lia. rewrite Z.mod_small; nia. }
  rewrite L, IH; [|exact Bl|lia|lia|nia]. f_equal. cbn [rev].
  assert (E : forall x y, be_val (x ++ [y]) = be_val x * 256 + y).
  { clear. induction x as [|b x IH]; intros y; [cbn; lia|]. cbn [app be_val]. rewrite IH, app_length. cbn [List.length]. rewrite Nat2Z.inj_add, Z.pow_add_r by lia. change (256 ^ Z.of_nat 1) with 256. lia. }
  rewrite E, P. lia.
Qed.
Definition width (bytes top : Z) : Z := if (0 <=? bytes) && (bytes <=? top) then bytes else top.
Lemma entered_width top bytes : Z.of_nat (entered top bytes) = width bytes (Z.of_nat top).
Proof. unfold entered, width. destruct ((0 <=? bytes) && (bytes <=? Z.of_nat top)) eqn:E; [|reflexivity]. rewrite Z2Nat.id; lia. Qed.
Lemma big_round W k v r : 8 * Z.of_nat k <= W -> big_get W k 0 (mk_stream (big_put k v ++ r) true) = Ok (v mod 256 ^ Z.of_nat k, mk_stream r true).
Proof.
  intros F. rewrite big_put_be. pose proof (big_get_fwd W r (be k v) 0 (be_bytes k v)) as G. rewrite be_length in G. rewrite be_val_be in G. rewrite Z.mul_0_l in G.
  apply G; [exact F|lia|]. rewrite pow256. cbn [Z.add]. apply Z.pow_le_mono_r; lia.
Qed.
Lemma little_round W k v r : 8 * Z.of_nat k <= W -> little_get W 0 k 0 (mk_stream (little_put 0 k v ++ r) true) = (v mod 256 ^ Z.of_nat k, mk_stream r true).
Proof.
  intros F. pose proof (little_put_be k v 0 ltac:(lia)) as E. rewrite Z.pow_0_r, Z.div_1_r in E. change (8 * 0) with 0 in E. rewrite E.
  pose proof (little_get_fwd W r (rev (be k v)) 0 0) as G. rewrite rev_length, be_length, rev_involutive, be_val_be in G. rewrite G; [f_equal; lia| |lia|lia|cbn; lia].
  apply Forall_rev. apply be_bytes.
Qed.
