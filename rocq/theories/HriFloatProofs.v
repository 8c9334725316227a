(** Proofs about the conversion of IBM numbers. *)
From Verif Require Import BaseFacts MachineModel MachineProofs IdsBytes HriFloatModel HriFloatSpec.

Lemma land_field x m n : 0 <= m -> 0 <= n -> Z.land x (Z.ones n * 2 ^ m) = ((x / 2 ^ m) mod 2 ^ n) * 2 ^ m.
Proof.
  intros M N. apply Z.bits_inj'. intros i I. rewrite Z.land_spec. destruct (Z.ltb_spec i m) as [C|C].
  - rewrite !Z.mul_pow2_bits_low by lia. apply andb_false_r.
  - rewrite !Z.mul_pow2_bits by lia. rewrite <- Z.shiftr_div_pow2 by lia. destruct (Z.ltb_spec (i - m) n) as [D|D].
    + rewrite Z.mod_pow2_bits_low by lia. rewrite Z.ones_spec_low by lia. rewrite Z.shiftr_spec by lia. rewrite andb_true_r. f_equal. lia.
    + rewrite Z.mod_pow2_bits_high by lia. rewrite Z.ones_spec_high by lia. apply andb_false_r.
Qed.
Lemma land_low x n : 0 <= n -> Z.land x (Z.ones n) = x mod 2 ^ n.
Proof. intros N. now apply Z.land_ones. Qed.

(** The words read, for longs of 4 bytes. *)
Lemma load_word h b : List.length b = 4%nat -> bytes_ok b -> load_u h (if check_endianess h then b else rev b) = be_val b.
Proof.
  intros L B. rewrite <- (get_ui_val h b). unfold get_ui. now destruct (check_endianess h).
Qed.
Lemma first_word h buff : (4 <= List.length buff)%nat -> bytes_ok buff ->
  exists four, bytes_at buff 0 4 = Ok four /\ four = firstn 4 buff /\
    long_at 4 h (if check_endianess h then buff else rev four) 0 = Ok (be_val four) /\
    (let! f := bytes_at (if check_endianess h then buff else rev four) 0 4 in Ok (load_u h f)) = Ok (be_val four).
Proof.
  intros L B. exists (firstn 4 buff). split; [apply bytes_at_ok; lia|]. split; [reflexivity|]. unfold long_at. cbn [Nat.mul].
  assert (LF : List.length (firstn 4 buff) = 4%nat) by (rewrite firstn_length; lia).
  pose proof (load_word h (firstn 4 buff) LF (bytes_ok_firstn 4 buff B)) as W.
  destruct (check_endianess h).
  - rewrite bytes_at_ok by lia. cbn [bind skipn]. now rewrite W.
  - rewrite bytes_at_ok by (rewrite rev_length; lia). cbn [bind skipn]. rewrite firstn_all2 by (rewrite rev_length; lia). now rewrite W.
Qed.
Lemma two_words h buff : (8 <= List.length buff)%nat -> bytes_ok buff ->
  let four := firstn 4 buff in let next := firstn 4 (skipn 4 buff) in
  let pnt := if check_endianess h then buff else rev four ++ rev next in
  bytes_at buff 0 4 = Ok four /\ bytes_at buff 4 4 = Ok next /\ long_at 4 h pnt 0 = Ok (be_val four) /\ long_at 4 h pnt 1 = Ok (be_val next).
Proof.
  intros L B. cbv zeta. assert (LF : List.length (firstn 4 buff) = 4%nat) by (rewrite firstn_length; lia).
  assert (LN : List.length (firstn 4 (skipn 4 buff)) = 4%nat) by (rewrite firstn_length, skipn_length; lia).
  pose proof (load_word h _ LF (bytes_ok_firstn 4 buff B)) as W1. pose proof (load_word h _ LN (bytes_ok_firstn 4 _ (bytes_ok_skipn 4 buff B))) as W2.
  split; [apply bytes_at_ok; lia|]. split; [apply bytes_at_ok; lia|]. unfold long_at. cbn [Nat.mul Nat.add].
  destruct (check_endianess h).
  - rewrite !bytes_at_ok by lia. cbn [bind]. rewrite ?skipn_O. now rewrite W1, W2.
  - rewrite !bytes_at_ok by (rewrite app_length, !rev_length; lia). cbn [bind]. rewrite ?skipn_O. rewrite (firstn_app_exact (rev (firstn 4 buff)) (rev (firstn 4 (skipn 4 buff))) 4) by (rewrite rev_length; lia).
    rewrite (skipn_app_exact (rev (firstn 4 buff)) (rev (firstn 4 (skipn 4 buff))) 4) by (rewrite rev_length; lia). rewrite (firstn_all2 (rev (firstn 4 (skipn 4 buff)))) by (rewrite rev_length; lia). now rewrite W1, W2.
Qed.

Lemma wrap4 v : 0 <= v < 2 ^ 32 -> wrap 4 v = v.
Proof. intros H. unfold wrap. change (8 * Z.of_nat 4) with 32. now apply Z.mod_small. Qed.
Lemma times4_eq e : times4 e = 4 * e.
Proof. unfold times4. destruct (Z.leb_spec 0 e); rewrite Z.shiftl_mul_pow2 by lia; lia. Qed.

(** Normalisation of a fraction of 24 bits. *)
Lemma bit23 x : 0 <= x < 2 ^ 24 -> (Z.land x 0x800000 =? 0) = (x <? 2 ^ 23).
Proof.
  intros H. change 0x800000 with (Z.ones 1 * 2 ^ 23). rewrite land_field by lia. change (2 ^ 1) with 2.
  destruct (Z.ltb_spec x (2 ^ 23)).
  - rewrite Z.div_small by lia. reflexivity.
  - replace (x / 2 ^ 23) with 1 by lia. reflexivity.
Qed.
Lemma norm4_ok fuel : forall f e, 0 < f < 2 ^ 24 -> 2 ^ 23 <= f * 2 ^ Z.of_nat fuel ->
  exists k, 0 <= k /\ norm4 4 fuel f e = Ok (f * 2 ^ k, e - k) /\ 2 ^ 23 <= f * 2 ^ k < 2 ^ 24.
Proof.
  induction fuel as [|n IH]; intros f e F B; cbn [norm4]; rewrite bit23 by lia.
  - destruct (Z.ltb_spec f (2 ^ 23)); [lia|]. exists 0. split; [lia|]. rewrite Z.mul_1_r, Z.sub_0_r. split; [reflexivity|lia].
  - destruct (Z.ltb_spec f (2 ^ 23)).
    + rewrite Z.shiftl_mul_pow2 by lia. rewrite wrap4 by lia. change (2 ^ 1) with 2.
      destruct (IH (f * 2) (e - 1)) as (k & K & E & R); [lia| |].
      { rewrite Nat2Z.inj_succ, Z.pow_succ_r in B by lia. lia. }
      exists (k + 1). split; [lia|]. rewrite Z.pow_add_r by lia. change (2 ^ 1) with 2. split; [|lia]. rewrite E. do 2 f_equal; lia.
    + exists 0. split; [lia|]. rewrite Z.mul_1_r, Z.sub_0_r. split; [reflexivity|lia].
Qed.

(** The fields of a word. *)
Record fields (W s e f : Z) : Prop := mk_fields {
  f_s : s = W / 2 ^ 31; f_e : e = (W / 2 ^ 24) mod 128; f_f : f = W mod 2 ^ 24;
  f_s_range : 0 <= s <= 1; f_e_range : 0 <= e < 128; f_f_range : 0 <= f < 2 ^ 24;
  f_word : W = s * 2 ^ 31 + e * 2 ^ 24 + f }.
Lemma fields_of W : 0 <= W < 2 ^ 32 -> fields W (W / 2 ^ 31) ((W / 2 ^ 24) mod 128) (W mod 2 ^ 24).
Proof. intros H. constructor; lia. Qed.
Lemma field_reads W s e f : fields W s e f ->
  Z.land W 0x7FFFFFFF = e * 2 ^ 24 + f /\ Z.land W 0x80000000 = s * 2 ^ 31 /\ Z.shiftr (Z.land W 0x7F000000) 24 = e /\ Z.land W 0x00FFFFFF = f.
Proof.
  intros [-> -> -> Rs Re Rf E]. split; [|split; [|split]].
  - change 0x7FFFFFFF with (Z.ones 31). rewrite land_low by lia. lia.
  - change 0x80000000 with (Z.ones 1 * 2 ^ 31). rewrite land_field by lia. rewrite Z.mod_small by lia. lia.
  - change 0x7F000000 with (Z.ones 7 * 2 ^ 24). rewrite land_field by lia. rewrite Z.shiftr_div_pow2 by lia. rewrite Z.div_mul by lia. reflexivity.
  - change 0x00FFFFFF with (Z.ones 24). now rewrite land_low by lia.
Qed.
Lemma sgn_fields W s e f : fields W s e f -> sgn32 W = if s =? 0 then 1 else -1.
Proof. intros [-> _ _ Rs _ _ E]. unfold sgn32. destruct (Z.ltb_spec W (2 ^ 31)), (Z.eqb_spec (W / 2 ^ 31) 0); try reflexivity; lia. Qed.

(** The words written. *)
Lemma ieee_word s E M : 0 <= s <= 1 -> 0 <= E < 256 -> 0 <= M < 2 ^ 23 ->
  Z.lor (Z.lor (s * 2 ^ 31) (Z.shiftl E 23)) M mod 2 ^ 32 = s * 2 ^ 31 + E * 2 ^ 23 + M.
Proof.
  intros S HE HM. rewrite Z.shiftl_mul_pow2 by lia. rewrite lor_disjoint by lia.
  replace (s * 2 ^ 31 + E * 2 ^ 23) with ((s * 2 ^ 8 + E) * 2 ^ 23) by lia. rewrite lor_disjoint by lia. apply Z.mod_small. lia.
Qed.
Lemma ieee32_word s E M : 0 <= s <= 1 -> 0 <= E < 255 -> 0 <= M < 2 ^ 23 ->
  let B := s * 2 ^ 31 + E * 2 ^ 23 + M in
  finite32 B /\ ieee32 B = (if s =? 0 then 1 else -1) * (if E =? 0 then M * 2 ^ 251 else (2 ^ 23 + M) * 2 ^ (E + 250)).
Proof.
  intros S HE HM B. assert (H1 : (B / 2 ^ 23) mod 256 = E) by (subst B; lia). assert (H2 : B mod 2 ^ 23 = M) by (subst B; lia).
  split; [split; [subst B; lia|rewrite H1; lia]|]. unfold ieee32. rewrite H1, H2. f_equal. unfold sgn32. destruct (Z.ltb_spec B (2 ^ 31)), (Z.eqb_spec s 0); try reflexivity; subst B; lia.
Qed.

Definition r4_result (s e f : Z) : Z -> Prop := fun B =>
  exists k, 0 <= k /\ 2 ^ 23 <= f * 2 ^ k < 2 ^ 24 /\
    let E := 4 * (e - 64) - 1 - k + 127 in
    B = if 255 <=? E then s * 2 ^ 31 + 0x7F7FFFFF else if E <=? 0 then s * 2 ^ 31 else s * 2 ^ 31 + E * 2 ^ 23 + (f * 2 ^ k - 2 ^ 23).
Lemma r4_spec h buff s e f : (4 <= List.length buff)%nat -> bytes_ok buff -> fields (be_val (firstn 4 buff)) s e f -> 0 < f ->
  exists B, r4_from_buff 4 h buff = Ok B /\ r4_result s e f B.
Proof.
  intros L B FS F. unfold r4_from_buff. destruct (first_word h buff L B) as (four & E0 & -> & E1 & _). rewrite E0. cbn [bind]. rewrite E1. cbn [bind]. set (W := be_val (firstn 4 buff)) in *.
  destruct (field_reads W s e f FS) as (-> & -> & -> & ->). destruct FS as [_ _ _ Rs Re Rf _]. destruct (Z.eqb_spec (e * 2 ^ 24 + f) 0); [lia|].
  destruct (Z.eqb_spec f 0); [lia|]. cbn [negb]. rewrite times4_eq.
  destruct (norm4_ok 64 f (4 * (e - 64) - 1)) as (k & K & -> & R); [lia|change (Z.of_nat 64) with 64; lia|]. cbn [bind].
  change 0x7FFFFF with (Z.ones 23). rewrite land_low by lia.
  eexists. split; [reflexivity|]. exists k. split; [exact K|]. split; [exact R|]. cbv zeta.
  replace (f * 2 ^ k mod 2 ^ 23) with (f * 2 ^ k - 2 ^ 23) by lia.
  destruct (Z.leb_spec 255 (4 * (e - 64) - 1 - k + 127)).
  - change 0x7F7FFFFF with (254 * 2 ^ 23 + 0x7FFFFF). rewrite lor_disjoint by lia. apply Z.mod_small. lia.
  - destruct (Z.leb_spec (4 * (e - 64) - 1 - k + 127) 0); [apply Z.mod_small; lia|]. apply ieee_word; lia.
Qed.

(** ** Doubles *)
Definition val (p : Z * Z) : Z := fst p * 2 ^ 32 + snd p.
Definition low_ok (p : Z * Z) : Prop := 0 <= fst p /\ 0 <= snd p < 2 ^ 32.
Lemma leftshift1_ok p : low_ok p -> fst p < 2 ^ 31 -> low_ok (leftshift1 4 p) /\ val (leftshift1 4 p) = 2 * val p.
Proof.
  destruct p as [hi lo]. unfold low_ok, val, leftshift1. cbn [fst snd]. intros [H L] B.
  change (Z.land (Z.shiftr lo 31) 1) with (Z.land (Z.shiftr lo 31) (Z.ones 1)). rewrite land_low by lia. rewrite !Z.shiftl_mul_pow2, Z.shiftr_div_pow2 by lia.
  rewrite lor_disjoint by lia. change (2 ^ 1) with 2. rewrite wrap4 by lia. unfold wrap. change (8 * Z.of_nat 4) with 32. lia.
Qed.
Lemma rightshift1_ok p : low_ok p -> low_ok (rightshift1 4 p) /\ val (rightshift1 4 p) = val p / 2.
Proof.
  destruct p as [hi lo]. unfold low_ok, val, rightshift1. cbn [fst snd]. intros [H L].
  change 0x7FFFFFFF with (Z.ones 31). rewrite land_low by lia. rewrite Z.shiftl_mul_pow2, !Z.shiftr_div_pow2 by lia. change (2 ^ 1) with 2.
  rewrite lor_disjoint by lia. unfold wrap. change (8 * Z.of_nat 4) with 32. lia.
Qed.
Lemma bit24 x : 0 <= x < 2 ^ 25 -> (Z.land x 0x01000000 =? 0) = (x <? 2 ^ 24).
Proof.
  intros H. change 0x01000000 with (Z.ones 1 * 2 ^ 24). rewrite land_field by lia. change (2 ^ 1) with 2.
  destruct (Z.ltb_spec x (2 ^ 24)).
  - rewrite Z.div_small by lia. reflexivity.
  - replace (x / 2 ^ 24) with 1 by lia. reflexivity.
Qed.
Lemma norm8_ok fuel : forall p e, low_ok p -> 0 < fst p < 2 ^ 25 -> 2 ^ 24 <= fst p * 2 ^ Z.of_nat fuel ->
  exists q k, 0 <= k /\ norm8 4 fuel p e = Ok (q, e - k) /\ low_ok q /\ val q = val p * 2 ^ k /\ 2 ^ 24 <= fst q < 2 ^ 25 /\ (fst p < 2 ^ 24 -> 1 <= k).
Proof.
  induction fuel as [|n IH]; intros p e LO F B; cbn [norm8]; rewrite bit24 by lia.
  - destruct (Z.ltb_spec (fst p) (2 ^ 24)); [lia|]. exists p, 0. split; [lia|]. rewrite Z.mul_1_r, Z.sub_0_r. split; [reflexivity|]. split; [exact LO|]. lia.
  - destruct (Z.ltb_spec (fst p) (2 ^ 24)).
    + destruct (leftshift1_ok p LO) as [LO' V]; [lia|].
      assert (HI : fst p * 2 <= fst (leftshift1 4 p) < 2 ^ 25) by (unfold val, low_ok in *; lia).
      destruct (IH (leftshift1 4 p) (e - 1) LO') as (q & k & K & E & LQ & VQ & RQ & _); [lia| |].
      { rewrite Nat2Z.inj_succ, Z.pow_succ_r in B by lia. nia. }
      exists q, (k + 1). split; [lia|]. rewrite Z.pow_add_r by lia. change (2 ^ 1) with 2. split; [rewrite E; do 2 f_equal; lia|]. split; [exact LQ|]. split; [rewrite VQ, V; lia|]. split; [exact RQ|]. lia.
    + exists p, 0. split; [lia|]. rewrite Z.mul_1_r, Z.sub_0_r. split; [reflexivity|]. split; [exact LO|]. lia.
Qed.
Lemma rightshift4_ok p : low_ok p -> low_ok (rightshift 4 p 4) /\ val (rightshift 4 p 4) = val p / 16.
Proof.
  intros L0. cbn [rightshift]. destruct (rightshift1_ok p L0) as [L1 V1]. destruct (rightshift1_ok _ L1) as [L2 V2]. destruct (rightshift1_ok _ L2) as [L3 V3]. destruct (rightshift1_ok _ L3) as [L4 V4].
  split; [exact L4|]. rewrite V4, V3, V2, V1. rewrite !Z.div_div by lia. reflexivity.
Qed.

Lemma r8_spec h buff s e f : (8 <= List.length buff)%nat -> bytes_ok buff -> fields (be_val (firstn 4 buff)) s e f -> 0 < f ->
  exists hi lo k, r8_from_buff 4 h buff = Ok (hi, lo) /\ 0 <= k /\ 1 <= k /\
    let F := (f * 2 ^ 32 + be_val (firstn 4 (skipn 4 buff))) * 2 ^ k in
    2 ^ 56 <= F < 2 ^ 57 /\ hi * 2 ^ 32 + lo = s * 2 ^ 63 + (4 * (e - 64) - k + 1023) * 2 ^ 52 + (F / 16 - 2 ^ 52) /\ 1 <= 4 * (e - 64) - k + 1023 < 2047.
Proof.
  intros L B FS F. unfold r8_from_buff. destruct (two_words h buff L B) as (E0 & E1 & W0 & W1). rewrite E0, E1. cbn [bind]. cbv zeta in W0, W1. rewrite W0, W1. cbn [bind]. clear W0 W1. set (W := be_val (firstn 4 buff)) in *.
  set (X := be_val (firstn 4 (skipn 4 buff))). assert (RX : 0 <= X < 2 ^ 32).
  { pose proof (be_val_range (firstn 4 (skipn 4 buff)) (bytes_ok_firstn 4 _ (bytes_ok_skipn 4 buff B))) as R. rewrite firstn_length, skipn_length, Nat.min_l in R by lia. exact R. }
  destruct (field_reads W s e f FS) as (-> & -> & -> & ->). destruct FS as [_ _ _ Rs Re Rf _]. destruct (Z.eqb_spec (e * 2 ^ 24 + f) 0); [lia|].
  cbn [fst]. destruct (Z.eqb_spec f 0); [lia|]. cbn [negb]. rewrite times4_eq.
  destruct (norm8_ok 64 (f, X) (4 * (e - 64))) as (q & k & K & -> & LQ & VQ & RQ & K1); [split; cbn [fst snd]; lia|cbn [fst]; lia|cbn [fst]; change (Z.of_nat 64) with 64; lia|]. cbn [bind fst] in *.
  assert (K1' : 1 <= k) by lia. clear K1.
  destruct (rightshift4_ok q LQ) as [LR VR]. destruct (rightshift 4 q 4) as [f0 f1] eqn:ER. change 0x000FFFFF with (Z.ones 20). rewrite land_low by lia.
  assert (F56 : 2 ^ 56 <= val q < 2 ^ 57) by (unfold val, low_ok in *; lia).
  assert (KB : k <= 56).
  { destruct (Z.le_gt_cases k 56) as [C|C]; [exact C|]. exfalso. assert (2 ^ 57 <= 2 ^ k) by (apply Z.pow_le_mono_r; lia). rewrite VQ in F56. unfold val in F56. cbn [fst snd] in F56. nia. }
  assert (EB : 1 <= 4 * (e - 64) - k + 1023 < 2047) by lia.
  destruct (Z.leb_spec 2047 (4 * (e - 64) - k + 1023)); [lia|]. destruct (Z.leb_spec (4 * (e - 64) - k + 1023) 0); [lia|].
  eexists _, _, k. split; [reflexivity|]. split; [exact K|]. split; [exact K1'|]. cbv zeta.
  assert (VF : val q = (f * 2 ^ 32 + X) * 2 ^ k) by (rewrite VQ; reflexivity). rewrite <- VF. split; [exact F56|]. split; [|exact EB].
  rewrite Z.shiftl_mul_pow2 by lia. rewrite lor_disjoint by lia.
  replace (s * 2 ^ 31 + (4 * (e - 64) - k + 1023) * 2 ^ 20) with ((s * 2 ^ 11 + (4 * (e - 64) - k + 1023)) * 2 ^ 20) by lia. rewrite lor_disjoint by lia.
  unfold val, low_ok in *. cbn [fst snd] in *. rewrite !Z.mod_small with (b := 2 ^ 32) by lia. assert (f0 mod 2 ^ 20 = f0 - 2 ^ 20) by lia. lia.
Qed.
