(** Base64, URL and C string encodings. *)
From Verif Require Import BaseFacts IniModel IniProofs IniFile StringModel StringSpec StringProofs.
Open Scope string_scope.
Open Scope list_scope.
Open Scope Z_scope.

Lemma list_ind3 {A} (P : list A -> Prop) : P [] -> (forall a, P [a]) -> (forall a b, P [a; b]) ->
  (forall a b c r, P r -> P (a :: b :: c :: r)) -> forall l, P l.
Proof. intros H0 H1 H2 H3. fix IH 1. intros [|a [|b [|c r]]]; [exact H0|apply H1|apply H2|apply H3; apply IH]. Qed.
Lemma list_ind4 {A} (P : list A -> Prop) : P [] -> (forall a, P [a]) -> (forall a b, P [a; b]) -> (forall a b c, P [a; b; c]) ->
  (forall a b c d r, P r -> P (a :: b :: c :: d :: r)) -> forall l, P l.
Proof. intros H0 H1 H2 H3 H4. fix IH 1. intros [|a [|b [|c [|d r]]]]; [exact H0|apply H1|apply H2|apply H3|apply H4; apply IH]. Qed.

(** Checking a property of every byte, or of every 6-bit value. *)
Definition upto (n : nat) : list Z := map Z.of_nat (seq 0 n).
Lemma upto_check p n v : forallb p (upto n) = true -> 0 <= v < Z.of_nat n -> p v = true.
Proof.
  intros H R. rewrite forallb_forall in H. apply H. unfold upto. apply in_map_iff. exists (Z.to_nat v). split; [lia|]. apply in_seq. lia.
Qed.

(** ** Base64 *)
Lemma b64_table v : 0 <= v < 64 -> b64 v = b64_char v.
Proof.
  intros H. apply Z.eqb_eq. apply (upto_check (fun v => b64 v =? b64_char v) 64); [vm_compute; reflexivity|exact H].
Qed.
Lemma b64_char_not_pad v : 0 <= v < 64 -> b64_char v <> 61.
Proof.
  intros H E. assert (C : negb (b64_char v =? 61) = true) by (apply (upto_check (fun v => negb (b64_char v =? 61)) 64); [vm_compute; reflexivity|exact H]).
  rewrite E in C. discriminate.
Qed.
Lemma inv_b64 v : 0 <= v < 64 -> invbase64 (b64_char v) = Ok v.
Proof.
  intros H. pose (p := fun v => match invbase64 (b64_char v) with Ok w => w =? v | _ => false end).
  assert (C : p v = true) by (apply (upto_check p 64); [vm_compute; reflexivity|exact H]). unfold p in C.
  destruct (invbase64 (b64_char v)); try discriminate. apply Z.eqb_eq in C. congruence.
Qed.
Lemma lor_add a n b : 0 <= n -> 0 <= b < 2 ^ n -> Z.lor (Z.shiftl a n) b = a * 2 ^ n + b.
Proof.
  intros Hn Hb. rewrite <- Z.shiftl_mul_pow2 by lia. symmetry. rewrite Z.add_nocarry_lxor, Z.lxor_lor; auto.
  all: apply Z.bits_inj'; intros i Hi; rewrite Z.land_spec, Z.bits_0, Z.shiftl_spec by lia;
    destruct (Z.ltb_spec i n) as [L|L]; [rewrite Z.testbit_neg_r by lia; reflexivity|];
    rewrite <- (Z.mod_small b (2 ^ n)), Z.mod_pow2_bits_high by lia; apply andb_false_r.
Qed.
Definition quad (e : Z) : text := [b64_char (e / 2 ^ 18 mod 64); b64_char (e / 2 ^ 12 mod 64); b64_char (e / 2 ^ 6 mod 64); b64_char (e mod 64)].
Lemma quad_eq e : 0 <= e -> map (fun j => b64 (Z.land (Z.shiftr e j) 63)) [18; 12; 6; 0] = quad e.
Proof.
  intros H. cbn [map]. unfold quad. change 63 with (Z.ones 6). rewrite !Z.land_ones by lia. rewrite !Z.shiftr_div_pow2 by lia.
  change (2 ^ 6) with 64. rewrite Z.pow_0_r, Z.div_1_r.
  rewrite !b64_table by (apply Z.mod_pos_bound; lia). reflexivity.
Qed.
Fixpoint raw (s : text) : text :=
  match s with
  | [] => []
  | [a] => quad (a * 65536)
  | [a; b] => quad (a * 65536 + b * 256)
  | a :: b :: c :: r => quad (a * 65536 + b * 256 + c) ++ raw r
  end.
Lemma sc_app2 pre l i : sc (pre ++ l) (List.length pre + i) = sc l i.
Proof. unfold sc. rewrite app_nth2 by lia. f_equal. lia. Qed.
Lemma enc_raw l : forall pre fuel, byte_text l -> (List.length l <= fuel)%nat -> enc_loop fuel (pre ++ l) (List.length pre) = Ok (raw l).
Proof.
  induction l as [|a|a b|a b c r IH] using list_ind3; intros pre fuel B F.
  - destruct fuel; cbn [enc_loop]; rewrite app_nil_r, Nat.ltb_irrefl; reflexivity.
  - destruct fuel as [|fuel]; [cbn in F; lia|]. cbn [enc_loop]. rewrite app_length. cbn [List.length].
    destruct (Nat.ltb_spec (List.length pre) (List.length pre + 1)); [|lia].
    destruct (Nat.ltb_spec (List.length pre + 3) (List.length pre + 1)); [lia|].
    destruct (Nat.ltb_spec (List.length pre + 1) (List.length pre + 1)); [lia|].
    destruct (Nat.ltb_spec (List.length pre + 2) (List.length pre + 1)); [lia|]. cbv zeta.
    replace (enc_loop fuel (pre ++ [a]) (List.length pre + 3)) with (Ok (A := text) []) by (destruct fuel; cbn [enc_loop]; rewrite app_length; cbn [List.length]; destruct (Nat.ltb_spec (List.length pre + 3) (List.length pre + 1)); (reflexivity || lia)).
    rewrite sc_mid. cbn [bind]. inversion B; subst.
    rewrite quad_eq by (apply Z.shiftl_nonneg; cbn; lia). rewrite app_nil_r. unfold sc. cbn [nth raw]. rewrite Z.shiftl_mul_pow2 by lia. reflexivity.
  - destruct fuel as [|fuel]; [cbn in F; lia|]. cbn [enc_loop]. rewrite app_length. cbn [List.length].
    destruct (Nat.ltb_spec (List.length pre) (List.length pre + 2)); [|lia].
    destruct (Nat.ltb_spec (List.length pre + 3) (List.length pre + 2)); [lia|].
    destruct (Nat.ltb_spec (List.length pre + 1) (List.length pre + 2)); [|lia].
    destruct (Nat.ltb_spec (List.length pre + 2) (List.length pre + 2)); [lia|]. cbv zeta.
    replace (enc_loop fuel (pre ++ [a; b]) (List.length pre + 3)) with (Ok (A := text) []) by (destruct fuel; cbn [enc_loop]; rewrite app_length; cbn [List.length]; destruct (Nat.ltb_spec (List.length pre + 3) (List.length pre + 2)); (reflexivity || lia)).
    rewrite sc_mid, !sc_app2. cbn [bind]. unfold sc. cbn [nth].
    inversion B as [|? ? Ba B']; subst. inversion B' as [|? ? Bb _]; subst.
    rewrite lor_add by (rewrite ?Z.shiftl_mul_pow2; lia). rewrite Z.shiftl_mul_pow2 by lia.
    rewrite quad_eq by lia. rewrite app_nil_r. reflexivity.
  - destruct fuel as [|fuel]; [cbn in F; lia|]. cbn [enc_loop]. rewrite app_length. cbn [List.length] in *.
    destruct (Nat.ltb_spec (List.length pre) (List.length pre + S (S (S (List.length r))))); [|lia]. cbv zeta.
    inversion B as [|? ? Ba B']; subst. inversion B' as [|? ? Bb B'']; subst. inversion B'' as [|? ? Bc Br]; subst.
    specialize (IH (pre ++ [a; b; c]) fuel Br ltac:(lia)). rewrite <- app_assoc in IH. cbn [app] in IH. rewrite app_length in IH. cbn [List.length] in IH.
    rewrite IH. cbn [bind].
    destruct (Nat.ltb_spec (List.length pre + 1) (List.length pre + S (S (S (List.length r))))); [|lia].
    destruct (Nat.ltb_spec (List.length pre + 2) (List.length pre + S (S (S (List.length r))))); [|lia].
    assert (E0 : sc (pre ++ a :: b :: c :: r) (List.length pre) = a) by apply sc_mid.
    assert (E1 : sc (pre ++ a :: b :: c :: r) (List.length pre + 1) = b) by (rewrite sc_app2; reflexivity).
    assert (E2 : sc (pre ++ a :: b :: c :: r) (List.length pre + 2) = c) by (rewrite sc_app2; reflexivity).
    rewrite E0, E1, E2.
    assert (L : Z.lor (Z.lor (Z.shiftl a 16) (Z.shiftl b 8)) c = a * 65536 + b * 256 + c).
    { rewrite lor_add by (rewrite ?Z.shiftl_mul_pow2; lia). rewrite Z.shiftl_mul_pow2 by lia.
      replace (a * 2 ^ 16 + b * 2 ^ 8) with (Z.shiftl (a * 256 + b) 8) by (rewrite Z.shiftl_mul_pow2 by lia; lia).
      rewrite lor_add by lia. lia. }
    rewrite L. destruct (_ <? _)%nat; rewrite quad_eq by lia; reflexivity.
Qed.
Lemma quad3 a b c : 0 <= a < 256 -> 0 <= b < 256 -> 0 <= c < 256 -> quad (a * 65536 + b * 256 + c) =
  [b64_char (a / 4); b64_char (a mod 4 * 16 + b / 16); b64_char (b mod 16 * 4 + c / 64); b64_char (c mod 64)].
Proof.
  intros A B C. unfold quad. change (2 ^ 18) with 262144. change (2 ^ 12) with 4096. change (2 ^ 6) with 64. 
  repeat (f_equal; [f_equal; lia|]). f_equal. f_equal. lia.
Qed.
Lemma raw_shape s : byte_text s ->
  ((List.length s mod 3 = 0)%nat /\ raw s = rfc4648 s) \/
  ((List.length s mod 3 = 1)%nat /\ exists p w x, raw s = p ++ [w; x; 65; 65] /\ rfc4648 s = p ++ [w; x; 61; 61]) \/
  ((List.length s mod 3 = 2)%nat /\ exists p w x y, raw s = p ++ [w; x; y; 65] /\ rfc4648 s = p ++ [w; x; y; 61]).
Proof.
  induction s as [|a|a b|a b c r IH] using list_ind3; intros B.
  - left. auto.
  - right. left. split; [reflexivity|]. inversion B; subst. exists [], (b64_char (a / 4)), (b64_char (a mod 4 * 16)). split; [|reflexivity].
    cbn [raw app]. replace (a * 65536) with (a * 65536 + 0 * 256 + 0) by lia. rewrite quad3 by lia. 
    change (0 / 16) with 0. change (0 mod 16 * 4 + 0 / 64) with 0. change (0 mod 64) with 0. rewrite Z.add_0_r. reflexivity.
  - right. right. split; [reflexivity|]. inversion B as [|? ? Ba B']; subst. inversion B' as [|? ? Bb _]; subst.
    exists [], (b64_char (a / 4)), (b64_char (a mod 4 * 16 + b / 16)), (b64_char (b mod 16 * 4)). split; [|reflexivity].
    cbn [raw app]. replace (a * 65536 + b * 256) with (a * 65536 + b * 256 + 0) by lia. rewrite quad3 by lia.
    change (0 / 64) with 0. change (0 mod 64) with 0. rewrite Z.add_0_r. reflexivity.
  - inversion B as [|? ? Ba B']; subst. inversion B' as [|? ? Bb B'']; subst. inversion B'' as [|? ? Bc Br]; subst.
    assert (M : (List.length (a :: b :: c :: r) mod 3 = List.length r mod 3)%nat).
    { cbn [List.length]. replace (S (S (S (List.length r)))) with (List.length r + 1 * 3)%nat by lia. now apply Nat.mod_add. }
    rewrite M. cbn [raw]. rewrite quad3 by assumption.
    change (rfc4648 (a :: b :: c :: r)) with ([b64_char (a / 4); b64_char (a mod 4 * 16 + b / 16); b64_char (b mod 16 * 4 + c / 64); b64_char (c mod 64)] ++ rfc4648 r).
    set (q := [_; _; _; _]). destruct (IH Br) as [(E & ->)|[(E & p & w & x & -> & ->)|(E & p & w & x & y & -> & ->)]].
    + left. auto.
    + right. left. split; [exact E|]. exists (q ++ p), w, x. split; apply app_assoc.
    + right. right. split; [exact E|]. exists (q ++ p), w, x, y. split; apply app_assoc.
Qed.
Lemma set_nth_app {A} (p : list A) l i x : set_nth (p ++ l) (List.length p + i) x = p ++ set_nth l i x.
Proof. induction p as [|a p IH]; cbn; [reflexivity|]. now rewrite IH. Qed.
Lemma encode_base64_rfc s : byte_text s -> encode_base64 s = Ok (rfc4648 s).
Proof.
  intros B. unfold encode_base64. pose proof (enc_raw s [] (List.length s) B (le_n _)) as E. cbn [app List.length] in E. rewrite E. cbn [bind]. f_equal.
  destruct (raw_shape s B) as [(M & R)|[(M & p & w & x & R1 & R2)|(M & p & w & x & y & R1 & R2)]]; rewrite M.
  - exact R.
  - cbn [Nat.eqb Nat.sub pad_tail]. rewrite R1, R2. rewrite app_length. cbn [List.length].
    replace (List.length p + 4 - 0 - 1)%nat with (List.length p + 3)%nat by lia. rewrite set_nth_app. cbn [set_nth].
    rewrite app_length. cbn [List.length]. replace (List.length p + 4 - 1 - 1)%nat with (List.length p + 2)%nat by lia. now rewrite set_nth_app.
  - cbn [Nat.eqb Nat.sub pad_tail]. rewrite R1, R2. rewrite app_length. cbn [List.length].
    replace (List.length p + 4 - 0 - 1)%nat with (List.length p + 3)%nat by lia. now rewrite set_nth_app.
Qed.
Lemma rfc_length s : List.length (rfc4648 s) = (4 * ((List.length s + 2) / 3))%nat.
Proof.
  induction s as [|a|a b|a b c r IH] using list_ind3; try reflexivity.
  change (rfc4648 (a :: b :: c :: r)) with ([b64_char (a / 4); b64_char (a mod 4 * 16 + b / 16); b64_char (b mod 16 * 4 + c / 64); b64_char (c mod 64)] ++ rfc4648 r).
  rewrite app_length, IH. cbn [List.length]. replace (S (S (S (List.length r))) + 2)%nat with (List.length r + 2 + 1 * 3)%nat by lia.
  rewrite Nat.div_add by lia. lia.
Qed.
Definition b64_letter (c : Z) : Prop := 65 <= c <= 90 \/ 97 <= c <= 122 \/ 48 <= c <= 57 \/ c = 43 \/ c = 47.
Lemma b64_char_letter v : 0 <= v < 64 -> b64_letter (b64_char v).
Proof.
  intros H. unfold b64_char, b64_letter. destruct (Z.ltb_spec v 26); [lia|]. destruct (Z.ltb_spec v 52); [lia|]. destruct (Z.ltb_spec v 62); [lia|].
  destruct (Z.eqb_spec v 62); lia.
Qed.
Lemma rfc_alphabet s : byte_text s -> exists p k, rfc4648 s = p ++ repeat 61 k /\ (k <= 2)%nat /\ Forall b64_letter p.
Proof.
  induction s as [|a|a b|a b c r IH] using list_ind3; intros B.
  - exists [], 0%nat. repeat split; [lia|constructor].
  - inversion B; subst. exists [b64_char (a / 4); b64_char (a mod 4 * 16)], 2%nat. repeat split; [lia|].
    repeat (apply Forall_cons; [apply b64_char_letter; lia|]). constructor.
  - inversion B as [|? ? Ba B']; subst. inversion B' as [|? ? Bb _]; subst.
    exists [b64_char (a / 4); b64_char (a mod 4 * 16 + b / 16); b64_char (b mod 16 * 4)], 1%nat. repeat split; [lia|].
    repeat (apply Forall_cons; [apply b64_char_letter; lia|]). constructor.
  - inversion B as [|? ? Ba B']; subst. inversion B' as [|? ? Bb B'']; subst. inversion B'' as [|? ? Bc Br]; subst.
    destruct (IH Br) as (p & k & E & K & F).
    exists ([b64_char (a / 4); b64_char (a mod 4 * 16 + b / 16); b64_char (b mod 16 * 4 + c / 64); b64_char (c mod 64)] ++ p), k.
    rewrite <- app_assoc, <- E. split; [reflexivity|]. split; [exact K|]. apply Forall_app. split; [|exact F].
    repeat (apply Forall_cons; [apply b64_char_letter; lia|]). constructor.
Qed.

(** Decoding *)
Definition three (e : Z) : text := [Z.land (Z.shiftr e 16) 255; Z.land (Z.shiftr e 8) 255; Z.land e 255].
Definition tm (c sh : Z) : outcome Z := let! v := invbase64 c in Ok (Z.shiftl v sh).
Fixpoint draw (l : text) : outcome text :=
  match l with
  | [] => Ok []
  | [a] => let! x := tm a 18 in Ok (three x)
  | [a; b] => let! x := tm a 18 in let! y := tm b 12 in Ok (three (x + y))
  | [a; b; c] => let! x := tm a 18 in let! y := tm b 12 in let! z := tm c 6 in Ok (three (x + y + z))
  | a :: b :: c :: d :: r =>
      let! x := tm a 18 in let! y := tm b 12 in let! z := tm c 6 in let! w := tm d 0 in
      let! q := draw r in Ok (three (x + y + z + w) ++ q)
  end.
Lemma opt_term_in pre l i sh : (i < List.length l)%nat -> opt_term (pre ++ l) (List.length pre + i) sh = tm (sc l i) sh.
Proof.
  intros H. unfold opt_term, tm. rewrite app_length. destruct (Nat.ltb_spec (List.length pre + i) (List.length pre + List.length l)); [|lia].
  now rewrite sc_app2.
Qed.
Lemma opt_term_in0 pre c l sh : opt_term (pre ++ c :: l) (List.length pre) sh = tm c sh.
Proof. pose proof (opt_term_in pre (c :: l) 0 sh ltac:(cbn; lia)) as E. now rewrite Nat.add_0_r in E. Qed.
Lemma opt_term_out pre l i sh : (List.length l <= i)%nat -> opt_term (pre ++ l) (List.length pre + i) sh = Ok 0.
Proof.
  intros H. unfold opt_term. rewrite app_length. destruct (Nat.ltb_spec (List.length pre + i) (List.length pre + List.length l)); [lia|reflexivity].
Qed.
Lemma dec_end fuel s i : (List.length s <= i)%nat -> dec_loop fuel s i = Ok [].
Proof. intros H. destruct fuel; cbn [dec_loop]; destruct (Nat.ltb_spec i (List.length s)); (reflexivity || lia). Qed.
Lemma dec_draw l : forall pre fuel, (List.length l <= fuel)%nat -> dec_loop fuel (pre ++ l) (List.length pre) = draw l.
Proof.
  induction l as [|a|a b|a b c|a b c d r IH] using list_ind4; intros pre fuel F.
  - apply dec_end. rewrite app_nil_r. lia.
  - destruct fuel as [|fuel]; [cbn in F; lia|]. cbn [dec_loop]. rewrite app_length. cbn [List.length].
    destruct (Nat.ltb_spec (List.length pre) (List.length pre + 1)); [|lia].
    rewrite opt_term_in0. rewrite !opt_term_out by (cbn; lia).
    rewrite dec_end by (rewrite app_length; cbn; lia). unfold sc. cbn [nth draw]. destruct (tm a 18); try reflexivity. cbn [bind]. now rewrite !Z.add_0_r.
  - destruct fuel as [|fuel]; [cbn in F; lia|]. cbn [dec_loop]. rewrite app_length. cbn [List.length].
    destruct (Nat.ltb_spec (List.length pre) (List.length pre + 2)); [|lia].
    rewrite opt_term_in0, !opt_term_in by (cbn; lia). rewrite !opt_term_out by (cbn; lia).
    rewrite dec_end by (rewrite app_length; cbn; lia). unfold sc. cbn [nth draw]. destruct (tm a 18); try reflexivity. cbn [bind].
    destruct (tm b 12); try reflexivity. cbn [bind]. now rewrite !Z.add_0_r.
  - destruct fuel as [|fuel]; [cbn in F; lia|]. cbn [dec_loop]. rewrite app_length. cbn [List.length].
    destruct (Nat.ltb_spec (List.length pre) (List.length pre + 3)); [|lia].
    rewrite opt_term_in0, !opt_term_in by (cbn; lia). rewrite !opt_term_out by (cbn; lia).
    rewrite dec_end by (rewrite app_length; cbn; lia). unfold sc. cbn [nth draw]. destruct (tm a 18); try reflexivity. cbn [bind].
    destruct (tm b 12); try reflexivity. cbn [bind]. destruct (tm c 6); try reflexivity. cbn [bind]. now rewrite !Z.add_0_r.
  - destruct fuel as [|fuel]; [cbn in F; lia|]. cbn [dec_loop]. rewrite app_length. cbn [List.length] in *.
    destruct (Nat.ltb_spec (List.length pre) (List.length pre + S (S (S (S (List.length r)))))); [|lia].
    rewrite opt_term_in0, !opt_term_in by (cbn; lia). unfold sc. cbn [nth draw].
    specialize (IH (pre ++ [a; b; c; d]) fuel ltac:(lia)). rewrite <- app_assoc in IH. cbn [app] in IH. rewrite app_length in IH. cbn [List.length] in IH.
    rewrite IH. reflexivity.
Qed.
Lemma three_spec e : 0 <= e -> three e = [e / 65536 mod 256; e / 256 mod 256; e mod 256].
Proof. intros H. unfold three. change 255 with (Z.ones 8). rewrite !Z.land_ones, !Z.shiftr_div_pow2 by lia. reflexivity. Qed.
Lemma tm_b64 v sh : 0 <= v < 64 -> 0 <= sh -> tm (b64_char v) sh = Ok (v * 2 ^ sh).
Proof. intros H S. unfold tm. rewrite inv_b64 by exact H. cbn [bind]. now rewrite Z.shiftl_mul_pow2. Qed.
Lemma tm_pad sh : tm 61 sh = Ok 0.
Proof. unfold tm. change (invbase64 61) with (Ok 0). cbn [bind]. now rewrite Z.shiftl_0_l. Qed.
Lemma draw_rfc s : byte_text s -> exists k, draw (rfc4648 s) = Ok (s ++ repeat 0 k) /\
  exists q, rfc4648 s = q ++ repeat 61 k /\ (q = [] /\ s = [] /\ k = 0%nat \/ (s <> [] /\ exists q' z, q = q' ++ [z] /\ z <> 61)).
Proof.
  induction s as [|a|a b|a b c r IH] using list_ind3; intros B.
  - exists 0%nat. split; [reflexivity|]. exists []. auto.
  - inversion B as [|? ? Ba _]; subst. exists 2%nat. split.
    + cbn [rfc4648 draw]. rewrite !tm_b64, !tm_pad by lia. cbn [bind]. rewrite !app_nil_r, !Z.add_0_r, Z.mul_1_r || idtac.
      rewrite three_spec by lia. cbn [app repeat]. change (2 ^ 18) with 262144. change (2 ^ 12) with 4096.
      repeat (f_equal; try lia).
    + exists [b64_char (a / 4); b64_char (a mod 4 * 16)]. split; [reflexivity|]. right. split; [discriminate|].
      exists [b64_char (a / 4)], (b64_char (a mod 4 * 16)). split; [reflexivity|]. apply b64_char_not_pad. lia.
  - inversion B as [|? ? Ba B']; subst. inversion B' as [|? ? Bb _]; subst. exists 1%nat. split.
    + cbn [rfc4648 draw]. rewrite !tm_b64, !tm_pad by lia. cbn [bind].
      rewrite three_spec by lia. cbn [app repeat]. change (2 ^ 18) with 262144. change (2 ^ 12) with 4096. change (2 ^ 6) with 64.
      repeat (f_equal; try lia).
    + exists [b64_char (a / 4); b64_char (a mod 4 * 16 + b / 16); b64_char (b mod 16 * 4)]. split; [reflexivity|]. right. split; [discriminate|].
      exists [b64_char (a / 4); b64_char (a mod 4 * 16 + b / 16)], (b64_char (b mod 16 * 4)). split; [reflexivity|]. apply b64_char_not_pad. lia.
  - inversion B as [|? ? Ba B']; subst. inversion B' as [|? ? Bb B'']; subst. inversion B'' as [|? ? Bc Br]; subst.
    destruct (IH Br) as (k & D & q & E & Q). exists k. split.
    + change (rfc4648 (a :: b :: c :: r)) with (b64_char (a / 4) :: b64_char (a mod 4 * 16 + b / 16) :: b64_char (b mod 16 * 4 + c / 64) :: b64_char (c mod 64) :: rfc4648 r).
      cbn [draw]. rewrite !tm_b64 by lia. cbn [bind]. rewrite D. cbn [bind]. rewrite three_spec by lia. cbn [app].
      change (2 ^ 18) with 262144. change (2 ^ 12) with 4096. change (2 ^ 6) with 64. change (2 ^ 0) with 1. repeat (f_equal; try lia).
    + exists ([b64_char (a / 4); b64_char (a mod 4 * 16 + b / 16); b64_char (b mod 16 * 4 + c / 64); b64_char (c mod 64)] ++ q).
      split; [rewrite <- app_assoc, <- E; reflexivity|]. right. split; [discriminate|]. destruct Q as [(-> & _ & _)|(_ & q' & z & -> & Z)].
      * exists [b64_char (a / 4); b64_char (a mod 4 * 16 + b / 16); b64_char (b mod 16 * 4 + c / 64)], (b64_char (c mod 64)).
        split; [reflexivity|]. apply b64_char_not_pad. lia.
      * exists ([b64_char (a / 4); b64_char (a mod 4 * 16 + b / 16); b64_char (b mod 16 * 4 + c / 64); b64_char (c mod 64)] ++ q'), z.
        split; [apply app_assoc|exact Z].
Qed.
Lemma trim_pads q' z s k : z <> 61 -> s <> [] -> forall j,
  trim_loop ((q' ++ [z]) ++ repeat 61 (k + j)) (s ++ repeat 0 k) (List.length (q' ++ [z]) + k) = s.
Proof.
  intros Zn Sn. induction k as [|k IH]; intros j.
  - cbn [repeat Nat.add]. rewrite !app_nil_r, Nat.add_0_r, app_length. cbn [List.length]. rewrite Nat.add_1_r. cbn [trim_loop].
    rewrite <- app_assoc. cbn [app]. rewrite sc_mid. destruct (Z.eqb_spec z 61); [congruence|reflexivity].
  - rewrite Nat.add_succ_r. cbn [trim_loop]. rewrite sc_app2.
    replace (S k + j)%nat with (k + S j)%nat by lia.
    assert (X : sc (repeat 61 (k + S j)) k = 61) by (unfold sc; apply nth_repeat_lt; lia). rewrite X. cbn [Z.eqb Pos.eqb].
    assert (R : removelast (s ++ repeat 0 (S k)) = s ++ repeat 0 k).
    { replace (repeat 0 (S k)) with (repeat 0 k ++ [0]) by (change [0] with (repeat 0 1); now rewrite <- repeat_app, Nat.add_1_r).
      rewrite app_assoc. apply removelast_last. }
    rewrite R. destruct (s ++ repeat 0 k) eqn:E; [destruct s; [congruence|discriminate]|]. apply IH.
Qed.
Lemma base64_round_trip s : byte_text s -> decode_base64 (rfc4648 s) = Ok s.
Proof.
  intros B. unfold decode_base64. pose proof (dec_draw (rfc4648 s) [] (List.length (rfc4648 s)) (le_n _)) as D. cbn [app List.length] in D. rewrite D.
  destruct (draw_rfc s B) as (k & -> & q & E & Q). cbn [bind]. f_equal. destruct Q as [(-> & -> & ->)|(Sn & q' & z & -> & Zn)]; [reflexivity|].
  rewrite E, app_length, repeat_length. pose proof (trim_pads q' z s k Zn Sn 0) as T. now rewrite Nat.add_0_r in T.
Qed.
(** Which inputs leave the table. *)
Lemma invbase64_safe c : 0 <= c < 256 -> (c = 123 /\ invbase64 c = UB) \/ (c <> 123 /\ exists v, invbase64 c = Ok v).
Proof.
  intros H. pose (p := fun c => if c =? 123 then match invbase64 c with UB => true | _ => false end else match invbase64 c with Ok _ => true | _ => false end).
  assert (C : p c = true) by (apply (upto_check p 256); [vm_compute; reflexivity|exact H]). unfold p in C.
  destruct (Z.eqb_spec c 123); destruct (invbase64 c); try discriminate; eauto.
Qed.
Lemma tm_safe c sh : 0 <= c < 256 -> (c = 123 /\ tm c sh = UB) \/ (c <> 123 /\ exists v, tm c sh = Ok v).
Proof. intros H. unfold tm. destruct (invbase64_safe c H) as [[-> ->]|[N [v ->]]]; [left|right]; cbn; eauto. Qed.
Lemma draw_safe l : byte_text l -> (In 123 l /\ draw l = UB) \/ (~ In 123 l /\ exists r, draw l = Ok r).
Proof.
  induction l as [|a|a b|a b c|a b c d r IH] using list_ind4; intros B; cbn [draw].
  - right. split; [tauto|eauto].
  - inversion B as [|? ? Ba _]; subst. destruct (tm_safe a 18 Ba) as [[-> ->]|[Na [x ->]]]; cbn [bind]; [left; cbn; auto|].
    right. split; [cbn; tauto|eauto].
  - inversion B as [|? ? Ba B']; subst. inversion B' as [|? ? Bb _]; subst.
    destruct (tm_safe a 18 Ba) as [[-> ->]|[Na [x ->]]]; cbn [bind]; [left; cbn; auto|].
    destruct (tm_safe b 12 Bb) as [[-> ->]|[Nb [y ->]]]; cbn [bind]; [left; cbn; auto|].
    right. split; [cbn; tauto|eauto].
  - inversion B as [|? ? Ba B']; subst. inversion B' as [|? ? Bb B'']; subst. inversion B'' as [|? ? Bc _]; subst.
    destruct (tm_safe a 18 Ba) as [[-> ->]|[Na [x ->]]]; cbn [bind]; [left; cbn; auto|].
    destruct (tm_safe b 12 Bb) as [[-> ->]|[Nb [y ->]]]; cbn [bind]; [left; cbn; auto|].
    destruct (tm_safe c 6 Bc) as [[-> ->]|[Nc [z ->]]]; cbn [bind]; [left; cbn; auto|].
    right. split; [cbn; tauto|eauto].
  - inversion B as [|? ? Ba B']; subst. inversion B' as [|? ? Bb B'']; subst. inversion B'' as [|? ? Bc B3]; subst. inversion B3 as [|? ? Bd Br]; subst.
    destruct (tm_safe a 18 Ba) as [[-> ->]|[Na [x ->]]]; cbn [bind]; [left; cbn; auto|].
    destruct (tm_safe b 12 Bb) as [[-> ->]|[Nb [y ->]]]; cbn [bind]; [left; cbn; auto|].
    destruct (tm_safe c 6 Bc) as [[-> ->]|[Nc [z ->]]]; cbn [bind]; [left; cbn; auto|].
    destruct (tm_safe d 0 Bd) as [[-> ->]|[Nd [w ->]]]; cbn [bind]; [left; cbn; auto 10|].
    destruct (IH Br) as [[I ->]|[I [q ->]]]; cbn [bind]; [left; cbn; auto 10|].
    right. split; [cbn; tauto|eauto].
Qed.
Lemma decode_safe t : byte_text t -> (In 123 t /\ decode_base64 t = UB) \/ (~ In 123 t /\ exists r, decode_base64 t = Ok r).
Proof.
  intros B. unfold decode_base64. pose proof (dec_draw t [] (List.length t) (le_n _)) as D. cbn [app List.length] in D. rewrite D.
  destruct (draw_safe t B) as [[I ->]|[I [r ->]]]; [left|right]; cbn [bind]; eauto.
Qed.

(** ** URLs *)
Lemma hex_round c : 0 <= c < 256 -> strtoul16 [hexdigit (c / 16); hexdigit (c mod 16)] mod 256 = c.
Proof.
  intros H. apply Z.eqb_eq. apply (upto_check (fun c => strtoul16 [hexdigit (c / 16); hexdigit (c mod 16)] mod 256 =? c) 256); [vm_compute; reflexivity|exact H].
Qed.
Lemma url_safe_spec c : url_safe c = true <-> unreserved c.
Proof.
  unfold url_safe, unreserved. cbn [codes]. cbn. rewrite !orb_true_iff, !andb_true_iff, !Z.leb_le, !Z.eqb_eq. intuition lia.
Qed.
Lemma hexdigit_char n : 0 <= n < 16 -> hex_char (hexdigit n).
Proof. intros H. unfold hexdigit, hex_char. destruct (Z.ltb_spec n 10); lia. Qed.
Lemma encode_url_text s : byte_text s -> url_text (encode_url s).
Proof.
  induction 1 as [|c s H _ IH]; [constructor|]. unfold encode_url. cbn [flat_map]. unfold encode_uchar at 1. destruct (url_safe c) eqn:E.
  - cbn [app]. constructor; [now apply url_safe_spec|exact IH].
  - cbn [app]. constructor; [apply hexdigit_char; lia|apply hexdigit_char; lia|exact IH].
Qed.
Definition fits (t : text) : Prop := Z.of_nat (List.length t) < 2 ^ 63.
Lemma unreserved_not_percent c : unreserved c -> c <> 37.
Proof. unfold unreserved. cbn. intros H ->. lia. Qed.
(** Decoding what remains after position [length pre], with an ignored tail. *)
Lemma decode_tail s : byte_text s -> forall pre tail fuel, fits (pre ++ encode_url s ++ tail) ->
  (tail = [] \/ (exists x y, tail = [37; x] /\ y = 0) \/ (tail = [37] /\ pre ++ encode_url s <> [])) ->
  (List.length s + List.length tail <= fuel)%nat ->
  decode_u fuel (pre ++ encode_url s ++ tail) (List.length pre) = Ok s.
Proof.
  induction 1 as [|c s H B IH]; intros pre tail fuel FT T F.
  - cbn [encode_url flat_map app] in *. unfold fits in FT. rewrite app_length in FT. destruct T as [->|[(x & _ & -> & _)|[-> Np]]].
    + rewrite app_nil_r. destruct fuel; cbn [decode_u]; now rewrite Nat.ltb_irrefl.
    + destruct fuel as [|fuel]; [cbn in F; lia|]. cbn [decode_u]. rewrite app_length. cbn [List.length] in *.
      destruct (Nat.ltb_spec (List.length pre) (List.length pre + 2)); [|lia]. rewrite sc_mid. cbn [Z.eqb Pos.eqb].
      rewrite Z.mod_small by lia. destruct (Z.leb_spec (Z.of_nat (List.length pre + 2) - 2) (Z.of_nat (List.length pre))); [reflexivity|lia].
    + rewrite app_nil_r in Np. destruct fuel as [|fuel]; [cbn in F; lia|]. cbn [decode_u]. rewrite app_length. cbn [List.length] in *.
      assert (0 < List.length pre)%nat by (destruct pre; [congruence|cbn; lia]).
      destruct (Nat.ltb_spec (List.length pre) (List.length pre + 1)); [|lia]. rewrite sc_mid. cbn [Z.eqb Pos.eqb].
      rewrite Z.mod_small by lia. destruct (Z.leb_spec (Z.of_nat (List.length pre + 1) - 2) (Z.of_nat (List.length pre))); [reflexivity|lia].
  - cbn [List.length] in F. destruct fuel as [|fuel]; [lia|].
    change (encode_url (c :: s)) with (encode_uchar c ++ encode_url s) in *. set (t := pre ++ (encode_uchar c ++ encode_url s) ++ tail) in *.
    assert (Et : t = (pre ++ encode_uchar c) ++ encode_url s ++ tail) by (unfold t; rewrite <- !app_assoc; reflexivity).
    assert (IH' : decode_u fuel t (List.length (pre ++ encode_uchar c)) = Ok s).
    { rewrite Et. apply IH; [rewrite <- Et; exact FT| |lia]. destruct T as [->|[T|[-> T]]]; auto.
      right. right. split; [reflexivity|]. rewrite <- app_assoc. exact T. }
    cbn [decode_u]. assert (LT : (List.length pre < List.length t)%nat).
    { unfold t. rewrite !app_length. unfold encode_uchar. destruct (url_safe c); cbn; lia. }
    destruct (Nat.ltb_spec (List.length pre) (List.length t)); [|lia].
    unfold encode_uchar in *. destruct (url_safe c) eqn:E.
    + assert (S0 : sc t (List.length pre) = c) by (unfold t; apply sc_mid). rewrite S0.
      apply url_safe_spec, unreserved_not_percent in E. destruct (Z.eqb_spec c 37); [congruence|].
      rewrite app_length in IH'. cbn [List.length] in IH'. rewrite IH'. reflexivity.
    + assert (S0 : sc t (List.length pre) = 37) by (unfold t; apply sc_mid). rewrite S0. cbn [Z.eqb Pos.eqb].
      assert (LL : (List.length pre + 3 <= List.length t)%nat) by (unfold t; rewrite !app_length; cbn; lia).
      unfold fits in FT. rewrite Z.mod_small by lia.
      destruct (Z.leb_spec (Z.of_nat (List.length t) - 2) (Z.of_nat (List.length pre))); [lia|].
      rewrite app_length in IH'. cbn [List.length] in IH'. rewrite IH'. cbn [bind]. f_equal. f_equal.
      assert (SK : firstn 2 (skipn (List.length pre + 1) t) = [hexdigit (c / 16); hexdigit (c mod 16)]).
      { unfold t. cbn [app]. replace (pre ++ 37 :: hexdigit (c / 16) :: hexdigit (c mod 16) :: encode_url s ++ tail) with ((pre ++ [37]) ++ hexdigit (c / 16) :: hexdigit (c mod 16) :: encode_url s ++ tail) by (rewrite <- app_assoc; reflexivity).
        rewrite skipn_app_exact by (rewrite app_length; reflexivity). reflexivity. }
      rewrite SK. now apply hex_round.
Qed.
Lemma flat_map_length_le {A B} (f : A -> list B) l : (forall x, (1 <= List.length (f x))%nat) -> (List.length l <= List.length (flat_map f l))%nat.
Proof. intros H. induction l as [|x l IH]; cbn; [lia|]. rewrite app_length. specialize (H x). lia. Qed.
Lemma encode_url_length s : (List.length s <= List.length (encode_url s))%nat.
Proof. apply flat_map_length_le. intros c. unfold encode_uchar. destruct (url_safe c); cbn; lia. Qed.
Lemma url_round_trip s : byte_text s -> fits (encode_url s) -> decode_url (encode_url s) = Ok s.
Proof.
  intros B F. unfold decode_url. pose proof (decode_tail s B [] [] (List.length (encode_url s))) as D. cbn [app] in D. rewrite app_nil_r in D.
  pose proof (encode_url_length s). apply D; cbn; auto; lia.
Qed.

(** ** C strings *)
Definition forget (c : Z) : Z := if iscntrl c && negb (c =? 10) && negb (c =? 9) then 0 else c.
Lemma hex_byte_two c : 0 <= c < 256 -> exists a b, hex_byte c = [a; b] /\ isxdigit a = true /\ isxdigit b = true /\ atoi (codes "0x" ++ [a; b]) = Ok 0.
Proof.
  intros H. pose (p := fun c => match hex_byte c with [a; b] => isxdigit a && isxdigit b && match atoi (codes "0x" ++ [a; b]) with Ok v => v =? 0 | _ => false end | _ => false end).
  assert (C : p c = true) by (apply (upto_check p 256); [vm_compute; reflexivity|exact H]). unfold p in C.
  destruct (hex_byte c) as [|a [|b [|? ?]]]; try discriminate. exists a, b. apply andb_true_iff in C as [C1 C2]. apply andb_true_iff in C1 as [Ca Cb].
  split; [reflexivity|]. split; [exact Ca|]. split; [exact Cb|]. destruct (atoi (codes "0x" ++ [a; b])); try discriminate. apply Z.eqb_eq in C2. now subst.
Qed.
Lemma decode_cchar c r f : 0 <= c < 256 -> decode_c (S f) (encode_cchar c ++ r) =
  let! p := decode_c f r in Ok (forget c :: fst p, (List.length (encode_cchar c) + snd p)%nat).
Proof.
  intros H. unfold encode_cchar, forget. destruct (Z.eqb_spec c 10) as [->|N10]; [cbn [app codes decode_c]; cbn; destruct (decode_c f r) as [[? ?]| | | |]; reflexivity|].
  destruct (Z.eqb_spec c 9) as [->|N9]; [cbn [app codes decode_c]; cbn; destruct (decode_c f r) as [[? ?]| | | |]; reflexivity|].
  assert (Z0 : (c =? 0) || iscntrl c = iscntrl c) by (destruct (Z.eqb_spec c 0) as [->|]; reflexivity). rewrite Z0. cbn [negb]. rewrite !andb_true_r.
  destruct (iscntrl c) eqn:EC.
  - destruct (hex_byte_two c H) as (a & b & -> & Ha & Hb & At). rewrite <- app_assoc.
    change (codes "\x" ++ [a; b] ++ r) with (92 :: 120 :: a :: b :: r). cbn [decode_c Z.eqb Pos.eqb].
    unfold xdigits. rewrite Ha, Hb. rewrite At. cbn [bind List.length skipn app codes]. destruct (decode_c f r) as [[? ?]| | | |]; reflexivity.
  - destruct (Z.eqb_spec c 34) as [->|N34]; [cbn [orb app decode_c]; cbn; destruct (decode_c f r) as [[? ?]| | | |]; reflexivity|].
    destruct (Z.eqb_spec c 92) as [->|N92]; [cbn [orb app decode_c]; cbn; destruct (decode_c f r) as [[? ?]| | | |]; reflexivity|].
    cbn [orb app decode_c]. destruct (Z.eqb_spec c 34); [congruence|]. destruct (Z.eqb_spec c 92); [congruence|]. destruct (decode_c f r) as [[? ?]| | | |]; reflexivity.
Qed.
Lemma decode_cenc s : byte_text s -> forall f, (List.length s <= f)%nat -> decode_c f (encode_cstring s) = Ok (map forget s, List.length (encode_cstring s)).
Proof.
  induction 1 as [|c s H _ IH]; intros f F; [destruct f; reflexivity|]. cbn [List.length] in F. destruct f as [|f]; [lia|].
  change (encode_cstring (c :: s)) with (encode_cchar c ++ encode_cstring s). rewrite decode_cchar by exact H. rewrite IH by lia. cbn [bind fst snd map]. now rewrite app_length.
Qed.
Lemma encode_c_length s : (List.length s <= List.length (encode_cstring s))%nat.
Proof.
  apply flat_map_length_le. intros c. unfold encode_cchar. destruct (c =? 10); [cbn; lia|]. destruct (c =? 9); [cbn; lia|].
  destruct (_ || _); [rewrite app_length; cbn; lia|]. destruct (_ || _); cbn; lia.
Qed.
Lemma cstring_decode s : byte_text s -> decode_cstring (encode_cstring s) = Ok (map forget s, List.length (encode_cstring s)).
Proof. intros B. apply decode_cenc; [exact B|apply encode_c_length]. Qed.
Lemma atoi_0x l : atoi (codes "0x" ++ l) = Ok 0.
Proof. unfold atoi. cbn [codes app]. cbn. reflexivity. Qed.
Lemma xdigits_length l : (List.length (xdigits l) <= List.length l)%nat.
Proof. destruct l as [|a [|b r]]; cbn; [lia|destruct (isxdigit a); cbn; lia|]. destruct (isxdigit a); [destruct (isxdigit b)|]; cbn; lia. Qed.
Lemma decode_c_total : forall f s, (List.length s <= f)%nat -> exists t n, decode_c f s = Ok (t, n) /\ (n <= List.length s)%nat.
Proof.
  induction f as [|f IH]; intros s F.
  - destruct s; [|cbn in F; lia]. exists [], 0%nat. auto.
  - destruct s as [|c r]; [exists [], 0%nat; auto|]. cbn [decode_c List.length] in *. destruct (c =? 34); [exists [], 1%nat; split; [reflexivity|lia]|].
    destruct (if c =? 92 then r else []) as [|k r'] eqn:E.
    + destruct (IH r) as (t & n & -> & L); [lia|]. cbn. eexists _, _. split; [reflexivity|]. lia.
    + assert (r = k :: r') by (destruct (c =? 92); [exact E|discriminate]). subst r. cbn [List.length] in *.
      destruct (k =? 110); [destruct (IH r') as (t & n & -> & L); [lia|]; cbn; eexists _, _; split; [reflexivity|lia]|].
      destruct (k =? 116); [destruct (IH r') as (t & n & -> & L); [lia|]; cbn; eexists _, _; split; [reflexivity|lia]|].
      destruct (k =? 120).
      * rewrite atoi_0x. cbn [bind]. pose proof (xdigits_length r').
        destruct (IH (skipn (List.length (xdigits r')) r')) as (t & n & -> & L); [rewrite skipn_length; lia|]. cbn. rewrite skipn_length in L.
        eexists _, _. split; [reflexivity|]. lia.
      * destruct (IH r') as (t & n & -> & L); [lia|]; cbn; eexists _, _; split; [reflexivity|lia].
Qed.
Lemma forget_id s : byte_text s -> (map forget s = s <-> Forall (fun c => iscntrl c = true -> c = 0 \/ c = 10 \/ c = 9) s).
Proof.
  induction 1 as [|c s H _ IH]; cbn; [split; constructor|]. split.
  - intros E. injection E as E1 E2. constructor; [|now apply IH]. intros C. unfold forget in E1. rewrite C in E1.
    destruct (Z.eqb_spec c 10), (Z.eqb_spec c 9); cbn in E1; lia.
  - intros F. inversion F; subst. f_equal; [|now apply IH]. unfold forget. destruct (iscntrl c); [|reflexivity].
    destruct (H2 eq_refl) as [-> | [-> | ->]]; reflexivity.
Qed.
