From Verif Require Import BaseFacts MachineModel.

Lemma be_load_acc bs : forall acc,
  fold_left (fun a b => a * 256 + b) bs acc = acc * 256 ^ Z.of_nat (List.length bs) + be_val bs.
Proof.
  induction bs as [|b bs IH]; intros acc; cbn [fold_left be_val List.length]; [lia|].
  rewrite IH, pow256_succ. ring.
Qed.
Lemma be_load_val bs : be_load bs = be_val bs.
Proof. unfold be_load. rewrite be_load_acc. lia. Qed.

Lemma get_ui_val h bs : get_ui h (check_endianess h) bs = be_val bs.
Proof.
  destruct h; [change (check_endianess LE) with false|change (check_endianess BE) with true];
  unfold get_ui, load_u; [rewrite rev_involutive|]; apply be_load_val.
Qed.
Lemma get_i_val h bs : get_i h (check_endianess h) bs = to_signed (8 * Z.of_nat (List.length bs)) (be_val bs).
Proof.
  destruct h; [change (check_endianess LE) with false|change (check_endianess BE) with true];
  unfold get_i, load_i, load_u, to_signed;
  rewrite ?rev_involutive, ?rev_length, be_load_val; reflexivity.
Qed.

Lemma to_signed_unsigned bits v : 0 < bits -> - 2 ^ (bits - 1) <= v < 2 ^ (bits - 1) ->
  to_signed bits (v mod 2 ^ bits) = v.
Proof.
  intros Hb Hv. unfold to_signed.
  assert (Hp : 2 ^ bits = 2 * 2 ^ (bits - 1)) by (rewrite <- Z.pow_succ_r by lia; f_equal; lia).
  assert (0 < 2 ^ (bits - 1)) by (apply Z.pow_pos_nonneg; lia).
  set (p := 2 ^ (bits - 1)) in *. rewrite Hp in *.
  destruct (Z_lt_le_dec v 0) as [Hn|Hn].
  - replace (v mod (2 * p)) with (v + 2 * p).
    + destruct (Z.ltb_spec (v + 2 * p) p); lia.
    + apply Z.mod_unique with (-1); lia.
  - rewrite Z.mod_small by lia. destruct (Z.ltb_spec v p); lia.
Qed.

Lemma to_signed_range bits v : 0 < bits -> 0 <= v < 2 ^ bits ->
  - 2 ^ (bits - 1) <= to_signed bits v < 2 ^ (bits - 1).
Proof.
  intros Hb Hv. unfold to_signed.
  assert (Hp : 2 ^ bits = 2 * 2 ^ (bits - 1)) by (rewrite <- Z.pow_succ_r by lia; f_equal; lia).
  destruct (Z.ltb_spec v (2 ^ (bits - 1))); lia.
Qed.
Lemma to_signed_mod bits v : 0 < bits -> 0 <= v < 2 ^ bits -> to_signed bits v mod 2 ^ bits = v.
Proof.
  intros Hb Hv. unfold to_signed.
  destruct (Z.ltb_spec v (2 ^ (bits - 1))).
  - apply Z.mod_small; lia.
  - symmetry. apply Z.mod_unique with (-1); lia.
Qed.

(** 256^n for the widths in use *)
Lemma pow256_bits n : 256 ^ Z.of_nat n = 2 ^ (8 * Z.of_nat n).
Proof. change 256 with (2 ^ 8). rewrite <- Z.pow_mul_r by lia. reflexivity. Qed.

(** field reads *)
Lemma rd_ui_spec h b off n : rd_ui h b off n = (let! bs := bytes_at b off n in Ok (be_val bs)).
Proof.
  unfold rd_ui. destruct (bytes_at b off n); cbn [bind]; try reflexivity. rewrite get_ui_val. reflexivity.
Qed.
Lemma rd_i_spec h b off n : rd_i h b off n =
  (let! bs := bytes_at b off n in Ok (to_signed (8 * Z.of_nat n) (be_val bs))).
Proof.
  unfold rd_i, bytes_at. destruct (Nat.leb_spec (off + n) (List.length b)); cbn [bind]; [|reflexivity].
  rewrite get_i_val, firstn_length, skipn_length, Nat.min_l by lia. reflexivity.
Qed.

(** C10 : all widths, both byte orders, in one statement *)
Lemma decode_unsigned h bs : bytes_ok bs ->
  get_ui h (check_endianess h) bs = be_val bs /\ 0 <= be_val bs < 256 ^ Z.of_nat (List.length bs).
Proof. intros H. split; [apply get_ui_val|apply be_val_range; exact H]. Qed.

Lemma decode_encode_unsigned h n v : 0 <= v < 256 ^ Z.of_nat n ->
  get_ui h (check_endianess h) (be n v) = v.
Proof. intros H. rewrite get_ui_val. apply be_val_be_small. exact H. Qed.
Lemma decode_encode_signed h n v : (0 < n)%nat ->
  - 2 ^ (8 * Z.of_nat n - 1) <= v < 2 ^ (8 * Z.of_nat n - 1) ->
  get_i h (check_endianess h) (be n (v mod 2 ^ (8 * Z.of_nat n))) = v.
Proof.
  intros Hn H. rewrite get_i_val, be_length, be_val_be, pow256_bits, Z.mod_mod.
  - apply to_signed_unsigned; lia.
  - apply Z.pow_nonzero; lia.
Qed.

(** CDS times *)
Lemma read_cds_short_spec h b off bs : bytes_at b off 6 = Ok bs ->
  read_cds_short h b off =
    Ok (mk_cds (be_val (firstn 2 bs)) (be_val (skipn 2 bs))
          (86400 * be_val (firstn 2 bs) + be_val (skipn 2 bs) / 1000 - 378691200)
          (be_val (skipn 2 bs) mod 1000)).
Proof.
  unfold bytes_at. destruct (Nat.leb_spec (off + 6) (List.length b)); [|discriminate].
  intros Hb. assert (bs = firstn 6 (skipn off b)) as -> by congruence. unfold read_cds_short. rewrite !rd_ui_spec, !bytes_at_ok by lia. cbn [bind].
  rewrite firstn_firstn. cbn [Nat.min].
  rewrite (skipn_firstn_comm 2 6 (skipn off b)), skipn_skipn. cbn [Nat.sub].
  rewrite (Nat.add_comm 2 off). reflexivity.
Qed.

(** instants ordered by (seconds, milliseconds) *)
Definition cds_lt (a b : cds_short) : Prop :=
  cds_unixtime a < cds_unixtime b \/ (cds_unixtime a = cds_unixtime b /\ cds_usecs a < cds_usecs b).

Lemma cds_decode h pre bs post : List.length bs = 6%nat ->
  exists t, read_cds_short h (pre ++ bs ++ post) (List.length pre) = Ok t /\
    cds_day t = be_val (firstn 2 bs) /\ cds_msec t = be_val (skipn 2 bs) /\
    cds_unixtime t = 86400 * (be_val (firstn 2 bs) - 4383) + be_val (skipn 2 bs) / 1000 /\
    cds_usecs t = be_val (skipn 2 bs) mod 1000.
Proof.
  intros Hl. eexists. split; [apply read_cds_short_spec, bytes_at_app; auto|].
  cbn [cds_day cds_msec cds_unixtime cds_usecs]. repeat split; lia.
Qed.

Lemma cds_variants h pre bs us ns post : List.length bs = 6%nat ->
  List.length us = 2%nat -> List.length ns = 2%nat ->
  exists t, read_cds_short h (pre ++ bs ++ post) (List.length pre) = Ok t /\
    read_cds h (pre ++ bs ++ us ++ post) (List.length pre) = Ok (t, be_val us) /\
    read_cds_expanded h (pre ++ bs ++ us ++ ns ++ post) (List.length pre) = Ok (t, be_val us, be_val ns).
Proof.
  intros Hl Hu Hn.
  assert (E : forall p, read_cds_short h (pre ++ bs ++ p) (List.length pre) =
    Ok (mk_cds (be_val (firstn 2 bs)) (be_val (skipn 2 bs))
          (86400 * be_val (firstn 2 bs) + be_val (skipn 2 bs) / 1000 - 378691200)
          (be_val (skipn 2 bs) mod 1000)))
    by (intros p; apply read_cds_short_spec, bytes_at_app; auto).
  eexists. split; [apply E|].
  unfold read_cds, read_cds_expanded. rewrite !E. cbn [bind]. rewrite !rd_ui_spec.
  replace (pre ++ bs ++ us ++ post) with ((pre ++ bs) ++ us ++ post) by now rewrite <- app_assoc.
  replace (pre ++ bs ++ us ++ ns ++ post) with ((pre ++ bs) ++ us ++ ns ++ post) by now rewrite <- app_assoc.
  rewrite !(bytes_at_app (pre ++ bs) us) by (rewrite ?app_length; lia). cbn [bind].
  replace ((pre ++ bs) ++ us ++ ns ++ post) with ((pre ++ bs ++ us) ++ ns ++ post) by now rewrite <- !app_assoc.
  rewrite !(bytes_at_app (pre ++ bs ++ us) ns) by (rewrite ?app_length; lia). cbn [bind].
  split; reflexivity.
Qed.

Lemma cds_order h p1 b1 q1 p2 b2 q2 t1 t2 :
  bytes_ok b1 -> bytes_ok b2 -> List.length b1 = 6%nat -> List.length b2 = 6%nat ->
  be_val (skipn 2 b1) < 86400000 -> be_val (skipn 2 b2) < 86400000 ->
  read_cds_short h (p1 ++ b1 ++ q1) (List.length p1) = Ok t1 ->
  read_cds_short h (p2 ++ b2 ++ q2) (List.length p2) = Ok t2 ->
  (cds_unixtime t1 = cds_unixtime t2 /\ cds_usecs t1 = cds_usecs t2 -> b1 = b2) /\
  (cds_lt t1 t2 <->
     be_val (firstn 2 b1) < be_val (firstn 2 b2) \/
     (be_val (firstn 2 b1) = be_val (firstn 2 b2) /\ be_val (skipn 2 b1) < be_val (skipn 2 b2))).
Proof.
  intros Ho1 Ho2 Hl1 Hl2 Hm1 Hm2 E1 E2.
  rewrite (read_cds_short_spec h _ _ b1) in E1 by (apply bytes_at_app; auto).
  rewrite (read_cds_short_spec h _ _ b2) in E2 by (apply bytes_at_app; auto).
  assert (Hr1 := be_val_range _ (bytes_ok_skipn 2 _ Ho1)).
  assert (Hr2 := be_val_range _ (bytes_ok_skipn 2 _ Ho2)).
  apply Ok_inj in E1, E2. subst t1 t2. unfold cds_lt. cbn [cds_unixtime cds_usecs].
  assert (Hinj : be_val (firstn 2 b1) = be_val (firstn 2 b2) ->
                 be_val (skipn 2 b1) = be_val (skipn 2 b2) -> b1 = b2).
  { intros Ha Hb. rewrite <- (firstn_skipn 2 b1), <- (firstn_skipn 2 b2). f_equal.
    - apply be_val_inj; auto using bytes_ok_firstn. rewrite !firstn_length; lia.
    - apply be_val_inj; auto using bytes_ok_skipn. rewrite !skipn_length; lia. }
  revert Hinj. 
  generalize dependent (be_val (skipn 2 b1)); intros m1.
  generalize dependent (be_val (skipn 2 b2)); intros m2.
  generalize (be_val (firstn 2 b1)) (be_val (firstn 2 b2)); intros d1 d2. intros.
  split.
  - intros [Ha Hb]. apply Hinj; lia.
  - lia.
Qed.

Lemma cuc_value pre bs post : List.length bs = 7%nat ->
  read_cuc_scaled (pre ++ bs ++ post) (List.length pre) = Ok (be_val bs).
Proof.
  intros Hl. unfold read_cuc_scaled. rewrite bytes_at_app by auto. cbn [bind].
  do 7 (destruct bs as [|? bs]; [discriminate|]). destruct bs; [|discriminate].
  cbn [be_val List.length]. f_equal. cbn [Z.of_nat Pos.of_succ_nat Pos.succ]. lia.
Qed.
