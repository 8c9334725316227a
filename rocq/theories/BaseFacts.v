(** Facts about the shared definitions. *)
From Verif Require Export Base.
From Coq Require Export Permutation.

Ltac Zify.zify_post_hook ::= Z.div_mod_to_equations.

Lemma be_length n v : List.length (be n v) = n.
Proof. induction n as [|n IH]; cbn [be List.length]; congruence. Qed.

Lemma be_bytes n v : bytes_ok (be n v).
Proof.
  induction n as [|n IH]; cbn [be]; constructor; [|exact IH].
  unfold is_byte. apply Z.mod_pos_bound. lia.
Qed.

Lemma pow256_succ n : 256 ^ Z.of_nat (S n) = 256 * 256 ^ Z.of_nat n.
Proof. rewrite Nat2Z.inj_succ, Z.pow_succ_r by lia. reflexivity. Qed.
Lemma pow256_pos n : 0 < 256 ^ Z.of_nat n.
Proof. apply Z.pow_pos_nonneg; lia. Qed.

Lemma be_mod n v : be n (v mod 256 ^ Z.of_nat n) = be n v.
Proof.
  assert (H : forall m k, (m <= k)%nat -> be m (v mod 256 ^ Z.of_nat k) = be m v).
  { induction m as [|m IH]; intros k Hk; cbn [be]; [reflexivity|].
    rewrite IH by lia. f_equal.
    replace (Z.of_nat k) with (Z.of_nat m + 1 + Z.of_nat (k - m - 1)) by lia.
    rewrite !Z.pow_add_r by lia.
    set (a := 256 ^ Z.of_nat m). set (c := 256 ^ Z.of_nat (k - m - 1)).
    assert (Ha : 0 < a) by apply pow256_pos.
    assert (Hc : 0 < c) by apply pow256_pos.
    replace (a * 256 ^ 1 * c) with (a * (256 * c)) by (rewrite Z.pow_1_r; ring).
    rewrite Z.rem_mul_r by nia.
    rewrite Z.mul_comm, Z.div_add by lia.
    rewrite (Z.div_small (v mod a)) by (apply Z.mod_pos_bound; lia).
    rewrite Z.add_0_l.
    rewrite Z.rem_mul_r by lia.
    rewrite (Z.mul_comm 256), Z_mod_plus_full. apply Z.mod_mod. lia. }
  apply H. lia.
Qed.

Lemma be_val_be n v : be_val (be n v) = v mod 256 ^ Z.of_nat n.
Proof.
  induction n as [|n IH]; cbn [be be_val]; [symmetry; apply Z.mod_1_r|].
  rewrite be_length, IH, pow256_succ.
  assert (Hp := pow256_pos n).
  rewrite (Z.mul_comm 256), Z.rem_mul_r by lia. ring.
Qed.

Lemma be_val_be_small n v : 0 <= v < 256 ^ Z.of_nat n -> be_val (be n v) = v.
Proof. intros H. rewrite be_val_be. apply Z.mod_small. exact H. Qed.

Lemma be_val_range l : bytes_ok l -> 0 <= be_val l < 256 ^ Z.of_nat (List.length l).
Proof.
  induction 1 as [|b l Hb _ IH]; cbn [be_val List.length]; [lia|].
  rewrite pow256_succ. unfold is_byte in Hb. nia.
Qed.

Lemma be_be_val l : bytes_ok l -> be (List.length l) (be_val l) = l.
Proof.
  induction 1 as [|b l Hb Hl IH]; cbn [be_val List.length be]; [reflexivity|].
  assert (Hr := be_val_range l Hl). unfold is_byte in Hb.
  f_equal.
  - rewrite Z.add_comm, Z.div_add by lia.
    rewrite (Z.div_small (be_val l)) by lia. rewrite Z.mod_small; lia.
  - rewrite <- be_mod, Z.add_comm, Z_mod_plus_full, Z.mod_small by lia. exact IH.
Qed.

Lemma be_val_inj l1 l2 : bytes_ok l1 -> bytes_ok l2 -> List.length l1 = List.length l2 ->
  be_val l1 = be_val l2 -> l1 = l2.
Proof.
  intros H1 H2 Hl Hv. rewrite <- (be_be_val l1 H1), <- (be_be_val l2 H2), Hv, Hl. reflexivity.
Qed.

Lemma bytes_ok_app l1 l2 : bytes_ok (l1 ++ l2) <-> bytes_ok l1 /\ bytes_ok l2.
Proof. apply Forall_app. Qed.
Lemma bytes_ok_firstn n l : bytes_ok l -> bytes_ok (firstn n l).
Proof. intros H. unfold bytes_ok in *. rewrite <- (firstn_skipn n l) in H. apply Forall_app in H. tauto. Qed.
Lemma bytes_ok_skipn n l : bytes_ok l -> bytes_ok (skipn n l).
Proof. intros H. unfold bytes_ok in *. rewrite <- (firstn_skipn n l) in H. apply Forall_app in H. tauto. Qed.

Lemma firstn_app_exact {A} (l1 l2 : list A) n : n = List.length l1 -> firstn n (l1 ++ l2) = l1.
Proof. intros ->. rewrite firstn_app, Nat.sub_diag, firstn_all. cbn. apply app_nil_r. Qed.
Lemma skipn_app_exact {A} (l1 l2 : list A) n : n = List.length l1 -> skipn n (l1 ++ l2) = l2.
Proof. intros ->. rewrite skipn_app, Nat.sub_diag, skipn_all. reflexivity. Qed.

Lemma bytes_at_app (a b c : list Z) off n :
  off = List.length a -> n = List.length b -> bytes_at (a ++ b ++ c) off n = Ok b.
Proof.
  intros -> ->. unfold bytes_at.
  rewrite !app_length. replace (_ <=? _)%nat with true by (symmetry; apply Nat.leb_le; lia).
  rewrite skipn_app_exact by reflexivity. rewrite firstn_app_exact by reflexivity. reflexivity.
Qed.

Lemma bytes_at_ok b off n : (off + n <= List.length b)%nat ->
  bytes_at b off n = Ok (firstn n (skipn off b)).
Proof. intros H. unfold bytes_at. replace (_ <=? _)%nat with true by lia. reflexivity. Qed.

Lemma set_nth_length {A} (l : list A) i x : List.length (set_nth l i x) = List.length l.
Proof. revert i; induction l as [|a l IH]; intros [|i]; cbn; congruence. Qed.
Lemma set_nth_same {A} (l : list A) i x d : (i < List.length l)%nat -> nth i (set_nth l i x) d = x.
Proof. revert i; induction l as [|a l IH]; intros [|i] H; cbn in *; try lia; [reflexivity|]. apply IH; lia. Qed.
Lemma set_nth_other {A} (l : list A) i j x d : i <> j -> nth j (set_nth l i x) d = nth j l d.
Proof. revert i j; induction l as [|a l IH]; intros [|i] [|j] H; cbn; try reflexivity; try lia. apply IH; lia. Qed.
Lemma nth_error_set_nth {A} (l : list A) i x j :
  nth_error (set_nth l i x) j =
  if (i =? j)%nat then (if (i <? List.length l)%nat then Some x else None) else nth_error l j.
Proof.
  revert i j; induction l as [|a l IH]; intros [|i] [|j]; cbn; try reflexivity.
  - destruct (i =? j)%nat; reflexivity.
  - rewrite IH. reflexivity.
Qed.

Lemma skipn_skipn {A} n m (l : list A) : skipn n (skipn m l) = skipn (n + m) l.
Proof.
  revert l; induction m as [|m IH]; intros l; [now rewrite Nat.add_0_r|].
  rewrite Nat.add_succ_r. destruct l as [|a l]; cbn [skipn]; [apply skipn_nil|apply IH].
Qed.

(** [injection] also simplifies the terms; this does not. *)
Lemma Ok_inj {A} (a b : A) : Ok a = Ok b -> a = b.
Proof. congruence. Qed.
Lemma bind_Ok {A B} (m : outcome A) (f : A -> outcome B) b :
  bind m f = Ok b -> exists a, m = Ok a /\ f a = Ok b.
Proof. destruct m as [a| | | |]; cbn [bind]; try discriminate. intros H. exists a. auto. Qed.
Lemma pair_inj {A B} (a a' : A) (b b' : B) : (a, b) = (a', b') -> a = a' /\ b = b'.
Proof. intros H. split; congruence. Qed.
Lemma Some_inj {A} (a b : A) : Some a = Some b -> a = b.
Proof. congruence. Qed.
Lemma nth_repeat_lt {A} (x d : A) n i : (i < n)%nat -> nth i (repeat x n) d = x.
Proof. revert i. induction n as [|n IH]; intros [|i] H; cbn; try lia; auto. apply IH. lia. Qed.
Lemma nth_skipn {A} n (l : list A) i d : nth i (skipn n l) d = nth (n + i) l d.
Proof. revert l. induction n as [|n IH]; intros [|a l]; cbn; auto. now destruct i. Qed.
