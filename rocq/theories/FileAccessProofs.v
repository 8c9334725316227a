(** Proofs about product names and file search. *)
From Verif Require Import BaseFacts HeaderModel FileAccessModel FileAccessSpec.

(** ** Splitting at the first separator *)
Fixpoint split1 (c : Z) (l : list Z) : option (list Z * list Z) :=
  match l with
  | [] => None
  | a :: l' => if a =? c then Some ([], l')
               else match split1 c l' with
                    | Some (f, r) => Some (a :: f, r)
                    | None => None
                    end
  end.
Lemma split1_some c f r : ~ In c f -> split1 c (f ++ c :: r) = Some (f, r).
Proof.
  induction f as [|a f IH]; cbn; intros H; [now rewrite Z.eqb_refl|].
  destruct (Z.eqb_spec a c); [subst; tauto|]. rewrite IH by tauto. reflexivity.
Qed.
Lemma split1_inv c l f r : split1 c l = Some (f, r) -> l = f ++ c :: r /\ ~ In c f.
Proof.
  revert f r. induction l as [|a l IH]; cbn; intros f r H; [discriminate|].
  destruct (Z.eqb_spec a c).
  - apply Some_inj, pair_inj in H. destruct H as [<- <-]. subst. cbn. tauto.
  - destruct (split1 c l) as [[f' r']|] eqn:E; [|discriminate].
    apply Some_inj, pair_inj in H. destruct H as [<- <-].
    destruct (IH _ _ eq_refl) as [-> Hf]. split; [reflexivity|]. cbn. intros [?|?]; tauto.
Qed.
Lemma split1_none c l : split1 c l = None <-> ~ In c l.
Proof.
  split.
  - intros H Hin. apply in_split in Hin as (a & b & ->).
    assert (exists a' b', a ++ c :: b = a' ++ c :: b' /\ ~ In c a') as (a' & b' & E & Hn).
    { clear. induction a as [|x a IH]; [exists [], b; cbn; tauto|].
      destruct (Z.eq_dec x c) as [->|].
      - exists [], (a ++ c :: b). cbn. tauto.
      - destruct IH as (a' & b' & E & Hn). exists (x :: a'), b'. cbn. rewrite E. split; [reflexivity|]. intros [?|?]; tauto. }
    rewrite E, split1_some in H by exact Hn. discriminate.
  - intros H. destruct (split1 c l) as [[f r]|] eqn:E; [|reflexivity].
    apply split1_inv in E as [-> _]. exfalso. apply H, in_or_app. cbn. tauto.
Qed.
Lemma find_from_split c s i : find_from c s i =
  match split1 c s with Some (f, _) => Some (i + List.length f)%nat | None => None end.
Proof.
  revert i. induction s as [|a s IH]; cbn; intros i; [reflexivity|].
  destruct (a =? c); [cbn; f_equal; lia|]. rewrite IH.
  destruct (split1 c s) as [[f r]|]; [|reflexivity]. cbn. f_equal. lia.
Qed.
Lemma find_split c pre rest : find c (pre ++ rest) (List.length pre) =
  match split1 c rest with Some (f, _) => Some (List.length pre + List.length f)%nat | None => None end.
Proof. unfold find. rewrite skipn_app_exact by reflexivity. apply find_from_split. Qed.
(** One step of the parsers. *)
Lemma next_split {A} c pre rest (k : nat -> outcome A) :
  next c (pre ++ rest) (List.length pre) k =
  match split1 c rest with
  | Some (f, _) => k (List.length pre + List.length f)%nat
  | None => Throw
  end.
Proof. unfold next. rewrite find_split. destruct (split1 c rest) as [[f r]|]; reflexivity. Qed.
Lemma substr_mid pre f rest : substr (pre ++ f ++ rest) (List.length pre) (List.length f) = Ok f.
Proof.
  unfold substr. rewrite app_length.
  replace (List.length pre <=? _)%nat with true by lia.
  rewrite skipn_app_exact by reflexivity. now rewrite firstn_app_exact by reflexivity.
Qed.
Lemma substr_all pre rest n : (List.length rest <= n)%nat -> substr (pre ++ rest) (List.length pre) n = Ok rest.
Proof.
  intros H. unfold substr. rewrite app_length.
  replace (List.length pre <=? _)%nat with true by lia.
  rewrite skipn_app_exact by reflexivity. now rewrite firstn_all2.
Qed.

(** ** Directory and base name *)
Lemma rfind_acc_spec c s i r :
  rfind_acc c s i r =
  match split1 c (rev s) with
  | Some (f, _) => Some (i + (List.length s - 1 - List.length f))%nat
  | None => r
  end.
Proof.
  revert i r. induction s as [|a s IH]; cbn; intros i r; [reflexivity|].
  rewrite IH. destruct (split1 c (rev s)) as [[f r']|] eqn:E.
  - apply split1_inv in E as [E Hn]. rewrite E, <- app_assoc. cbn. rewrite split1_some by exact Hn.
    f_equal. assert (List.length (rev s) = List.length (f ++ c :: r')) by congruence.
    rewrite rev_length, app_length in H. cbn in H. lia.
  - assert (Hn : ~ In c (rev s)) by now apply split1_none.
    destruct (Z.eqb_spec a c).
    + subst. rewrite split1_some by exact Hn. f_equal. rewrite rev_length. lia.
    + replace (split1 c (rev s ++ [a])) with (@None (list Z * list Z)); [reflexivity|].
      symmetry. apply split1_none. rewrite in_app_iff. cbn. intros [?|[?|[]]]; tauto.
Qed.
Lemma rfind_some c d n : ~ In c n -> rfind c (d ++ c :: n) = Some (List.length d).
Proof.
  intros H. unfold rfind. rewrite rfind_acc_spec, rev_app_distr. cbn. rewrite <- app_assoc. cbn.
  rewrite split1_some by (rewrite <- in_rev; exact H). f_equal. rewrite app_length, rev_length. cbn. lia.
Qed.
Lemma rfind_none c n : ~ In c n -> rfind c n = None.
Proof.
  intros H. unfold rfind. rewrite rfind_acc_spec.
  replace (split1 c (rev n)) with (@None (list Z * list Z)); [reflexivity|].
  symmetry. apply split1_none. now rewrite <- in_rev.
Qed.
Lemma located_exists s : exists d n, located d n s /\ ~ In 47 n.
Proof.
  destruct (split1 47 (rev s)) as [[f r]|] eqn:E.
  - apply split1_inv in E as [E Hn]. assert (Es : s = rev r ++ 47 :: rev f).
    { rewrite <- (rev_involutive s), E, rev_app_distr. cbn. now rewrite <- app_assoc. }
    rewrite Es. destruct r as [|x r].
    + exists [47], (rev f). split; [constructor|now rewrite <- in_rev].
    + exists (rev (x :: r)), (rev f). split; [|now rewrite <- in_rev].
      constructor. cbn. intros X. apply app_eq_nil in X as [_ X]. discriminate.
  - apply split1_none in E. rewrite <- in_rev in E. exists [46], s. split; [constructor|exact E].
Qed.
Lemma dir_part d n s : located d n s -> ~ In 47 n ->
  exists pre, s = pre ++ n /\
  match rfind 47 s with
  | None => Ok ([46], 0%nat)
  | Some e => let! d := substr s 0 e in Ok ((match d with [] => [47] | _ => d end), (e + 1)%nat)
  end = Ok (d, List.length pre) /\ (pre = [] \/ exists x, pre = x ++ [47]).
Proof.
  intros H Hn. destruct H as [n|n|d n Hd].
  - exists []. rewrite rfind_none by exact Hn. auto.
  - exists [47]. change (47 :: n) with ([] ++ 47 :: n). rewrite rfind_some by exact Hn. split; [reflexivity|].
    split; [reflexivity|]. right. exists []. reflexivity.
  - exists (d ++ [47]). rewrite rfind_some by exact Hn. split; [now rewrite <- app_assoc|]. split; [|eauto].
    pose proof (substr_mid [] d (47 :: n)) as S. cbn [app List.length] in S. rewrite S. cbn [bind].
    rewrite app_length. cbn. destruct d; [congruence|reflexivity].
Qed.

(** ** The suffix test *)
Lemma ends_C_spec s : ends_C s = true <-> exists t, s = t ++ [45; 67; 95].
Proof.
  unfold ends_C. destruct (list_eq_dec _ _ _) as [E|E]; split; try discriminate; try reflexivity.
  - intros _. exists (firstn (List.length s - 3) s). rewrite <- E. now rewrite firstn_skipn.
  - intros (t & ->). exfalso. apply E. rewrite app_length. cbn.
    replace (List.length t + 3 - 3)%nat with (List.length t) by lia. now rewrite skipn_app_exact.
Qed.
Lemma ends_C_base d n s : located d n s -> ~ In 47 n -> ends_C s = ends_C n.
Proof.
  intros H Hn. destruct (dir_part d n s H Hn) as (pre & -> & _ & Hp).
  apply eq_true_iff_eq. rewrite !ends_C_spec. split; intros (t & E).
  - destruct Hp as [->|(x & ->)]; [exists t; exact E|].
    assert (L : (3 <= List.length n)%nat).
    { destruct (le_lt_dec 3 (List.length n)) as [|L]; [assumption|]. exfalso.
      rewrite <- app_assoc in E. cbn in E.
      apply (f_equal (@rev Z)) in E. rewrite !rev_app_distr in E. cbn in E.
      rewrite <- (rev_involutive n), rev_length in L. rewrite <- app_assoc in E. cbn in E.
      destruct (rev n) as [|a [|b [|c m]]]; cbn in E, L; try congruence; try lia. }
    exists (firstn (List.length n - 3) n).
    rewrite <- (firstn_skipn (List.length n - 3) n) in E at 1. rewrite app_assoc in E.
    apply (f_equal (@rev Z)) in E. rewrite !rev_app_distr in E. cbn in E.
    assert (L3 : List.length (skipn (List.length n - 3) n) = 3%nat) by (rewrite skipn_length; lia).
    destruct (skipn (List.length n - 3) n) as [|a [|b [|c [|e m]]]] eqn:Es; try discriminate L3.
    cbn in E. rewrite <- (firstn_skipn (List.length n - 3) n) at 1. rewrite Es. congruence.
  - exists (pre ++ t). rewrite E. now rewrite app_assoc.
Qed.
Lemma ends_C_short s : (List.length s < 3)%nat -> ends_C s = false.
Proof.
  intros H. destruct (ends_C s) eqn:E; [|reflexivity]. apply ends_C_spec in E as (t & ->).
  rewrite app_length in H. cbn in H. lia.
Qed.

(** ** The parser on the base name *)
Definition opt_split {A} (c : Z) (l : list Z) (k : list Z -> list Z -> outcome A) : outcome A :=
  match split1 c l with None => Throw | Some (f, r) => k f r end.
Definition parse_base (d n : list Z) : outcome fileaccess :=
  if ends_C n then
    opt_split 45 n (fun res r =>
    opt_split 45 r (fun _ r =>
    opt_split 45 r (fun _ r =>
    opt_split 45 r (fun f4 r =>
    let! p1 := deunderscore f4 in
    opt_split 45 r (fun f5 r =>
    let! p2 := deunderscore f5 in
    opt_split 45 r (fun _ r =>
    opt_split 45 r (fun f7 r =>
    let! t := deunderscore f7 in
    Ok (mk_fa d res p1 p2 t))))))))
  else
    opt_split 58 n (fun res r =>
    opt_split 58 r (fun p1 r =>
    opt_split 58 r (fun p2 r =>
    Ok (mk_fa d res p1 p2 r)))).
(** One [next] step followed by reading the field it delimits. *)
Lemma next_step {A} c pre rest (k : nat -> outcome A) (k' : list Z -> list Z -> outcome A) :
  (forall f r, rest = f ++ c :: r -> k (List.length pre + List.length f)%nat = k' f r) ->
  next c (pre ++ rest) (List.length pre) k = opt_split c rest k'.
Proof.
  intros H. rewrite next_split. unfold opt_split.
  destruct (split1 c rest) as [[f r]|] eqn:E; [|reflexivity].
  apply split1_inv in E as [E _]. now apply H.
Qed.
Lemma next_step_at {A} c s pre rest beg (k : nat -> outcome A) (k' : list Z -> list Z -> outcome A) :
  s = pre ++ rest -> beg = List.length pre ->
  (forall f r, rest = f ++ c :: r -> k (List.length pre + List.length f)%nat = k' f r) ->
  next c s beg k = opt_split c rest k'.
Proof. intros -> -> H. now apply next_step. Qed.
Lemma substr_at s pre f rest p n : s = pre ++ f ++ rest -> p = List.length pre -> n = List.length f -> substr s p n = Ok f.
Proof. intros -> -> ->. apply substr_mid. Qed.
Lemma bind_eq {A B} (m : outcome A) (f g : A -> outcome B) : (forall a, f a = g a) -> bind m f = bind m g.
Proof. intros H. destruct m; cbn; auto. Qed.

Lemma parse_located d n s : located d n s -> ~ In 47 n -> parse s = parse_base d n.
Proof.
  intros H Hn. pose proof (ends_C_base d n s H Hn) as He.
  destruct (dir_part d n s H Hn) as (pre & Es & Ed & _). unfold parse. rewrite Ed. cbn [bind].
  destruct (Nat.ltb_spec (List.length s) 3) as [L|L].
  - rewrite (ends_C_short s L) in He. unfold parse_base. rewrite <- He. unfold opt_split.
    subst s. rewrite app_length in L.
    destruct (split1 58 n) as [[f r]|] eqn:E1; [|reflexivity]. apply split1_inv in E1 as [-> _].
    destruct (split1 58 r) as [[f1 r1]|] eqn:E2; [|reflexivity]. apply split1_inv in E2 as [-> _].
    destruct (split1 58 r1) as [[f2 r2]|] eqn:E3; [|reflexivity]. apply split1_inv in E3 as [-> _].
    rewrite !app_length in L. cbn in L. rewrite !app_length in L. cbn in L. rewrite app_length in L. cbn in L. lia.
  - rewrite He. unfold parse_base. destruct (ends_C n).
    + apply (next_step_at 45 s pre n); [exact Es|reflexivity|]. intros f1 r1 E1.
      rewrite (substr_at s pre f1 (45 :: r1)) by (try lia; congruence). cbn [bind].
      assert (P1 : s = (pre ++ f1 ++ [45]) ++ r1) by (rewrite Es, E1, <- !app_assoc; reflexivity).
      apply (next_step_at 45 s _ _ _ _ _ P1); [rewrite !app_length; cbn; lia|]. intros f2 r2 E2.
      assert (P2 : s = ((pre ++ f1 ++ [45]) ++ f2 ++ [45]) ++ r2) by (rewrite P1, E2, <- !app_assoc; reflexivity).
      apply (next_step_at 45 s _ _ _ _ _ P2); [rewrite !app_length; cbn; lia|]. intros f3 r3 E3.
      set (p2 := (pre ++ f1 ++ [45]) ++ f2 ++ [45]) in *.
      assert (P3 : s = (p2 ++ f3 ++ [45]) ++ r3) by (rewrite P2, E3, <- !app_assoc; reflexivity).
      set (p3 := p2 ++ f3 ++ [45]) in *.
      assert (L3 : List.length p3 = (List.length p2 + List.length f3 + 1)%nat) by (unfold p3; rewrite !app_length; cbn; lia).
      apply (next_step_at 45 s p3 _ _ _ _ P3); [lia|]. intros f4 r4 E4.
      rewrite (substr_at s p3 f4 (45 :: r4)) by (try lia; congruence). cbn [bind]. apply bind_eq. intros a4.
      assert (P4 : s = (p3 ++ f4 ++ [45]) ++ r4) by (rewrite P3, E4, <- !app_assoc; reflexivity).
      set (p4 := p3 ++ f4 ++ [45]) in *.
      assert (L4 : List.length p4 = (List.length p3 + List.length f4 + 1)%nat) by (unfold p4; rewrite !app_length; cbn; lia).
      apply (next_step_at 45 s p4 _ _ _ _ P4); [lia|]. intros f5 r5 E5.
      rewrite (substr_at s p4 f5 (45 :: r5)) by (try lia; congruence). cbn [bind]. apply bind_eq. intros a5.
      assert (P5 : s = (p4 ++ f5 ++ [45]) ++ r5) by (rewrite P4, E5, <- !app_assoc; reflexivity).
      set (p5 := p4 ++ f5 ++ [45]) in *.
      assert (L5 : List.length p5 = (List.length p4 + List.length f5 + 1)%nat) by (unfold p5; rewrite !app_length; cbn; lia).
      apply (next_step_at 45 s p5 _ _ _ _ P5); [lia|]. intros f6 r6 E6.
      assert (P6 : s = (p5 ++ f6 ++ [45]) ++ r6) by (rewrite P5, E6, <- !app_assoc; reflexivity).
      set (p6 := p5 ++ f6 ++ [45]) in *.
      assert (L6 : List.length p6 = (List.length p5 + List.length f6 + 1)%nat) by (unfold p6; rewrite !app_length; cbn; lia).
      apply (next_step_at 45 s p6 _ _ _ _ P6); [lia|]. intros f7 r7 E7.
      rewrite (substr_at s p6 f7 (45 :: r7)) by (try lia; congruence). cbn [bind]. reflexivity.
    + apply (next_step_at 58 s pre n); [exact Es|reflexivity|]. intros f1 r1 E1.
      rewrite (substr_at s pre f1 (58 :: r1)) by (try lia; congruence). cbn [bind].
      assert (P1 : s = (pre ++ f1 ++ [58]) ++ r1) by (rewrite Es, E1, <- !app_assoc; reflexivity).
      set (p1 := pre ++ f1 ++ [58]) in *.
      assert (L1 : List.length p1 = (List.length pre + List.length f1 + 1)%nat) by (unfold p1; rewrite !app_length; cbn; lia).
      apply (next_step_at 58 s p1 _ _ _ _ P1); [lia|]. intros f2 r2 E2.
      rewrite (substr_at s p1 f2 (58 :: r2)) by (try lia; congruence). cbn [bind].
      assert (P2 : s = (p1 ++ f2 ++ [58]) ++ r2) by (rewrite P1, E2, <- !app_assoc; reflexivity).
      set (p2 := p1 ++ f2 ++ [58]) in *.
      assert (L2 : List.length p2 = (List.length p1 + List.length f2 + 1)%nat) by (unfold p2; rewrite !app_length; cbn; lia).
      apply (next_step_at 58 s p2 _ _ _ _ P2); [lia|]. intros f3 r3 E3.
      rewrite (substr_at s p2 f3 (58 :: r3)) by (try lia; congruence). cbn [bind].
      assert (P3 : s = (p2 ++ f3 ++ [58]) ++ r3) by (rewrite P2, E3, <- !app_assoc; reflexivity).
      rewrite P3 at 1. set (p3 := p2 ++ f3 ++ [58]) in *.
      assert (L3 : List.length p3 = (List.length p2 + List.length f3 + 1)%nat) by (unfold p3; rewrite !app_length; cbn; lia).
      replace (List.length p2 + List.length f3 + 1)%nat with (List.length p3) by lia.
      rewrite substr_all by (rewrite P3, app_length; lia). reflexivity.
Qed.

(** ** Underscore padding *)
Lemma underscoreit_length l w : List.length (underscoreit l w) = w.
Proof. unfold underscoreit. rewrite app_length, firstn_length, repeat_length. lia. Qed.
Lemma underscoreit_padded l w : (List.length l <= w)%nat -> padded l w (underscoreit l w).
Proof.
  intros H. exists (w - List.length l)%nat. split; [|apply underscoreit_length].
  unfold underscoreit. now rewrite firstn_all2.
Qed.
Lemma padded_eq l w p : padded l w p -> p = underscoreit l w /\ (List.length l <= w)%nat.
Proof.
  intros (k & -> & E). rewrite app_length, repeat_length in E. split; [|lia].
  unfold underscoreit. rewrite firstn_all2 by lia. do 2 f_equal. lia.
Qed.
Lemma deunder_loop_pad l b k : b <> 95 -> forall j, (j <= k)%nat ->
  deunder_loop ((l ++ [b]) ++ repeat 95 k) (List.length l + j) = List.length l.
Proof.
  intros Hb. induction j as [|j IH]; intros Hj.
  - replace (List.length l + 0)%nat with (List.length l) by lia.
    destruct (List.length l) as [|m] eqn:E; [reflexivity|]. cbn [deunder_loop]. rewrite <- E.
    rewrite app_nth1 by (rewrite app_length; cbn; lia). rewrite app_nth2, Nat.sub_diag by lia. cbn [nth].
    destruct (Z.eqb_spec b 95); [congruence|reflexivity].
  - replace (List.length l + S j)%nat with (S (List.length l + j)) by lia. cbn [deunder_loop].
    rewrite app_nth2 by (rewrite app_length; cbn; lia).
    rewrite nth_repeat_lt by (rewrite app_length; cbn [List.length]; lia). cbn. apply IH. lia.
Qed.
Lemma deunderscore_padded l k : trimmed l -> deunderscore (l ++ repeat 95 k) = Ok l.
Proof.
  intros (a & b & -> & Hb). unfold deunderscore.
  destruct ((a ++ [b]) ++ repeat 95 k) as [|x y] eqn:E; [destruct a; discriminate|]. rewrite <- E.
  assert (El : (List.length ((a ++ [b])%list ++ repeat 95%Z k) - 1 = List.length a + k)%nat)
    by (rewrite !app_length, repeat_length; cbn [List.length]; lia).
  rewrite El, deunder_loop_pad by auto.
  pose proof (substr_mid [] (a ++ [b]) (repeat 95 k)) as S. cbn [List.length app] in S.
  rewrite app_length in S. cbn in S. exact S.
Qed.
Lemma deunderscore_trimmed l : trimmed l -> deunderscore l = Ok l.
Proof. intros H. pose proof (deunderscore_padded l 0 H) as E. cbn [repeat] in E. now rewrite app_nil_r in E. Qed.
Lemma deunderscore_of_padded l w p : trimmed l -> padded l w p -> deunderscore p = Ok l.
Proof. intros H (k & -> & _). now apply deunderscore_padded. Qed.
Lemma deunder_loop_le l p : (deunder_loop l p <= p)%nat.
Proof. induction p; cbn; [lia|]. destruct (_ =? 95); lia. Qed.
(** In general: what is removed is a run of underscores, and at least one
    character is kept. *)
Lemma deunder_loop_tail l : forall p i, (deunder_loop l p < i <= p)%nat -> nth i l 0 = 95.
Proof.
  induction p as [|p IH]; cbn; intros i H; [lia|].
  destruct (Z.eqb_spec (nth (S p) l 0) 95) as [E|E]; [|lia].
  destruct (Nat.eq_dec i (S p)); [subst; exact E|]. apply IH. lia.
Qed.
Lemma deunder_loop_stop l : forall p, deunder_loop l p = O \/ nth (deunder_loop l p) l 0 <> 95.
Proof.
  induction p as [|p IH]; cbn; [auto|].
  destruct (Z.eqb_spec (nth (S p) l 0) 95) as [E|E]; [exact IH|right; exact E].
Qed.
Lemma deunderscore_general s : s <> [] ->
  exists l k, deunderscore s = Ok l /\ s = l ++ repeat 95 k /\ (trimmed l \/ l = [95]).
Proof.
  intros Hs. set (p := deunder_loop s (List.length s - 1)).
  assert (Hp : (p <= List.length s - 1)%nat) by apply deunder_loop_le.
  assert (L : (0 < List.length s)%nat) by (destruct s; [congruence|cbn; lia]).
  exists (firstn (p + 1) s), (List.length s - (p + 1))%nat.
  assert (Esplit : skipn (p + 1) s = repeat 95 (List.length s - (p + 1))).
  { apply nth_ext with (d := 0) (d' := 0); [rewrite skipn_length, repeat_length; reflexivity|].
    intros i Hi. rewrite skipn_length in Hi. rewrite nth_skipn, nth_repeat_lt by exact Hi.
    apply (deunder_loop_tail s (List.length s - 1)). unfold p in *. lia. }
  split; [|split].
  - unfold deunderscore. destruct s as [|x y] eqn:E; [congruence|]. reflexivity.
  - rewrite <- Esplit. now rewrite firstn_skipn.
  - assert (Ef : firstn (p + 1) s = firstn p s ++ [nth p s 0]).
    { rewrite <- (firstn_skipn p s) at 1. rewrite firstn_app, firstn_firstn, firstn_length.
      replace (Nat.min (p + 1) p) with p by lia. f_equal.
      replace (p + 1 - Nat.min p (List.length s))%nat with 1%nat by lia.
      destruct (skipn p s) as [|c r] eqn:E.
      - apply (f_equal (@List.length Z)) in E. rewrite skipn_length in E. cbn in E. lia.
      - cbn. f_equal. rewrite <- (firstn_skipn p s), E, app_nth2 by (rewrite firstn_length; lia).
        rewrite firstn_length. replace (p - _)%nat with 0%nat by lia. reflexivity. }
    destruct (Z.eq_dec (nth p s 0) 95) as [E95|E95].
    + right. destruct (deunder_loop_stop s (List.length s - 1)) as [E0|E0]; fold p in E0; [|congruence].
      rewrite Ef, E95, E0. reflexivity.
    + left. exists (firstn p s), (nth p s 0). auto.
Qed.

(** ** Parsing back *)
Lemma opt_split_app {A} c f r (k : list Z -> list Z -> outcome A) : ~ In c f -> opt_split c (f ++ c :: r) k = k f r.
Proof. intros H. unfold opt_split. now rewrite split1_some. Qed.
Lemma not_ends_C_short_name n : (forall t, n <> t ++ [45; 67; 95]) -> ends_C n = false.
Proof. intros H. destruct (ends_C n) eqn:E; [|reflexivity]. apply ends_C_spec in E as (t & E). destruct (H t E). Qed.
Lemma short_parse d s p : located d (short_name p) s ->
  without 47 (short_name p) -> without 58 (pr_res p) -> without 58 (pr_pid1 p) -> without 58 (pr_pid2 p) ->
  (forall t, s <> t ++ [45; 67; 95]) ->
  parse s = Ok (mk_fa d (pr_res p) (pr_pid1 p) (pr_pid2 p) (pr_time p)).
Proof.
  intros L Hn H1 H2 H3 He. rewrite (parse_located _ _ _ L Hn). unfold parse_base.
  rewrite <- (ends_C_base _ _ _ L Hn), (not_ends_C_short_name s He).
  unfold short_name. cbn [join]. rewrite !opt_split_app by assumption. reflexivity.
Qed.
(** Conversely, what is parsed from a name in the short form is that name. *)
Lemma short_parse_inv s fa : (forall t, s <> t ++ [45; 67; 95]) -> parse s = Ok fa ->
  let p := mk_prod (fa_res fa) (fa_pid1 fa) (fa_pid2 fa) (fa_timing fa) in
  located (fa_dir fa) (short_name p) s /\ without 47 (short_name p) /\
  without 58 (fa_res fa) /\ without 58 (fa_pid1 fa) /\ without 58 (fa_pid2 fa).
Proof.
  intros He H. destruct (located_exists s) as (d & n & L & Hn).
  rewrite (parse_located _ _ _ L Hn) in H. unfold parse_base in H.
  rewrite <- (ends_C_base _ _ _ L Hn), (not_ends_C_short_name s He) in H. unfold opt_split in H.
  destruct (split1 58 n) as [[f1 r1]|] eqn:E1; [|discriminate].
  destruct (split1 58 r1) as [[f2 r2]|] eqn:E2; [|discriminate].
  destruct (split1 58 r2) as [[f3 r3]|] eqn:E3; [|discriminate].
  apply Ok_inj in H. subst fa.
  apply split1_inv in E1 as [-> N1]. apply split1_inv in E2 as [-> N2]. apply split1_inv in E3 as [-> N3].
  cbn. unfold short_name. cbn [join pr_res pr_pid1 pr_pid2 pr_time]. auto.
Qed.

Lemma segment_parse d s p n : good_product p -> segment_name p n -> located d n s ->
  parse s = Ok (mk_fa d (pr_res p) (pr_pid1 p) (pr_pid2 p) (pr_time p)).
Proof.
  intros (R1 & R2 & (T1 & A1 & B1) & (T2 & A2 & B2) & (T3 & A3 & B3) & W1 & W2) Hs L.
  destruct Hs as [nnn sat id1 id2 num L1 N1 N1' L2 N2 N2' P1 P2 L3 N3 N3'].
  assert (Hrep : forall c k, c <> 95 -> ~ In c (repeat 95 k)).
  { intros c k Hc Hin. apply repeat_spec in Hin. congruence. }
  assert (I1 : without 45 id1 /\ without 47 id1).
  { destruct P1 as (k & -> & _). unfold without in *. rewrite !in_app_iff.
    split; intros [X|X]; try tauto; (eapply Hrep; [|exact X]); lia. }
  assert (I2 : without 45 id2 /\ without 47 id2).
  { destruct P2 as (k & -> & _). unfold without in *. rewrite !in_app_iff.
    split; intros [X|X]; try tauto; (eapply Hrep; [|exact X]); lia. }
  assert (I3 : ~ In 45 (48 :: num ++ repeat 95 3) /\ ~ In 47 (48 :: num ++ repeat 95 3)).
  { unfold without in *. cbn [In]. rewrite !in_app_iff. split; intros [X|[X|X]]; try lia; try tauto; (eapply Hrep; [|exact X]); lia. }
  unfold without in *.
  assert (Hn : ~ In 47 (join 45 [pr_res p; nnn; sat; id1; id2; 48 :: num ++ repeat 95 3; pr_time p; [67; 95]])).
  { cbn [join]. repeat (rewrite in_app_iff; cbn [In]).
    destruct I3 as [_ I3]. cbn [In] in I3. rewrite in_app_iff in I3.
    intuition (try lia; try congruence). }
  rewrite (parse_located _ _ _ L Hn). unfold parse_base.
  replace (ends_C _) with true.
  2:{ symmetry. apply ends_C_spec. cbn [join].
      exists (pr_res p ++ 45 :: nnn ++ 45 :: sat ++ 45 :: id1 ++ 45 :: id2 ++ 45 :: (48 :: num ++ repeat 95 3) ++ 45 :: pr_time p).
      repeat (rewrite <- app_assoc; cbn [app]). reflexivity. }
  cbn [join]. rewrite !(opt_split_app 45) by tauto.
  rewrite (deunderscore_of_padded _ 12 _ T1 P1). cbn [bind]. rewrite !(opt_split_app 45) by tauto.
  rewrite (deunderscore_of_padded _ 9 _ T2 P2). cbn [bind]. rewrite !(opt_split_app 45) by tauto.
  rewrite (deunderscore_trimmed _ T3). reflexivity.
Qed.

(** ** isValid *)
Lemma three_colons_spec n pre rest : three_colons n (pre ++ rest) (List.length pre) = true <->
  (n <= count_occ Z.eq_dec rest 58%Z)%nat.
Proof.
  revert pre rest. induction n as [|n IH]; cbn [three_colons]; intros pre rest; [split; auto; lia|].
  rewrite find_split. destruct (split1 58 rest) as [[f r]|] eqn:E.
  - apply split1_inv in E as [-> Hf]. 
    replace (pre ++ f ++ 58 :: r) with ((pre ++ f ++ [58]) ++ r) by (rewrite <- !app_assoc; reflexivity).
    replace (List.length pre + List.length f + 1)%nat with (List.length (pre ++ f ++ [58])) by (rewrite !app_length; cbn; lia).
    rewrite IH. rewrite count_occ_app. cbn. apply (count_occ_not_In Z.eq_dec) in Hf. rewrite Hf. lia.
  - apply split1_none in E. apply (count_occ_not_In Z.eq_dec) in E. rewrite E. split; [discriminate|lia].
Qed.
Lemma count_length (l : list Z) c : (count_occ Z.eq_dec l c <= List.length l)%nat.
Proof. induction l; cbn; [lia|]. destruct (Z.eq_dec _ _); lia. Qed.
Lemma isValid_spec s : isValid s = true <->
  (exists t, s = t ++ [45; 67; 95]) \/ (3 <= count_occ Z.eq_dec s 58%Z)%nat.
Proof.
  unfold isValid. pose proof (three_colons_spec 3 [] s) as C. cbn [app List.length] in C.
  pose proof (count_length s 58). pose proof (ends_C_spec s) as E.
  destruct (Nat.ltb_spec (List.length s) 3) as [L|L].
  - split; [discriminate|]. intros [X|X]; [|lia]. apply E in X. rewrite (ends_C_short s L) in X. discriminate.
  - destruct (ends_C s) eqn:Ec.
    + split; [|auto]. intros _. left. now apply E.
    + rewrite C. split; [auto|]. intros [X|X]; [|exact X]. apply E in X. discriminate.
Qed.
Lemma count_located d n s : located d n s -> (count_occ Z.eq_dec n 58%Z <= count_occ Z.eq_dec s 58%Z)%nat.
Proof.
  intros H. destruct H; [lia| |].
  - cbn. lia.
  - rewrite count_occ_app. cbn. lia.
Qed.
Lemma parse_is_valid s fa : parse s = Ok fa -> isValid s = true.
Proof.
  intros H. apply isValid_spec. destruct (located_exists s) as (d & n & L & Hn).
  rewrite (parse_located _ _ _ L Hn) in H. unfold parse_base in H.
  destruct (ends_C n) eqn:E.
  - left. apply ends_C_spec. now rewrite (ends_C_base _ _ _ L Hn).
  - right. pose proof (count_located _ _ _ L) as Hc. unfold opt_split in H.
    destruct (split1 58 n) as [[f1 r1]|] eqn:E1; [|discriminate].
    destruct (split1 58 r1) as [[f2 r2]|] eqn:E2; [|discriminate].
    destruct (split1 58 r2) as [[f3 r3]|] eqn:E3; [|discriminate].
    apply split1_inv in E1 as [-> N1]. apply split1_inv in E2 as [-> N2]. apply split1_inv in E3 as [-> N3].
    rewrite !count_occ_app in Hc. cbn in Hc. rewrite count_occ_app in Hc. cbn in Hc.
    rewrite count_occ_app in Hc. cbn in Hc. lia.
Qed.
(** Names in the short form: accepted by the parser exactly when three colons
    follow the last slash; the parser never misbehaves on them. *)
Lemma short_accept d n s : located d n s -> ~ In 47 n -> ends_C s = false ->
  ((3 <= count_occ Z.eq_dec n 58%Z)%nat <-> exists fa, parse s = Ok fa) /\
  ((count_occ Z.eq_dec n 58%Z < 3)%nat -> parse s = Throw).
Proof.
  intros L Hn He. rewrite (parse_located _ _ _ L Hn). unfold parse_base, opt_split.
  rewrite <- (ends_C_base _ _ _ L Hn), He.
  assert (Hno : forall l, split1 58 l = None -> count_occ Z.eq_dec l 58%Z = 0%nat).
  { intros l E. apply split1_none in E. now apply (count_occ_not_In Z.eq_dec) in E. }
  assert (Hyes : forall l f r, split1 58 l = Some (f, r) -> count_occ Z.eq_dec l 58%Z = S (count_occ Z.eq_dec r 58%Z)).
  { intros l f r E. apply split1_inv in E as [-> Hf]. rewrite count_occ_app. cbn.
    apply (count_occ_not_In Z.eq_dec) in Hf. rewrite Hf. lia. }
  destruct (split1 58 n) as [[f1 r1]|] eqn:E1; [apply Hyes in E1|apply Hno in E1; split; [split|]; [lia|intros (? & ?); discriminate|reflexivity]].
  destruct (split1 58 r1) as [[f2 r2]|] eqn:E2; [apply Hyes in E2|apply Hno in E2; split; [split|]; [lia|intros (? & ?); discriminate|reflexivity]].
  destruct (split1 58 r2) as [[f3 r3]|] eqn:E3; [apply Hyes in E3|apply Hno in E3; split; [split|]; [lia|intros (? & ?); discriminate|reflexivity]].
  split; [split; [eauto|lia]|lia].
Qed.
Lemma complete_spec fa : ensureComplete fa = Ok tt <->
  fa_dir fa <> [] /\ fa_res fa <> [] /\ fa_pid1 fa <> [] /\ fa_pid2 fa <> [] /\ fa_timing fa <> [].
Proof.
  destruct fa as [[|] [|] [|] [|] [|]]; cbn; split; try discriminate; try tauto;
  intros _; repeat split; discriminate.
Qed.
(** The segment form: undefined behaviour is possible only through an empty id
    or time field. *)
Lemma segment_accept n d s res nnn sat f4 f5 num f7 r :
  located d n s -> ~ In 47 n ->
  n = join 45 [res; nnn; sat; f4; f5; num; f7; r] -> ends_C s = true ->
  Forall (without 45) [res; nnn; sat; f4; f5; num; f7] -> f4 <> [] -> f5 <> [] -> f7 <> [] ->
  exists fa, parse s = Ok fa /\ fa_dir fa = d /\ fa_res fa = res /\
    fa_pid1 fa <> [] /\ fa_pid2 fa <> [] /\ fa_timing fa <> [].
Proof.
  intros L Hn En He HF N4 N5 N7. rewrite (parse_located _ _ _ L Hn). unfold parse_base.
  rewrite <- (ends_C_base _ _ _ L Hn), He. rewrite En. cbn [join].
  repeat match goal with H : Forall _ _ |- _ => inversion H; clear H; subst end. unfold without in *.
  rewrite !(opt_split_app 45) by assumption.
  destruct (deunderscore_general f4 N4) as (l4 & k4 & -> & _ & T4). cbn [bind].
  rewrite !(opt_split_app 45) by assumption.
  destruct (deunderscore_general f5 N5) as (l5 & k5 & -> & _ & T5). cbn [bind].
  rewrite !(opt_split_app 45) by assumption.
  destruct (deunderscore_general f7 N7) as (l7 & k7 & -> & _ & T7). cbn [bind].
  assert (NE : forall l, trimmed l \/ l = [95] -> l <> []).
  { intros l [(a & b & -> & _)| ->]; [destruct a; discriminate|discriminate]. }
  eexists. split; [reflexivity|]. cbn. auto 8.
Qed.

(** ** Matching *)
Lemma gmatch_lit first l p s : l <> [] -> plain l ->
  gmatch first (l ++ p) s = true <-> exists s', s = l ++ s' /\ gmatch false p s' = true.
Proof.
  revert first s. induction l as [|c l IH]; intros first s Hne Hp; [congruence|].
  inversion Hp as [|? ? (H42 & H63 & _) Hp']; subst. cbn [app gmatch].
  destruct (Z.eqb_spec c 42); [congruence|]. destruct s as [|a s].
  - split; [discriminate|]. intros (s' & E & _). discriminate.
  - destruct (Z.eqb_spec c 63); [congruence|]. rewrite andb_true_iff, Z.eqb_eq.
    destruct l as [|c' l].
    + cbn [app]. split.
      * intros [-> H]. eauto.
      * intros (s' & E & H). injection E as -> ->. auto.
    + rewrite IH by (auto; discriminate). split.
      * intros [-> (s' & -> & H)]. eauto.
      * intros (s' & E & H). injection E as -> ->. split; [reflexivity|]. exists s'. auto.
Qed.
Lemma gmatch_q n p s :
  gmatch false (q n ++ p) s = true <-> exists x s', List.length x = n /\ s = x ++ s' /\ gmatch false p s' = true.
Proof.
  revert s. induction n as [|n IH]; intros s; cbn [q repeat app].
  - split; [intros H; exists [], s; auto|]. intros (x & s' & L & -> & H). destruct x; [exact H|discriminate].
  - cbn. destruct s as [|a s].
    + split; [discriminate|]. intros (x & s' & L & E & _). destruct x; discriminate.
    + cbn. fold (q n). rewrite IH. split.
      * intros (x & s' & L & -> & H). exists (a :: x), s'. cbn. auto.
      * intros (x & s' & L & E & H). destruct x as [|b x]; [discriminate|]. injection E as -> ->.
        exists x, s'. auto.
Qed.
Lemma gmatch_end first s : gmatch first [] s = true <-> s = [].
Proof. destruct s; cbn; split; congruence. Qed.
Lemma plain_app a b : plain a -> plain b -> plain (a ++ b).
Proof. unfold plain. rewrite Forall_app. auto. Qed.
Lemma plain_underscores k : plain (repeat 95 k).
Proof. apply Forall_forall. intros c H. apply repeat_spec in H. lia. Qed.
Lemma plain_underscoreit l w : plain l -> plain (underscoreit l w).
Proof.
  intros H. apply plain_app; [|apply plain_underscores]. apply Forall_forall. intros c Hc.
  unfold plain in H. rewrite Forall_forall in H. apply H. rewrite <- (firstn_skipn w l). apply in_or_app. auto.
Qed.
Ltac plain_tac :=
  match goal with
  | |- plain (_ ++ _) => apply plain_app; plain_tac
  | |- plain (underscoreit _ _) => apply plain_underscoreit; plain_tac
  | |- plain (repeat _ _) => apply plain_underscores
  | |- _ => first [assumption | unfold plain; repeat (first [apply Forall_nil | apply Forall_cons; [lia|]])]
  end.

Definition base_pattern (p : product) : list Z :=
  (pr_res p ++ [45]) ++ q 3 ++ [45] ++ q 6 ++ ([45]
  ++ underscoreit (pr_pid1 p) 12 ++ [45] ++ underscoreit (pr_pid2 p) 9 ++ [45]
  ++ [48]) ++ q 5 ++ ([95; 95; 95] ++ [45] ++ pr_time p ++ [45; 67; 95]) ++ [].
Definition base_aux (tag : list Z) (p : product) : list Z :=
  (pr_res p ++ [45]) ++ q 3 ++ [45] ++ q 6 ++ ([45]
  ++ underscoreit (pr_pid1 p) 12 ++ [45] ++ underscoreit [95] 9 ++ [45]
  ++ tag ++ repeat 95 6 ++ [45] ++ pr_time p ++ [45; 95; 95]) ++ [].
Lemma segment_match p n : plain_product p -> (List.length (pr_pid1 p) <= 12)%nat -> (List.length (pr_pid2 p) <= 9)%nat ->
  gmatch true (base_pattern p) n = true <-> segment_like p n.
Proof.
  intros (P1 & P2 & P3 & P4) W1 W2. unfold base_pattern. split.
  - intros H. apply gmatch_lit in H as (s1 & -> & H); [|destruct (pr_res p); discriminate|plain_tac].
    apply gmatch_q in H as (nnn & s2 & L1 & -> & H).
    apply gmatch_lit in H as (s3 & -> & H); [|discriminate|plain_tac].
    apply gmatch_q in H as (sat & s4 & L2 & -> & H).
    apply gmatch_lit in H as (s5 & -> & H); [|discriminate|plain_tac].
    apply gmatch_q in H as (num & s6 & L3 & -> & H).
    apply gmatch_lit in H as (s7 & -> & H); [|discriminate|plain_tac].
    apply gmatch_end in H. subst s7.
    pose proof (seg_like p nnn sat _ _ num L1 L2 L3 (underscoreit_padded _ _ W1) (underscoreit_padded _ _ W2)) as S.
    cbn [join] in S. rewrite app_nil_r. repeat (rewrite <- app_assoc; cbn [app]).
    cbn [app repeat] in S. repeat (rewrite <- app_assoc in S; cbn [app repeat] in S). exact S.
  - intros S. destruct S as [nnn sat id1 id2 num L1 L2 L3 Q1 Q2].
    apply padded_eq in Q1 as [-> _]. apply padded_eq in Q2 as [-> _]. cbn [join].
    apply gmatch_lit; [destruct (pr_res p); discriminate|plain_tac|]. eexists. split; [rewrite <- (app_assoc (pr_res p)); reflexivity|].
    apply gmatch_q. exists nnn. eexists. split; [exact L1|]. split; [reflexivity|].
    apply (gmatch_lit false [45]); [discriminate|plain_tac|]. eexists. split; [reflexivity|].
    apply gmatch_q. exists sat. eexists. split; [exact L2|]. split; [reflexivity|].
    apply gmatch_lit; [discriminate|plain_tac|]. eexists. split; [repeat (rewrite <- app_assoc; cbn [app]); reflexivity|].
    apply gmatch_q. exists num. eexists. split; [exact L3|]. split; [repeat (rewrite <- app_assoc; cbn [app]); reflexivity|].
    apply gmatch_lit; [discriminate|plain_tac|]. exists []. split; [|reflexivity].
    rewrite app_nil_r. cbn [repeat app]. reflexivity.
Qed.
Lemma aux_match tag p n : plain_product p -> plain tag -> (List.length (pr_pid1 p) <= 12)%nat ->
  gmatch true (base_aux tag p) n = true <-> aux_like tag p n.
Proof.
  intros (P1 & P2 & P3 & P4) PT W1. unfold base_aux. split.
  - intros H. apply gmatch_lit in H as (s1 & -> & H); [|destruct (pr_res p); discriminate|plain_tac].
    apply gmatch_q in H as (nnn & s2 & L1 & -> & H).
    apply gmatch_lit in H as (s3 & -> & H); [|discriminate|plain_tac].
    apply gmatch_q in H as (sat & s4 & L2 & -> & H).
    apply gmatch_lit in H as (s5 & -> & H); [|discriminate|plain_tac].
    apply gmatch_end in H. subst s5.
    pose proof (aux_like_intro tag p nnn sat _ L1 L2 (underscoreit_padded _ _ W1)) as S.
    cbn [join] in S. rewrite app_nil_r. repeat (rewrite <- app_assoc; cbn [app]).
    repeat (rewrite <- app_assoc in S; cbn [app] in S). exact S.
  - intros S. destruct S as [nnn sat id1 L1 L2 Q1].
    apply padded_eq in Q1 as [-> _]. cbn [join].
    apply gmatch_lit; [destruct (pr_res p); discriminate|plain_tac|]. eexists. split; [rewrite <- (app_assoc (pr_res p)); reflexivity|].
    apply gmatch_q. exists nnn. eexists. split; [exact L1|]. split; [reflexivity|].
    apply (gmatch_lit false [45]); [discriminate|plain_tac|]. eexists. split; [reflexivity|].
    apply gmatch_q. exists sat. eexists. split; [exact L2|]. split; [reflexivity|].
    apply gmatch_lit; [discriminate|plain_tac|]. exists []. split; [|reflexivity].
    rewrite app_nil_r. repeat (rewrite <- app_assoc; cbn [app]). reflexivity.
Qed.

Definition of_product (d : list Z) (p : product) : fileaccess := mk_fa d (pr_res p) (pr_pid1 p) (pr_pid2 p) (pr_time p).
Lemma no_slash_pattern p : without 47 (pr_res p) -> without 47 (pr_pid1 p) -> without 47 (pr_pid2 p) ->
  without 47 (pr_time p) -> ~ In 47 (base_pattern p).
Proof.
  unfold without, base_pattern, underscoreit, q. intros H1 H2 H3 H4.
  assert (Hf : forall w l, In 47 (firstn w l) -> In 47 l).
  { intros w l H. rewrite <- (firstn_skipn w l). apply in_or_app. auto. }
  repeat (rewrite in_app_iff; cbn [In]). intros H.
  repeat (destruct H as [H|H]; try lia; try tauto;
    try (apply repeat_spec in H; lia); try (apply Hf in H; tauto)).
Qed.
Lemma no_slash_aux tag p : without 47 tag -> without 47 (pr_res p) -> without 47 (pr_pid1 p) ->
  without 47 (pr_time p) -> ~ In 47 (base_aux tag p).
Proof.
  unfold without, base_aux, underscoreit, q. intros H1 H2 H3 H4.
  assert (Hf : forall w l, In 47 (firstn w l) -> In 47 l).
  { intros w l H. rewrite <- (firstn_skipn w l). apply in_or_app. auto. }
  repeat (rewrite in_app_iff; cbn [In]). intros H.
  repeat (destruct H as [H|H]; try lia; try tauto;
    try (apply repeat_spec in H; lia); try (apply Hf in H; cbn in H; tauto); try (apply Hf in H; cbn in H; lia)).
Qed.
Lemma glob_in ls d pat : ~ In 47 pat -> glob ls (d ++ 47 :: pat) = map (fun n => d ++ 47 :: n) (filter (gmatch true pat) (ls d)).
Proof.
  intros H. unfold glob. rewrite rfind_some by exact H. rewrite firstn_app_exact by reflexivity.
  replace (List.length d + 1)%nat with (List.length (d ++ [47])) by (rewrite app_length; cbn; lia).
  replace (d ++ 47 :: pat) with ((d ++ [47]) ++ pat) by (now rewrite <- app_assoc).
  now rewrite skipn_app_exact by reflexivity.
Qed.
Lemma segment_glob ls d p : good_product p ->
  glob ls (segment_pattern (of_product d p)) =
  map (fun n => d ++ 47 :: n) (filter (gmatch true (base_pattern p)) (ls d)).
Proof.
  intros (R1 & R2 & (T1 & A1 & B1) & (T2 & A2 & B2) & (T3 & A3 & B3) & W1 & W2).
  rewrite <- glob_in by now apply no_slash_pattern. f_equal.
  unfold segment_pattern, base_pattern, of_product. cbn. rewrite app_nil_r.
  repeat (rewrite <- app_assoc; cbn [app]). reflexivity.
Qed.
Lemma aux_glob tag ls d p : without 47 tag -> good_product p ->
  glob ls (aux_pattern tag (of_product d p)) =
  map (fun n => d ++ 47 :: n) (filter (gmatch true (base_aux tag p)) (ls d)).
Proof.
  intros HT (R1 & R2 & (T1 & A1 & B1) & (T2 & A2 & B2) & (T3 & A3 & B3) & W1 & W2).
  rewrite <- glob_in by now apply no_slash_aux. f_equal.
  unfold aux_pattern, base_aux, of_product. cbn. rewrite app_nil_r.
  repeat (rewrite <- app_assoc; cbn [app]). reflexivity.
Qed.
(** The search returns the files of the directory with a matching name, in
    order; it fails exactly if there is none. *)
Lemma search_spec ls d p : good_product p -> plain_product p ->
  (forall path, (exists fs, segmentFiles ls (of_product d p) = Ok fs /\ In path fs) <->
     exists n, path = d ++ 47 :: n /\ In n (ls d) /\ segment_like p n) /\
  (segmentFiles ls (of_product d p) = Throw <-> forall n, In n (ls d) -> ~ segment_like p n) /\
  (forall fs, segmentFiles ls (of_product d p) = Ok fs -> NoDup (ls d) -> NoDup fs).
Proof.
  intros G P. assert (W := G). destruct W as (_ & _ & _ & _ & _ & W1 & W2).
  unfold segmentFiles. rewrite segment_glob by exact G.
  set (L := map _ _).
  assert (HL : forall path, In path L <-> exists n, path = d ++ 47 :: n /\ In n (ls d) /\ segment_like p n).
  { intros path. unfold L. rewrite in_map_iff. split.
    - intros (n & <- & H). apply filter_In in H as [H1 H2]. apply segment_match in H2; eauto.
    - intros (n & -> & H1 & H2). exists n. split; [reflexivity|]. apply filter_In. split; [exact H1|].
      apply segment_match; auto. }
  assert (HN : NoDup (ls d) -> NoDup L).
  { intros H. unfold L. apply FinFun.Injective_map_NoDup; [|now apply NoDup_filter].
    intros a b E. apply app_inv_head in E. congruence. }
  split; [|split].
  - intros path. rewrite <- HL. destruct L as [|f L'] eqn:E.
    + split; [intros (fs & ? & _); discriminate|intros []].
    + split.
      * intros (fs & Ef & H). apply Ok_inj in Ef. now subst fs.
      * intros H. eauto.
  - destruct L as [|f L'] eqn:E.
    + split; [|reflexivity]. intros _ n Hn Hs. apply (proj2 (HL (d ++ 47 :: n))). eauto.
    + split; [discriminate|]. intros H. exfalso. destruct (proj1 (HL f)) as (n & _ & H1 & H2); [cbn; auto|].
      exact (H n H1 H2).
  - intros fs Ef Hd. destruct L as [|f L']; [discriminate|]. apply Ok_inj in Ef. subst fs. auto.
Qed.
Lemma join8 c a b d e f g h i : join c [a; b; d; e; f; g; h; i] =
  a ++ c :: b ++ c :: d ++ c :: e ++ c :: f ++ c :: g ++ c :: h ++ c :: i.
Proof. reflexivity. Qed.
Lemma split_unique (c : Z) a b a' b' : ~ In c a -> ~ In c a' -> a ++ c :: b = a' ++ c :: b' -> a = a' /\ b = b'.
Proof.
  intros H H' E. pose proof (split1_some c a b H) as S. rewrite E, split1_some in S by exact H'.
  apply Some_inj, pair_inj in S. intuition congruence.
Qed.
Lemma len_split {A} (a b a' b' : list A) : List.length a = List.length a' -> a ++ b = a' ++ b' -> a = a' /\ b = b'.
Proof.
  revert a'. induction a as [|x a IH]; destruct a' as [|y a']; cbn; intros L E; try discriminate; [auto|].
  injection E as -> E. destruct (IH a' ltac:(lia) E). subst. auto.
Qed.
Lemma len_split_c {A} (c : A) (a b a' b' : list A) : List.length a = List.length a' -> a ++ c :: b = a' ++ c :: b' -> a = a' /\ b = b'.
Proof. intros L E. apply len_split in E as [-> E]; [|exact L]. injection E as ->. auto. Qed.
Lemma padded_inj l l' w p : trimmed l -> trimmed l' -> padded l w p -> padded l' w p -> l = l'.
Proof.
  intros T T' P P'. pose proof (deunderscore_of_padded _ _ _ T P) as E.
  rewrite (deunderscore_of_padded _ _ _ T' P') in E. apply Ok_inj in E. auto.
Qed.
(** A standard name found by the search is of the very product. *)
Lemma like_same_product p p' n : good_product p -> good_product p' -> segment_name p' n ->
  segment_like p n -> p' = p.
Proof.
  intros G G' Hn Hl. destruct Hn as [nnn sat id1 id2 num L1 N1 N1' L2 N2 N2' Q1 Q2 L3 N3 N3'].
  remember (join 45 _) as n eqn:En in Hl. destruct Hl as [nnn' sat' id1' id2' num' L1' L2' L3' Q1' Q2'].
  rewrite !join8 in En.
  destruct G as (R1 & R2 & (T1 & A1 & B1) & (T2 & A2 & B2) & (T3 & A3 & B3) & W1 & W2).
  destruct G' as (R1' & R2' & (T1' & A1' & B1') & (T2' & A2' & B2') & (T3' & A3' & B3') & W1' & W2').
  apply split_unique in En as [Er En]; [|assumption|assumption].
  apply len_split_c in En as [_ En]; [|lia]. apply len_split_c in En as [_ En]; [|lia].
  assert (Len1 : List.length id1' = List.length id1) by (destruct Q1 as (? & _ & ->), Q1' as (? & _ & ->); reflexivity).
  assert (Len2 : List.length id2' = List.length id2) by (destruct Q2 as (? & _ & ->), Q2' as (? & _ & ->); reflexivity).
  apply len_split_c in En as [E1 En]; [|exact Len1]. apply len_split_c in En as [E2 En]; [|exact Len2]. subst id1' id2'.
  apply len_split_c in En as [_ En]; [|cbn; rewrite !app_length; cbn; lia].
  apply (f_equal (@rev Z)) in En. rewrite !rev_app_distr in En. cbn in En. injection En as En.
  apply (f_equal (@rev Z)) in En. rewrite !rev_involutive in En.
  destruct p as [a b c t], p' as [a' b' c' t']. cbn in *. f_equal; try congruence.
  - exact (padded_inj _ _ _ _ T1' T1 Q1 Q1').
  - exact (padded_inj _ _ _ _ T2' T2 Q2 Q2').
Qed.
Lemma name_like p n : segment_name p n -> segment_like p n.
Proof. intros []. now constructor. Qed.

(** Prologue and epilogue *)
Lemma aux_spec tag ls d p path : without 47 tag -> plain tag -> good_product p -> plain_product p ->
  aux_file tag ls (of_product d p) = Ok path <->
  exists n l1 l2, path = d ++ 47 :: n /\ ls d = l1 ++ n :: l2 /\ aux_like tag p n /\
    Forall (fun m => ~ aux_like tag p m) (l1 ++ l2).
Proof.
  intros HT PT G P. assert (W := G). destruct W as (_ & _ & _ & _ & _ & W1 & W2).
  unfold aux_file. rewrite aux_glob by auto.
  assert (M : forall n, gmatch true (base_aux tag p) n = true <-> aux_like tag p n) by (intros; now apply aux_match).
  set (g := gmatch true (base_aux tag p)) in *.
  assert (F0 : forall l, Forall (fun m => ~ aux_like tag p m) l <-> filter g l = []).
  { induction l as [|a l IH]; cbn; [split; auto|]. split.
    - intros H. inversion H; subst. destruct (g a) eqn:E; [apply M in E; tauto|]. now apply IH.
    - destruct (g a) eqn:E; [discriminate|]. intros H. constructor; [|now apply IH].
      rewrite <- M, E. discriminate. }
  assert (F1 : forall l n, filter g l = [n] <-> exists l1 l2, l = l1 ++ n :: l2 /\ g n = true /\ filter g (l1 ++ l2) = []).
  { induction l as [|a l IH]; intros n; cbn [filter].
    - split; [discriminate|]. intros (l1 & l2 & E & _). destruct l1; discriminate.
    - destruct (g a) eqn:E.
      + split.
        * intros H. injection H as -> H. exists [], l. auto.
        * intros (l1 & l2 & El & Hn & H). destruct l1 as [|b l1]; cbn in El, H.
          -- injection El as -> ->. now rewrite H.
          -- injection El as -> ->. rewrite E in H. discriminate.
      + rewrite IH. split.
        * intros (l1 & l2 & -> & Hn & H). exists (a :: l1), l2. cbn. now rewrite E.
        * intros (l1 & l2 & El & Hn & H). destruct l1 as [|b l1]; cbn in El, H.
          -- injection El as -> ->. congruence.
          -- injection El as -> ->. rewrite E in H. eauto. }
  destruct (filter g (ls d)) as [|n [|m l]] eqn:E; cbn [map].
  - split; [discriminate|]. intros (n & l1 & l2 & _ & El & Hn & H). rewrite El in E.
    rewrite filter_app in E. cbn in E. rewrite (proj2 (M n) Hn) in E. apply app_eq_nil in E as [_ ?]. discriminate.
  - apply F1 in E as (l1 & l2 & El & Hn & H). split.
    + intros Hp. apply Ok_inj in Hp. subst path. exists n, l1, l2. rewrite F0. split; [reflexivity|].
      split; [exact El|]. split; [now apply M|exact H].
    + intros (n' & l1' & l2' & -> & El' & Hn' & H'). apply F0 in H'. apply M in Hn'.
      assert (filter g (ls d) = [n]) by (apply F1; eauto). assert (filter g (ls d) = [n']) by (apply F1; eauto). congruence.
  - split; [discriminate|]. intros (n' & l1 & l2 & _ & El & Hn & H). apply F0 in H. apply M in Hn.
    assert (X : filter g (ls d) = [n']) by (apply F1; eauto). rewrite E in X. discriminate.
Qed.
Lemma aux_never_segment tag p p' n : aux_like tag p n -> ~ segment_like p' n.
Proof.
  intros H S. destruct H as [nnn sat id1 L1 L2 Q1]. remember (join 45 _) as n eqn:En in S.
  destruct S as [nnn' sat' id1' id2' num' L1' L2' L3' Q1' Q2']. rewrite !join8 in En.
  apply (f_equal (@rev Z)) in En. repeat (rewrite !rev_app_distr in En; cbn [rev] in En).
  repeat (rewrite <- app_assoc in En; cbn [app] in En). cbn in En. discriminate.
Qed.
