(** C162-C169: whole reads and writes, whole files, atomic replacement, link
    targets, elapsed time, the search of an executable, the type tests. *)
From Verif Require Import Base BaseFacts IniModel IniProofs StringModel StringSpec StringSplit SysModel.
Open Scope string_scope.
Open Scope list_scope.
Open Scope Z_scope.

(** ** C162 *)
Definition gives_some (a : io_answer) : Prop := exists n, a = Gives n /\ (1 <= n)%nat.
Lemma firstn_step {A} (l : list A) w k : firstn w l ++ firstn k (skipn w l) = firstn (w + k) l.
Proof.
  revert w. induction l as [|a l IH]; intros w.
  - now rewrite skipn_nil, !firstn_nil.
  - destruct w; [reflexivity|]. cbn. now rewrite IH.
Qed.
Lemma write_loop ans : forall buf w out, (w <= List.length buf)%nat ->
  exists k st rest, write_all_or_retry ans buf w (out ++ firstn w buf) = (out ++ firstn k buf, st, rest) /\
    (w <= k <= List.length buf)%nat /\
    (st = Done <-> k = List.length buf) /\
    (st = Threw -> In Fails ans /\ (k < List.length buf)%nat) /\
    (st = Waiting -> rest = [] /\ (Forall gives_some ans -> (List.length ans <= k - w)%nat)).
Proof.
  induction ans as [|a ans IH]; intros buf w out L; cbn [write_all_or_retry].
  - destruct (Nat.ltb_spec w (List.length buf)).
    + exists w, Waiting, []. repeat split; try lia; try discriminate. cbn. lia.
    + exists w, Done, []. repeat split; try lia; try discriminate.
  - destruct (Nat.ltb_spec w (List.length buf)) as [H|H].
    + destruct a as [n|].
      * set (k := taken n (List.length buf - w)). rewrite <- app_assoc, firstn_step.
        assert (K : (k <= List.length buf - w)%nat) by (unfold k, taken; lia).
        destruct (IH buf (w + k)%nat out) as (k' & st & rest & E & B & D & T & W); [lia|].
        exists k', st, rest. rewrite E. split; [reflexivity|]. split; [lia|]. split; [exact D|]. split.
        -- intros X. destruct (T X). split; [now right|assumption].
        -- intros X. destruct (W X) as [R F]. split; [exact R|]. intros A. inversion A as [|x y Gx Gy]; subst.
           specialize (F Gy). destruct Gx as (m & E' & M). injection E' as <-. cbn [List.length].
           assert (1 <= k)%nat by (unfold k, taken; lia). lia.
      * exists w, Threw, ans. split; [reflexivity|]. split; [lia|]. split; [split; [discriminate|lia]|].
        split; [intros _; split; [now left|lia]|discriminate].
    + exists w, Done, (a :: ans). repeat split; try lia; try discriminate.
Qed.

(** Whatever the sizes of the partial writes: the device holds a prefix of the
    data after what it held before; the call returns exactly when everything was
    written, throws only when a write failed, and does return once enough
    successful writes have been made. *)
Theorem C162_write_all_or_retry : forall ans buf out, exists k st rest,
  write_all_or_retry ans buf 0 out = (out ++ firstn k buf, st, rest) /\ (k <= List.length buf)%nat /\
  (st = Done <-> k = List.length buf) /\
  (st = Threw -> In Fails ans) /\
  (Forall gives_some ans -> (List.length buf <= List.length ans)%nat -> st = Done).
Proof.
  intros ans buf out. destruct (write_loop ans buf 0 out) as (k & st & rest & E & B & D & T & W); [lia|].
  exists k, st, rest. cbn [firstn] in E. rewrite app_nil_r in E. split; [exact E|]. split; [lia|]. split; [exact D|]. split; [apply T|].
  intros A L. destruct st; [reflexivity| |].
  - destruct (T eq_refl) as [I _]. rewrite Forall_forall in A. destruct (A _ I) as (n & X & _). discriminate.
  - destruct (W eq_refl) as [_ F]. specialize (F A). assert (k = List.length buf) by lia. apply D in H. discriminate.
Qed.
Print Assumptions C162_write_all_or_retry.
(** The single write: it returns exactly when the device received all the data. *)
Theorem C162_write_all_or_throw : forall a buf out, exists k,
  (k <= List.length buf)%nat /\ fst (write_all_or_throw a buf out) = out ++ firstn k buf /\
  (snd (write_all_or_throw a buf out) = Done <-> a <> Fails /\ k = List.length buf) /\
  (snd (write_all_or_throw a buf out) <> Done -> snd (write_all_or_throw a buf out) = Threw).
Proof.
  intros [n|] buf out; cbn [write_all_or_throw fst snd].
  - exists (taken n (List.length buf)). assert (taken n (List.length buf) <= List.length buf)%nat by (unfold taken; lia).
    split; [lia|]. split; [reflexivity|]. destruct (Nat.ltb_spec (taken n (List.length buf)) (List.length buf)).
    + split; [split; [discriminate|intros [_ X]; lia]|reflexivity].
    + split; [split; [intros _; split; [discriminate|lia]|reflexivity]|congruence].
  - exists 0%nat. split; [lia|]. cbn. rewrite app_nil_r. split; [reflexivity|]. split; [split; [discriminate|intros [X _]; congruence]|reflexivity].
Qed.
Print Assumptions C162_write_all_or_throw.
Example C162_case : write_all_or_retry [Gives 2; Gives 0; Gives 9] [1; 2; 3; 4; 5] 0 [7] = ([7; 1; 2; 3; 4; 5], Done, []) /\
  write_all_or_retry [Gives 2; Fails; Gives 9] [1; 2; 3; 4; 5] 0 [] = ([1; 2], Threw, [Gives 9]).
Proof. split; reflexivity. Qed.

(** ** C163 *)
Definition no_failure (a : io_answer) : Prop := a <> Fails.
Lemma read_loop ans : forall src count rem buf, (rem <= count)%nat ->
  exists k r, read_all_or_retry ans src count rem buf = (buf ++ firstn k src, skipn k src, r) /\
    (k <= rem)%nat /\ (k <= List.length src)%nat /\
    (r = RTrue <-> k = rem) /\
    (r = RFalse -> k = 0%nat /\ rem = count /\ src = [] /\ (0 < rem)%nat) /\
    (r = RPartial -> k = List.length src /\ (k < rem)%nat /\ (k = 0 -> rem <> count)%nat) /\
    (r = RError -> In Fails ans) /\
    (r = RWaiting -> (k < rem)%nat /\ (List.length ans <= k)%nat).
Proof.
  induction ans as [|a ans IH]; intros src count rem buf L; cbn [read_all_or_retry].
  - destruct (Nat.ltb_spec 0 rem).
    + exists 0%nat, RWaiting. cbn [firstn skipn]. rewrite app_nil_r. repeat split; try lia; try discriminate. cbn. lia.
    + exists 0%nat, RTrue. cbn [firstn skipn]. rewrite app_nil_r. repeat split; try lia; try discriminate.
  - destruct (Nat.ltb_spec 0 rem) as [H|H].
    + destruct a as [n|].
      * set (res := given n rem src). destruct (Nat.eqb_spec res 0) as [Z0|N0].
        -- assert (S0 : src = []). { destruct src; [reflexivity|]. unfold res, given in Z0. cbn [List.length] in Z0. lia. }
           subst src. exists 0%nat. cbn [firstn skipn]. rewrite app_nil_r.
           destruct (Nat.eqb_spec rem count); eexists; (split; [reflexivity|]); repeat split; try lia; try discriminate.
        -- assert (R1 : (1 <= res)%nat) by lia.
           assert (R2 : (res <= rem)%nat) by (unfold res, given; lia).
           assert (R3 : (res <= List.length src)%nat) by (unfold res, given; lia).
           destruct (IH (skipn res src) count (rem - res)%nat (buf ++ firstn res src)) as (k & r & E & K1 & K2 & T & F & P & Er & W); [lia|].
           rewrite skipn_length in *. exists (res + k)%nat, r. rewrite E. rewrite <- app_assoc, firstn_step, skipn_skipn, (Nat.add_comm k res).
           split; [reflexivity|]. split; [lia|]. split; [lia|]. split; [split; intros X; [apply T in X; lia|apply T; lia]|].
           split. { intros X. destruct (F X) as (_ & X2 & _). lia. }
           split. { intros X. destruct (P X) as (X1 & X2 & _). lia. }
           split. { intros X. right. auto. }
           intros X. destruct (W X) as [X1 X2]. split; [lia|]. cbn [List.length]. lia.
      * exists 0%nat, RError. cbn [firstn skipn]. rewrite app_nil_r. split; [reflexivity|]. repeat split; try lia; try discriminate. intros _. now left.
    + exists 0%nat, RTrue. cbn [firstn skipn]. rewrite app_nil_r. repeat split; try lia; try discriminate.
Qed.

(** Whatever the sizes of the partial reads: the buffer holds a prefix of the
    unread bytes and the rest stays unread; the call says true exactly when it
    stored [count] bytes, false only at the end of the file, throws "partial
    read" only when the file ends after some but not all bytes, and with no read
    error and enough reads it does return. *)
Theorem C163_read_all_or_retry : forall ans src count, exists k r,
  read_all_or_retry ans src count count [] = (firstn k src, skipn k src, r) /\
  (r = RTrue <-> k = count) /\ (k <= List.length src)%nat /\
  (r = RFalse -> src = [] /\ (0 < count)%nat) /\
  (r = RPartial -> (0 < List.length src < count)%nat) /\
  (r = RError -> In Fails ans) /\
  (Forall no_failure ans -> (count < List.length ans)%nat ->
     r = if (count <=? List.length src)%nat then RTrue else if (List.length src =? 0)%nat then RFalse else RPartial).
Proof.
  intros ans src count. destruct (read_loop ans src count count []) as (k & r & E & K1 & K2 & T & F & P & Er & W); [lia|].
  exists k, r. split; [exact E|]. split; [exact T|]. split; [exact K2|]. split; [intros X; destruct (F X) as (_ & _ & X1 & X2); auto|].
  split; [intros X; destruct (P X) as (X1 & X2 & X3); lia|]. split; [exact Er|].
  intros A L. destruct r.
  - assert (k = count) by now apply T. destruct (Nat.leb_spec count (List.length src)); [reflexivity|lia].
  - destruct (F eq_refl) as (_ & _ & -> & X). cbn [List.length]. destruct (Nat.leb_spec count 0); [lia|reflexivity].
  - destruct (P eq_refl) as (X1 & X2 & X3). destruct (Nat.leb_spec count (List.length src)); [lia|].
    destruct (Nat.eqb_spec (List.length src) 0); [lia|reflexivity].
  - rewrite Forall_forall in A. exfalso. apply (A _ (Er eq_refl)). reflexivity.
  - destruct (W eq_refl). lia.
Qed.
Print Assumptions C163_read_all_or_retry.
(** The single read: it returns exactly when it stored [count] bytes. *)
Theorem C163_read_all_or_throw : forall a src count, exists k, (k <= List.length src)%nat /\
  fst (read_all_or_throw a src count) = (firstn k src, skipn k src) /\
  (snd (read_all_or_throw a src count) = Done <-> a <> Fails /\ k = count) /\
  (snd (read_all_or_throw a src count) <> Done -> snd (read_all_or_throw a src count) = Threw).
Proof.
  intros [n|] src count; cbn [read_all_or_throw fst snd].
  - exists (if (count =? 0)%nat then 0%nat else given n count src).
    split; [destruct (count =? 0)%nat; unfold given; lia|]. split; [reflexivity|].
    destruct (Nat.eqb_spec (if (count =? 0)%nat then 0%nat else given n count src) count) as [E|E].
    + split; [split; [intros _; split; [discriminate|exact E]|reflexivity]|congruence].
    + split; [split; [discriminate|intros [_ X]; congruence]|reflexivity].
  - exists 0%nat. cbn. split; [lia|]. split; [reflexivity|]. split; [split; [discriminate|intros [X _]; congruence]|reflexivity].
Qed.
Print Assumptions C163_read_all_or_throw.
Example C163_case : read_all_or_retry [Gives 2; Gives 9; Gives 9] [1; 2; 3; 4; 5] 4 4 [] = ([1; 2; 3; 4], [5], RTrue) /\
  read_all_or_retry [Gives 2; Gives 9; Gives 9] [1; 2; 3] 4 4 [] = ([1; 2; 3], [], RPartial) /\
  read_all_or_retry [Gives 2] [] 4 4 [] = ([], [], RFalse).
Proof. repeat split; reflexivity. Qed.

(** ** C164 *)
Lemma put_same d p f : put d p f p = f.
Proof. unfold put. destruct (str_eqb_spec p p); congruence. Qed.
Lemma put_other d p f q : p <> q -> put d p f q = d q.
Proof. intros N. unfold put. destruct (str_eqb_spec p q); congruence. Qed.
(** [write_file] that returns leaves exactly the data, keeps the permissions of
    an existing file and honours the umask for a new one, and touches no other
    file; [read_file] then gives the data back. *)
Theorem C164_write_then_read_partial : forall d p data mode mask ans close_ok d',
  (forall f, d p = Some f -> f_regular f = true) ->
  write_file d p data mode mask true ans close_ok = (d', Done) ->
  read_file d' p = Ok data /\
  option_map f_mode (d' p) = Some (match d p with Some f => f_mode f | None => Z.land mode (Z.lnot mask) end) /\
  (forall q, q <> p -> d' q = d q).
Proof.
  intros d p data mode mask ans close_ok d' R W. unfold write_file in W. cbn [negb] in W.
  destruct (C162_write_all_or_retry ans data []) as (k & st & rest & E & K & D & T & _). rewrite E in W.
  destruct st; try (apply (f_equal snd) in W; discriminate W). destruct close_ok; [|apply (f_equal snd) in W; discriminate W].
  apply (f_equal fst) in W. cbn [fst] in W. subst d'. assert (k = List.length data) by now apply D. subst k.
  rewrite firstn_all. cbn [app].
  assert (O : set_data (open_trunc d p mode mask) p data p =
          Some (mk_file data (match d p with Some f => f_mode f | None => Z.land mode (Z.lnot mask) end) true)).
  { unfold set_data. rewrite put_same. unfold open_trunc. rewrite put_same. destruct (d p) as [f|] eqn:F; cbn; [|reflexivity].
    now rewrite (R f eq_refl). }
  split; [|split].
  - unfold read_file. rewrite O. unfold st_size. cbn. destruct data; [reflexivity|]. cbn. now rewrite firstn_all.
  - now rewrite O.
  - intros q N. unfold set_data, open_trunc. now rewrite !put_other by congruence.
Qed.
Print Assumptions C164_write_then_read_partial.
(** Any other write leaves a prefix of the data, or the file as it was. *)
Theorem C164_failed_write : forall d p data mode mask open_ok ans close_ok d' st,
  write_file d p data mode mask open_ok ans close_ok = (d', st) ->
  (forall q, q <> p -> d' q = d q) /\
  (d' p = d p \/ exists k f, d' p = Some f /\ f_data f = firstn k data).
Proof.
  intros d p data mode mask open_ok ans close_ok d' st W. unfold write_file in W. destruct open_ok; cbn [negb] in W.
  - destruct (C162_write_all_or_retry ans data []) as (k & st' & rest & E & K & _). rewrite E in W. cbn [app] in W.
    assert (X : d' = set_data (open_trunc d p mode mask) p (firstn k data)).
    { destruct st'; apply (f_equal fst) in W; cbn [fst] in W; congruence. }
    subst d'. split.
    + intros q N. unfold set_data, open_trunc. now rewrite !put_other by congruence.
    + right. exists k. unfold set_data. rewrite put_same. unfold open_trunc. rewrite put_same. destruct (d p); cbn; eexists; split; reflexivity.
  - apply (f_equal fst) in W. cbn [fst] in W. subst. split; auto.
Qed.
Print Assumptions C164_failed_write.
(** A file whose size the system does not announce, such as one of /proc or a
    FIFO, reads as empty, with no error, whatever it holds. *)
Theorem C164_refuted_unsized_file : forall d p f, d p = Some f -> f_regular f = false -> f_data f <> [] ->
  read_file d p = Ok [] /\ read_file d p <> Ok (f_data f).
Proof.
  intros d p f E R N. unfold read_file. rewrite E. unfold st_size. rewrite R. cbn. split; [reflexivity|congruence].
Qed.
Print Assumptions C164_refuted_unsized_file.
Example C164_case : exists d', write_file (fun _ => None) (codes "a") [1; 2; 3] 511 18 true [Gives 1; Gives 5] true = (d', Done) /\
  d' (codes "a") = Some (mk_file [1; 2; 3] 493 true) /\ d' (codes "b") = None.
Proof. eexists. split; [reflexivity|]. split; reflexivity. Qed.

(** ** C165 *)
Definition same_except (p : str) (d d' : dir) : Prop := forall q, q <> p -> d' q = d q.
Lemma growing_states d p ans : forall buf w out s, In s (growing d p ans buf w out) -> same_except p d s.
Proof.
  induction ans as [|a ans IH]; intros buf w out s; cbn [growing]; destruct (w <? List.length buf)%nat; try contradiction.
  destruct a as [n|]; [|contradiction]. intros [<-|I]; [|exact (IH _ _ _ _ I)].
  intros q N. unfold set_data. now rewrite put_other by congruence.
Qed.
(** What was at the destination stays there, whole, at every moment until the
    complete new file takes its place: a crash, a failed call or a concurrent
    reader never meets anything else.  No file other than the destination and
    the temporary one changes. *)
Theorem C165_atomic : forall d p data mode mask o trace st,
  (forall tmp, o_tmp o = Some tmp -> tmp <> p /\ d tmp = None) ->
  write_file_atomically d p data mode mask o = (trace, st) ->
  (forall s, In s trace -> s p = d p \/ s p = Some (mk_file data (Z.land mode (Z.lnot mask)) true)) /\
  (st <> Done -> forall s, In s trace -> s p = d p) /\
  (st = Done -> last trace d p = Some (mk_file data (Z.land mode (Z.lnot mask)) true)) /\
  (forall s q, In s trace -> q <> p -> o_tmp o <> Some q -> s q = d q) /\
  (st = Done -> forall q, q <> p -> last trace d q = d q).
Proof.
  intros d p data mode mask o trace st F W. unfold write_file_atomically in W.
  destruct (o_tmp o) as [tmp|] eqn:T.
  2:{ apply pair_equal_spec in W as [<- <-]. cbn [In last].
      repeat split; intros; try discriminate; try (destruct H; [subst|contradiction]; auto); try (destruct H0; [subst|contradiction]; auto). }
  destruct (F tmp eq_refl) as [N Fr]. clear F.
  assert (P1 : forall f, same_except tmp d (put d tmp f)) by (intros f q Nq; now rewrite put_other by congruence).
  set (d1 := put d tmp (Some (mk_file [] 384 true))) in *.
  destruct (o_chmod o); cbn [negb] in W.
  2:{ apply pair_equal_spec in W as [<- <-].
      assert (A : forall s, In s [d; d1] -> same_except tmp d s) by (intros s [<-|[<-|[]]]; [intros ? ?; reflexivity|apply P1]).
      repeat split; intros; try discriminate.
      - left. apply A; [assumption|congruence].
      - apply A; [assumption|congruence].
      - apply A; [assumption|congruence]. }
  set (d2 := put d tmp (Some (mk_file [] (masked mode mask) true))) in *.
  destruct (C162_write_all_or_retry (o_write o) data []) as (k & st' & rest & E & K & Dn & _). rewrite E in W. cbn [app] in W.
  set (g := growing d2 tmp (o_write o) data 0 []) in *.
  assert (A : forall s, In s (d :: d1 :: d2 :: g) -> same_except tmp d s).
  { intros s [<-|[<-|[<-|I]]]; [intros ? ?; reflexivity|apply P1|apply P1|]. unfold g in I. apply growing_states in I.
    intros q Nq. rewrite I by exact Nq. now apply P1. }
  assert (Fail : trace = d :: d1 :: d2 :: g -> st <> Done ->
     (forall s, In s trace -> s p = d p \/ s p = Some (mk_file data (Z.land mode (Z.lnot mask)) true)) /\
     (st <> Done -> forall s, In s trace -> s p = d p) /\
     (st = Done -> last trace d p = Some (mk_file data (Z.land mode (Z.lnot mask)) true)) /\
     (forall s q, In s trace -> q <> p -> Some tmp <> Some q -> s q = d q) /\
     (st = Done -> forall q, q <> p -> last trace d q = d q)).
  { intros -> Ns. split; [|split; [|split; [|split]]].
    - intros s I. left. apply A; [exact I|congruence].
    - intros _ s I. apply A; [exact I|congruence].
    - congruence.
    - intros s q I Nq Nt. apply A; [exact I|congruence].
    - congruence. }
  destruct st'.
  - destruct (o_close o); cbn [negb] in W; [|apply pair_equal_spec in W as [<- <-]; apply Fail; [reflexivity|discriminate]].
    destruct (o_rename o); cbn [negb] in W; [|apply pair_equal_spec in W as [<- <-]; apply Fail; [reflexivity|discriminate]]. clear Fail.
    assert (k = List.length data) by now apply Dn. subst k. rewrite firstn_all in W.
    assert (D3 : set_data d2 tmp data tmp = Some (mk_file data (masked mode mask) true)).
    { unfold set_data. rewrite put_same. unfold d2. rewrite put_same. reflexivity. }
    rewrite D3 in W. set (d3 := put (put (set_data d2 tmp data) p (Some (mk_file data (masked mode mask) true))) tmp None) in *.
    change (d :: d1 :: d2 :: g ++ [d3]) with ((d :: d1 :: d2 :: g) ++ [d3]) in W. apply pair_equal_spec in W as [<- <-].
    assert (Lp : d3 p = Some (mk_file data (masked mode mask) true)).
    { unfold d3. rewrite put_other by congruence. apply put_same. }
    assert (Lq : forall q, q <> p -> d3 q = d q).
    { intros q Nq. unfold d3. destruct (list_eq_dec Z.eq_dec q tmp) as [->|Nt]; [rewrite put_same; now symmetry|].
      rewrite !put_other by congruence. unfold set_data. rewrite put_other by congruence. unfold d2. now rewrite put_other by congruence. }
    split; [|split; [|split; [|split]]].
    + intros s I. apply in_app_iff in I as [I|[<-|[]]]; [left; apply A; [exact I|congruence]|right; exact Lp].
    + congruence.
    + intros _. now rewrite last_last.
    + intros s q I Nq Nt. apply in_app_iff in I as [I|[<-|[]]]; [apply A; [exact I|congruence]|auto].
    + intros _ q Nq. rewrite last_last. auto.
  - apply pair_equal_spec in W as [<- <-]; apply Fail; [reflexivity|discriminate].
  - apply pair_equal_spec in W as [<- <-]; apply Fail; [reflexivity|discriminate].
Qed.
Print Assumptions C165_atomic.
(** A write, a close or a rename that fails leaves the temporary file behind. *)
Theorem C165_refuted_no_leftover : forall d p data mode mask tmp ans cl rn, tmp <> p -> d tmp = None ->
  Forall gives_some ans -> (List.length data <= List.length ans)%nat -> cl && rn = false ->
  exists trace, write_file_atomically d p data mode mask (mk_oracle (Some tmp) true ans cl rn) = (trace, Threw) /\
    last trace d tmp <> None.
Proof.
  intros d p data mode mask tmp ans cl rn N Fr A L B. unfold write_file_atomically. cbn [o_tmp o_chmod o_write o_close o_rename negb].
  set (d1 := put d tmp (Some (mk_file [] 384 true))). set (d2 := put d tmp (Some (mk_file [] (masked mode mask) true))).
  destruct (C162_write_all_or_retry ans data []) as (k & st & rest & E & K & _ & _ & Dn). rewrite E.
  rewrite (Dn A L). exists ([d; d1; d2] ++ growing d2 tmp ans data 0 []). split.
  { destruct cl; [destruct rn; [discriminate|]|]; reflexivity. }
  assert (S2 : forall ans buf w out s, In s (growing d2 tmp ans buf w out) -> s tmp <> None).
  { induction ans0 as [|a l IH]; intros buf w out s; cbn [growing]; destruct (w <? List.length buf)%nat; try contradiction.
    destruct a; [|contradiction]. intros [<-|I]; [|exact (IH _ _ _ _ I)]. unfold set_data. rewrite put_same. unfold d2. rewrite put_same. discriminate. }
  destruct (growing d2 tmp ans data 0 []) as [|s g] eqn:G.
  - cbn [app last]. unfold d2. rewrite put_same. discriminate.
  - assert (I : In (last ([d; d1; d2] ++ s :: g) d) (s :: g)).
    { destruct (@exists_last _ (s :: g)) as (g' & x & X); [discriminate|]. rewrite X. rewrite app_assoc, last_last. apply in_or_app. right. now left. }
    rewrite <- G in I |- *. exact (S2 _ _ _ _ _ I).
Qed.
Print Assumptions C165_refuted_no_leftover.
Example C165_case : exists trace, write_file_atomically (fun _ => None) (codes "a") [1; 2; 3] 438 18
   (mk_oracle (Some (codes "aXk3")) true [Gives 2; Gives 2] true true) = (trace, Done) /\ List.length trace = 6%nat /\
   last trace (fun _ => None) (codes "a") = Some (mk_file [1; 2; 3] 420 true).
Proof. eexists. split; [reflexivity|]. split; reflexivity. Qed.

(** ** C166: the whole target of a link, whatever its length. *)
Lemma readlink_loop fuel : forall t size, (0 < size)%nat -> (List.length t < size * 2 ^ fuel)%nat -> readlinkat_loop (S fuel) t size = Ok t.
Proof.
  induction fuel as [|fuel IH]; intros t size P L; cbn [readlinkat_loop].
  - cbn in L. destruct (Nat.ltb_spec (Nat.min size (List.length t)) size); [|lia]. rewrite Nat.min_r by lia. now rewrite firstn_all.
  - destruct (Nat.ltb_spec (Nat.min size (List.length t)) size).
    + rewrite Nat.min_r by lia. now rewrite firstn_all.
    + apply IH; [lia|]. cbn [Nat.pow] in L. lia.
Qed.
Theorem C166_readlinkat : forall t, exists fuel, readlinkat fuel (Some t) = Ok t.
Proof.
  intros t. exists (S (List.length t)). apply readlink_loop; [lia|].
  assert (List.length t < 2 ^ List.length t)%nat by (apply Nat.pow_gt_lin_r; lia). lia.
Qed.
Print Assumptions C166_readlinkat.
(** No other answer is possible, however long one waits. *)
Theorem C166_readlinkat_only : forall fuel t r, readlinkat fuel (Some t) = Ok r -> r = t.
Proof.
  intros fuel t r. cbn [readlinkat]. generalize 256%nat. induction fuel as [|fuel IH]; intros size E; cbn [readlinkat_loop] in E; [discriminate|].
  destruct (Nat.ltb_spec (Nat.min size (List.length t)) size); [|now apply IH in E].
  apply Ok_inj in E. subst. rewrite Nat.min_r by lia. now rewrite firstn_all.
Qed.
Print Assumptions C166_readlinkat_only.
Example C166_case : readlinkat 3 (Some (repeat 97 300)) = Ok (repeat 97 300).
Proof. reflexivity. Qed.

(** ** C167: elapsed nanoseconds. *)
Definition normal_ts (t : timespec) : Prop := 0 <= tv_nsec t < 1000000000.
Definition nanos (t : timespec) : Z := tv_sec t * 1000000000 + tv_nsec t.
Lemma long_ok v : -2 ^ 63 <= v < 2 ^ 63 -> long v = Ok v.
Proof. intros H. unfold long. destruct (Z.leb_spec (-2 ^ 63) v); [|lia]. destruct (Z.ltb_spec v (2 ^ 63)); [reflexivity|lia]. Qed.
Lemma long_ub v : 2 ^ 63 <= v -> long v = UB.
Proof. intros H. unfold long. destruct (Z.ltb_spec v (2 ^ 63)); [lia|]. now rewrite andb_false_r. Qed.
Theorem C167_elapsed_partial : forall b u, normal_ts b -> normal_ts u -> nanos u - nanos b < 2 ^ 63 - 1000000000 ->
  timesec_elapsed b u = Ok (Z.max 0 (nanos u - nanos b)).
Proof.
  intros [bs bn] [us un] B U L. unfold normal_ts, nanos, timesec_elapsed in *. cbn [tv_sec tv_nsec] in *.
  assert (ull_id : forall v, 0 <= v < 2 ^ 63 -> ull v = v) by (intros v Hv; unfold ull; apply Z.mod_small; lia).
  destruct (Z.gtb_spec bs us); [f_equal; lia|].
  destruct (Z.eqb_spec bs us).
  - destruct (Z.gtb_spec bn un); [f_equal; lia|]. rewrite long_ok by lia. cbn [bind]. rewrite ull_id by lia. f_equal. lia.
  - destruct (Z.ltb_spec un bn).
    + repeat (rewrite long_ok by lia; cbn [bind]). rewrite ull_id by lia. f_equal. lia.
    + repeat (rewrite long_ok by lia; cbn [bind]). rewrite ull_id by lia. f_equal. lia.
Qed.
Print Assumptions C167_elapsed_partial.
(** From 2^63 nanoseconds (292 years) on the subtraction overflows, although the
    unsigned result could hold twice as much. *)
Theorem C167_refuted_long_spans : forall b u, normal_ts b -> normal_ts u -> -2 ^ 62 <= tv_sec b < 2 ^ 62 -> -2 ^ 62 <= tv_sec u < 2 ^ 62 ->
  2 ^ 63 <= nanos u - nanos b -> timesec_elapsed b u = UB.
Proof.
  intros [bs bn] [us un] B U Lb Lu L. unfold normal_ts, nanos, timesec_elapsed in *. cbn [tv_sec tv_nsec] in *.
  destruct (Z.gtb_spec bs us); [lia|]. destruct (Z.eqb_spec bs us); [lia|].
  destruct (Z.ltb_spec un bn).
  - rewrite (long_ok (us - bs)) by lia. cbn [bind]. rewrite (long_ok (us - bs - 1)) by lia. cbn [bind].
    destruct (Z.lt_ge_cases ((us - bs - 1) * 1000000000) (2 ^ 63)); [|now rewrite (long_ub _ H1)].
    rewrite (long_ok ((us - bs - 1) * 1000000000)) by lia. cbn [bind]. rewrite (long_ok (un + 1000000000)) by lia. cbn [bind].
    rewrite (long_ok (un + 1000000000 - bn)) by lia. cbn [bind]. now rewrite long_ub by lia.
  - rewrite (long_ok (us - bs)) by lia. cbn [bind].
    destruct (Z.lt_ge_cases ((us - bs) * 1000000000) (2 ^ 63)); [|now rewrite (long_ub _ H1)].
    rewrite (long_ok ((us - bs) * 1000000000)) by lia. cbn [bind].
    destruct (Z.lt_ge_cases ((us - bs) * 1000000000 + un) (2 ^ 63)); [|now rewrite (long_ub _ H2)].
    rewrite (long_ok ((us - bs) * 1000000000 + un)) by lia. cbn [bind]. now rewrite long_ub by lia.
Qed.
Print Assumptions C167_refuted_long_spans.
Example C167_case : timesec_elapsed (mk_ts 10 999999999) (mk_ts 12 1) = Ok 1000000002 /\ timesec_elapsed (mk_ts 12 1) (mk_ts 10 0) = Ok 0 /\
  timesec_elapsed (mk_ts 0 0) (mk_ts 10000000000 0) = UB.
Proof. repeat split; reflexivity. Qed.

(** ** C168: the executable a name stands for. *)
Definition first_such {A} (P : A -> Prop) (l : list A) (x : A) : Prop := exists a b, l = a ++ x :: b /\ P x /\ Forall (fun y => ~ P y) a.
Definition dir_entry (d name : str) : str := if nonempty d then if last d 0 =? 47 then d ++ name else d ++ codes "/" ++ name else name.
Lemma slash_join_entry d name : slash_join d name = dir_entry d name.
Proof.
  unfold slash_join, dir_entry. destruct (rev d) as [|c r] eqn:E.
  - apply (f_equal (@rev Z)) in E. rewrite rev_involutive in E. subst. reflexivity.
  - apply (f_equal (@rev Z)) in E. rewrite rev_involutive in E. cbn in E. subst d. rewrite last_last.
    destruct (rev r ++ [c]) as [|x y] eqn:F; [now destruct (rev r)|]. cbn [nonempty]. reflexivity.
Qed.
Lemma which_first cwd name exec l : 
  (exists d, first_such (fun d => exec (dir_entry d name) = true) l d /\ which_loop cwd name exec l = absolute cwd (dir_entry d name)) \/
  (Forall (fun d => exec (dir_entry d name) = false) l /\ which_loop cwd name exec l = name).
Proof.
  induction l as [|d l IH]; [right; split; [constructor|reflexivity]|]. cbn [which_loop]. rewrite slash_join_entry.
  destruct (exec (dir_entry d name)) eqn:E.
  - left. exists d. split; [|reflexivity]. exists [], l. split; [reflexivity|]. split; [exact E|constructor].
  - destruct IH as [(d' & (a & b & -> & P & F) & W)|[F W]].
    + left. exists d'. split; [|exact W]. exists (d :: a), b. split; [reflexivity|]. split; [exact P|]. constructor; [congruence|exact F].
    + right. split; [now constructor|exact W].
Qed.
(** A name with no slash is looked up in the non-empty entries of the search
    path, in order; the first entry holding an executable decides, and the name
    itself is returned when none does. *)
Theorem C168_which_partial : forall cwd name path exec ds, ~ In 47 name -> pieces (codes ":") path ds -> Exists (fun d => d <> []) ds ->
  (exists d, first_such (fun d => exec (dir_entry d name) = true) (filter nonempty ds) d /\
     which cwd name (Some path) exec = Ok (absolute cwd (dir_entry d name))) \/
  (Forall (fun d => exec (dir_entry d name) = false) (filter nonempty ds) /\ which cwd name (Some path) exec = Ok name).
Proof.
  intros cwd name path exec ds N P X. unfold which.
  assert (H : has_slash name = false).
  { unfold has_slash. destruct (existsb (Z.eqb 47) name) eqn:E; [|reflexivity]. apply existsb_exists in E as (x & I & Q). apply Z.eqb_eq in Q. subst. contradiction. }
  rewrite H. assert (path <> []).
  { intros ->. inversion P as [t Nc Et|a t ps Nc Q Ea]; subst.
    - apply Exists_exists in X as (d & [<-|[]] & Y). congruence.
    - destruct a; discriminate. }
  destruct (split_skip path (codes ":")) as (ps & Q & S); [discriminate|exact H0|].
  assert (NS : codes ":" <> []) by discriminate. rewrite (pieces_unique _ _ _ _ NS Q P) in S. clear NS. clear Q ps. rewrite S. cbn [bind].
  assert (Y : filter nonempty ds <> []).
  { apply Exists_exists in X as (d & I & Y). intros Z0. assert (In d (filter nonempty ds)) by (apply filter_In; split; [exact I|]; destruct d; [congruence|reflexivity]).
    rewrite Z0 in H1. exact H1. }
  destruct (filter nonempty ds) as [|q l]; [congruence|].
  destruct (which_first cwd name exec (q :: l)) as [(d & F & W)|[F W]]; [left; exists d|right]; (split; [exact F|]); now rewrite W.
Qed.
Print Assumptions C168_which_partial.
(** A name with a slash is made absolute without any look-up; with no search path
    the name is returned. *)
Theorem C168_which_other : forall cwd name path exec,
  (In 47 name -> which cwd name path exec = Ok (absolute cwd name)) /\ (~ In 47 name -> which cwd name None exec = Ok name).
Proof.
  intros cwd name path exec. unfold which, has_slash. destruct (existsb (Z.eqb 47) name) eqn:E; split; intros H.
  - reflexivity.
  - apply existsb_exists in E as (x & I & Q). apply Z.eqb_eq in Q. subst. contradiction.
  - assert (existsb (Z.eqb 47) name = true) by (apply existsb_exists; exists 47; auto). congruence.
  - reflexivity.
Qed.
Print Assumptions C168_which_other.
(** An empty entry of the search path stands for the current directory; it is
    skipped as soon as another entry is not empty, so an executable found there
    by the shell is not found here. *)
Theorem C168_refuted_current_directory : forall cwd name d exec, ~ In 47 name -> d <> [] -> ~ contains (codes ":") d ->
  exec name = true -> exec (dir_entry d name) = false -> which cwd name (Some (codes ":" ++ d)) exec = Ok name.
Proof.
  intros cwd name d exec N D C E1 E2.
  assert (P : pieces (codes ":") (codes ":" ++ d) [[]; d]).
  { change (codes ":" ++ d) with ([] ++ codes ":" ++ d). constructor; [|now constructor].
    intros (a & b & X). destruct a; discriminate. }
  destruct (C168_which_partial cwd name _ exec _ N P) as [(d' & (a & b & F & W & _) & _)|[_ W]]; [right; left; exact D| |exact W].
  exfalso. assert (I : In d' (filter nonempty [[]; d])) by (rewrite F; apply in_or_app; right; now left).
  apply filter_In in I as [[<-|[<-|[]]] Y]; [discriminate|congruence].
Qed.
Print Assumptions C168_refuted_current_directory.
Example C168_case : which (codes "/home") (codes "ls") (Some (codes "/sbin:bin:/usr/bin")) (fun p => str_eqb p (codes "bin/ls")) = Ok (codes "/home/bin/ls") /\
  which (codes "/home") (codes "./ls") None (fun _ => false) = Ok (codes "/home/./ls").
Proof. split; vm_compute; reflexivity. Qed.

(** ** C169: the type tests. *)
Theorem C169_type_tests_partial : forall k e, k <> KLnk -> (forall k', e = Some (Object k') -> k' <> KLnk) ->
  (is_kind k e = true <-> e = Some (Object k) \/ e = Some (Link (Some k))).
Proof.
  intros k e N O. destruct e as [[k'|[k'|]]|]; cbn [is_kind stat_kind]; unfold is_kind, stat_kind.
  - destruct k, k'; cbn; split; intros H; try discriminate; auto; destruct H; try discriminate.
  - destruct k, k'; cbn; split; intros H; try discriminate; auto; destruct H; try discriminate.
  - split; [discriminate|]. intros [H|H]; discriminate.
  - split; [discriminate|]. intros [H|H]; discriminate.
Qed.
Print Assumptions C169_type_tests_partial.
(** The test for a symbolic link follows the link, and so never recognises one. *)
Theorem C169_refuted_islnk : forall to, to <> Some KLnk -> is_kind KLnk (Some (Link to)) = false.
Proof. intros [[]|] H; cbn; try reflexivity. congruence. Qed.
Print Assumptions C169_refuted_islnk.
Example C169_case : is_kind KDir (Some (Object KDir)) = true /\ is_kind KReg (Some (Link (Some KReg))) = true /\ is_kind KReg None = false.
Proof. repeat split. Qed.
