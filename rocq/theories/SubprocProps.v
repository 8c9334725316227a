(** C173-C177: redirections and descriptors of a child process, waiting for it,
    its status, its environment. *)
From Verif Require Import Base BaseFacts IniModel IniProofs GribModel Db1Spec Db1Props SubprocModel.
Open Scope string_scope.
Open Scope list_scope.
Open Scope Z_scope.

(** ** C173: specification *)
(** The descriptors a redirection consumes: its own end, and for a pipe also the
    end of the parent. *)
Definition used (s : stream) (mine other : Z) : list Z :=
  match act s with FD => [mine] | PIPE => [mine; other] | _ => [] end.
Definition all_used (c : child) : list Z :=
  used (s_in c) (rd (s_in c)) (wr (s_in c)) ++ used (s_out c) (wr (s_out c)) (rd (s_out c)) ++ used (s_err c) (wr (s_err c)) (rd (s_err c)).
(** The file a standard descriptor is to be, from the table before: [mine] is the
    descriptor requested, [target] the standard one, [out] what standard output is. *)
Definition wanted (t : table) (null : Z) (s : stream) (mine target : Z) (out : option Z) : option Z :=
  match act s with
  | FD | PIPE => t mine
  | DEVNULL => Some null
  | STDOUT => out
  | UNCHANGED => t target
  end.

(** ** Facts *)
Definition view (t : table) (dn : option Z) : table := match dn with Some d => upd t d None | None => t end.
Definition good (null : Z) (t : table) (dn : option Z) : Prop :=
  (forall d, dn = Some d -> 3 <= d /\ t d = Some null) /\ (forall k, 0 <= k <= 2 -> t k <> None).
Definition inb (i : Z) (l : list Z) : bool := existsb (Z.eqb i) l.
Lemma inb_spec i l : inb i l = true <-> In i l.
Proof.
  unfold inb. rewrite existsb_exists. split; [intros (x & I & E); apply Z.eqb_eq in E; now subst|intros I; exists i; split; [exact I|apply Z.eqb_refl]].
Qed.
Lemma inb_app i a b : inb i (a ++ b) = inb i a || inb i b.
Proof. unfold inb. apply existsb_app. Qed.
Lemma NoDup_app_l {A} (a b : list A) : NoDup (a ++ b) -> NoDup a.
Proof. induction a as [|x a IH]; intros H; [constructor|]. cbn in H. inversion H as [|? ? N D]; subst. constructor; [|auto]. intros I. apply N. apply in_or_app. now left. Qed.
Lemma NoDup_app_r {A} (a b : list A) : NoDup (a ++ b) -> NoDup b.
Proof. induction a as [|x a IH]; intros H; [exact H|]. cbn in H. inversion H; auto. Qed.
Lemma NoDup_app_disjoint {A} (a b : list A) x : NoDup (a ++ b) -> In x a -> ~ In x b.
Proof.
  induction a as [|y a IH]; intros H I J; [contradiction|]. cbn in H. inversion H as [|? ? N D]; subst. destruct I as [->|I]; [|now apply IH].
  apply N. apply in_or_app. now right.
Qed.
Lemma upd_same t a f : upd t a f a = f.
Proof. unfold upd. now rewrite Z.eqb_refl. Qed.
Lemma upd_other t a f i : i <> a -> upd t a f i = t i.
Proof. intros N. unfold upd. destruct (Z.eqb_spec i a); congruence. Qed.
Lemma view_open t dn i : view t dn i <> None -> view t dn i = t i /\ (forall d, dn = Some d -> i <> d).
Proof.
  unfold view. destruct dn as [d|]; intros H.
  - destruct (Z.eq_dec i d) as [->|N]; [rewrite upd_same in H; congruence|]. rewrite upd_other by exact N. split; [reflexivity|congruence].
  - split; [reflexivity|discriminate].
Qed.
Lemma redirect_ok t a b f : a <> b -> t a = Some f -> redirect t a b = Ok (upd (upd t b (Some f)) a None).
Proof.
  intros N E. unfold redirect, dup2. rewrite E. cbn [bind]. unfold close. rewrite upd_other by exact N. now rewrite E.
Qed.
Lemma stream_ok fresh null t dn s mine other target b :
  (forall u : table, u (fresh u) = None /\ 0 <= fresh u) -> good null t dn -> 0 <= target <= 2 -> (b = true -> target = 2) -> (act s = STDOUT -> b = true) ->
  NoDup (used s mine other) -> (forall x, In x (used s mine other) -> 3 <= x /\ view t dn x <> None) ->
  exists t1 dn1, child_stream fresh null t dn s mine other target b = Ok (t1, dn1) /\ good null t1 dn1 /\
    forall i, view t1 dn1 i = if i =? target then wanted (view t dn) null s mine target (view t dn 1)
                              else if inb i (used s mine other) then None else view t dn i.
Proof.
  intros Fr (G1 & G2) T B So ND U. unfold child_stream, used, wanted in *. destruct (act s) eqn:A.
  - (* PIPE *)
    destruct (U mine) as [M1 M2]; [now left|]. destruct (U other) as [O1 O2]; [right; now left|].
    destruct (view_open _ _ _ M2) as [M3 M4]. destruct (view_open _ _ _ O2) as [O3 O4].
    assert (Nmo : mine <> other) by (inversion ND as [|? ? X]; subst; intros ->; apply X; now left).
    rewrite M3 in *. rewrite O3 in *. destruct (t mine) as [f|] eqn:Em; [|congruence]. destruct (t other) as [g|] eqn:Eo; [|congruence].
    unfold close at 1. rewrite Eo. cbn [bind]. rewrite (redirect_ok _ mine target f); [|lia|now rewrite upd_other by exact Nmo]. cbn [bind].
    eexists _, _. split; [reflexivity|]. split.
    + split.
      * intros d E. destruct (G1 d E). split; [assumption|]. specialize (M4 d E). specialize (O4 d E). rewrite !upd_other by lia. assumption.
      * intros k K. rewrite upd_other by lia. destruct (Z.eq_dec k target) as [->|X]; [rewrite upd_same; discriminate|]. rewrite !upd_other by lia. auto.
    + intros i. unfold view, upd, inb in *. cbn [existsb]. destruct dn as [d|]; [specialize (M4 d eq_refl); specialize (O4 d eq_refl); destruct (G1 d eq_refl)|].
      all: destruct (Z.eqb_spec i target), (Z.eqb_spec i mine), (Z.eqb_spec i other); cbn [orb]; try lia; try reflexivity.
      all: destruct (Z.eqb_spec i d); try lia; try reflexivity.
  - (* DEVNULL *)
    clear U ND. unfold with_devnull. destruct dn as [d|].
    + destruct (G1 d eq_refl) as [D1 D2]. unfold dup2. rewrite D2. cbn [bind]. eexists _, _. split; [reflexivity|]. split.
      * split; [intros d' E; injection E as <-; split; [assumption|rewrite upd_other by lia; assumption]|].
        intros k K. destruct (Z.eq_dec k target) as [->|X]; [rewrite upd_same; discriminate|]. rewrite upd_other by exact X. auto.
      * intros i. unfold view, upd, inb. cbn [existsb]. destruct (Z.eqb_spec i d), (Z.eqb_spec i target); try reflexivity. lia.
    + destruct (Fr t) as [F1 F2]. set (d := fresh t) in *. assert (D3 : 3 <= d). { destruct (Z.lt_ge_cases d 3); [|lia]. exfalso. apply (G2 d); [lia|exact F1]. }
      unfold dup2. rewrite upd_same. cbn [bind]. eexists _, _. split; [reflexivity|]. split.
      * split; [intros d' E; injection E as <-; split; [assumption|rewrite upd_other by lia; apply upd_same]|].
        intros k K. destruct (Z.eq_dec k target) as [->|X]; [rewrite upd_same; discriminate|]. rewrite !upd_other by lia. auto.
      * intros i. unfold view, upd, inb. cbn [existsb]. destruct (Z.eqb_spec i d) as [Q|Q], (Z.eqb_spec i target); try reflexivity; try lia. rewrite Q. now symmetry.
  - (* STDOUT *)
    rewrite (So eq_refl) in *. clear So. specialize (B eq_refl). subst target.
    assert (E1 : exists f, t 1 = Some f). { destruct (t 1) as [f|] eqn:E; [eauto|]. exfalso. apply (G2 1); [lia|exact E]. }
    destruct E1 as (f & E1). unfold dup2. rewrite E1. cbn [bind]. eexists _, _. split; [reflexivity|]. split.
    + split; [intros d E; destruct (G1 d E); split; [assumption|rewrite upd_other by lia; assumption]|].
      intros k K. destruct (Z.eq_dec k 2) as [->|X]; [rewrite upd_same; discriminate|]. rewrite upd_other by exact X. auto.
    + intros i. unfold view, upd, inb. cbn [existsb]. destruct dn as [d|]; [destruct (G1 d eq_refl)|].
      * destruct (Z.eqb_spec i d), (Z.eqb_spec i 2), (Z.eqb_spec 1 d); try lia; try reflexivity. now symmetry.
      * destruct (Z.eqb_spec i 2); [now symmetry|reflexivity].
  - (* FD *)
    destruct (U mine) as [M1 M2]; [now left|]. destruct (view_open _ _ _ M2) as [M3 M4].
    rewrite M3 in *. destruct (t mine) as [f|] eqn:Em; [|congruence].
    rewrite (redirect_ok _ mine target f); [|lia|exact Em]. cbn [bind]. eexists _, _. split; [reflexivity|]. split.
    + split.
      * intros d E. destruct (G1 d E). split; [assumption|]. specialize (M4 d E). rewrite !upd_other by lia. assumption.
      * intros k K. rewrite upd_other by lia. destruct (Z.eq_dec k target) as [->|X]; [rewrite upd_same; discriminate|]. rewrite upd_other by exact X. auto.
    + intros i. unfold view, upd, inb in *. cbn [existsb]. destruct dn as [d|]; [specialize (M4 d eq_refl); destruct (G1 d eq_refl)|].
      all: destruct (Z.eqb_spec i target), (Z.eqb_spec i mine); cbn [orb]; try lia; try reflexivity.
      all: destruct (Z.eqb_spec i d); try lia; try reflexivity.
  - (* UNCHANGED *)
    eexists _, _. split; [reflexivity|]. split; [split; assumption|]. intros i. cbn. destruct (Z.eqb_spec i target); [now subst|reflexivity].
Qed.
Lemma close_from_spec n : forall i pass t f, close_from n i pass t f = if (i <=? f) && (f <? i + Z.of_nat n) && negb (inb f pass) then None else t f.
Proof.
  induction n as [|n IH]; intros i pass t f; cbn [close_from].
  - destruct (Z.leb_spec i f), (Z.ltb_spec f (i + Z.of_nat 0)); try lia; reflexivity.
  - rewrite IH. fold (inb i pass). destruct (Z.eq_dec f i) as [->|N].
    + destruct (Z.leb_spec (i + 1) i); [lia|]. cbn [andb]. destruct (Z.leb_spec i i); [|lia]. destruct (Z.ltb_spec i (i + Z.of_nat (S n))); [|lia]. cbn [andb].
      destruct (inb i pass); cbn [negb]; [reflexivity|]. unfold close_any. apply upd_same.
    + assert (X : (if inb i pass then t else close_any t i) f = t f). { destruct (inb i pass); [reflexivity|]. unfold close_any. now apply upd_other. }
      rewrite X. destruct (Z.leb_spec (i + 1) f), (Z.ltb_spec f (i + 1 + Z.of_nat n)), (Z.leb_spec i f), (Z.ltb_spec f (i + Z.of_nat (S n))); try lia; reflexivity.
Qed.

(** ** C173 *)
(** For every combination of redirections on distinct descriptors above the
    standard ones: in the child, standard input, output and error are the files
    requested; the descriptors used for that are closed; and of the others
    exactly those to be passed stay open, on the files they were. *)
Theorem C173_child_descriptors_partial : forall fresh null t c close_fds max pass,
  (forall u : table, u (fresh u) = None /\ 0 <= fresh u) -> (forall k, 0 <= k <= 2 -> t k <> None) ->
  act (s_in c) <> STDOUT -> act (s_out c) <> STDOUT ->
  NoDup (all_used c) -> (forall x, In x (all_used c) -> 3 <= x /\ t x <> None) ->
  exists t', post_fork_child fresh null t c close_fds (Some max) pass = Ok t' /\
    t' 0 = wanted t null (s_in c) (rd (s_in c)) 0 None /\
    t' 1 = wanted t null (s_out c) (wr (s_out c)) 1 None /\
    t' 2 = wanted t null (s_err c) (wr (s_err c)) 2 (t' 1) /\
    (forall f, 3 <= f -> t' f = if inb f (all_used c) || close_fds && (f <? max) && negb (inb f pass) then None else t f).
Proof.
  intros fresh null t c close_fds max pass Fr St Ni No ND U. unfold post_fork_child, all_used in *.
  set (ui := used (s_in c) (rd (s_in c)) (wr (s_in c))) in *. set (uo := used (s_out c) (wr (s_out c)) (rd (s_out c))) in *. set (ue := used (s_err c) (wr (s_err c)) (rd (s_err c))) in *.
  assert (NDi : NoDup ui) by (eapply NoDup_app_l; exact ND). assert (ND2 : NoDup (uo ++ ue)) by (eapply NoDup_app_r; exact ND).
  assert (NDo : NoDup uo) by (eapply NoDup_app_l; exact ND2). assert (NDe : NoDup ue) by (eapply NoDup_app_r; exact ND2).
  assert (Dio : forall x, In x ui -> ~ In x (uo ++ ue)) by (intros x I; eapply NoDup_app_disjoint; eauto).
  assert (Doe : forall x, In x uo -> ~ In x ue) by (intros x I; eapply NoDup_app_disjoint; eauto).
  assert (NI : forall x l, ~ In x l -> inb x l = false). { intros x l N. destruct (inb x l) eqn:E; [|reflexivity]. apply inb_spec in E. contradiction. }
  assert (Std : forall k l, 0 <= k <= 2 -> (forall x, In x l -> 3 <= x) -> inb k l = false). { intros k l K L. apply NI. intros I. apply L in I. lia. }
  assert (Li : forall x, In x ui -> 3 <= x) by (intros x I; apply U; apply in_or_app; now left).
  assert (Lo : forall x, In x uo -> 3 <= x) by (intros x I; apply U; apply in_or_app; right; apply in_or_app; now left).
  assert (Le : forall x, In x ue -> 3 <= x) by (intros x I; apply U; apply in_or_app; right; apply in_or_app; now right).
  destruct (stream_ok fresh null t None (s_in c) (rd (s_in c)) (wr (s_in c)) 0 false Fr) as (t1 & dn1 & E1 & G1 & V1).
  { split; [intros d E; discriminate E|exact St]. }
  { lia. }
  { discriminate. }
  { intros X. congruence. }
  { exact NDi. }
  { intros x I. cbn [view]. apply U. apply in_or_app. now left. }
  rewrite E1. cbn [bind]. fold ui in V1. cbn [view] in V1.
  destruct (stream_ok fresh null t1 dn1 (s_out c) (wr (s_out c)) (rd (s_out c)) 1 false Fr) as (t2 & dn2 & E2 & G2 & V2).
  { exact G1. }
  { lia. }
  { discriminate. }
  { intros X. congruence. }
  { exact NDo. }
  { intros x I. fold uo in I. split; [auto|]. rewrite V1. specialize (Lo x I). destruct (Z.eqb_spec x 0); [lia|]. rewrite NI.
    - apply U. apply in_or_app. right. apply in_or_app. now left.
    - intros J. apply (Dio x J). apply in_or_app. now left. }
  rewrite E2. cbn [bind]. fold uo in V2.
  destruct (stream_ok fresh null t2 dn2 (s_err c) (wr (s_err c)) (rd (s_err c)) 2 true Fr) as (t3 & dn3 & E3 & G3 & V3).
  { exact G2. }
  { lia. }
  { reflexivity. }
  { reflexivity. }
  { exact NDe. }
  { intros x I. fold ue in I. split; [auto|]. rewrite V2. specialize (Le x I). destruct (Z.eqb_spec x 1); [lia|]. rewrite NI.
    - rewrite V1. destruct (Z.eqb_spec x 0); [lia|]. rewrite NI.
      + apply U. apply in_or_app. right. apply in_or_app. now right.
      + intros J. apply (Dio x J). apply in_or_app. now right.
    - intros J. now apply (Doe x J). }
  rewrite E3. cbn [bind]. fold ue in V3. eexists. split; [reflexivity|].
  set (t4 := match dn3 with Some fd => close_any t3 fd | None => t3 end).
  assert (E4 : forall i, t4 i = view t3 dn3 i) by (intros i; unfold t4, view, close_any; now destruct dn3).
  assert (Fin : forall i, (if close_fds then close_others (Some max) pass t4 else t4) i = if close_fds && (3 <=? i) && (i <? max) && negb (inb i pass) then None else view t3 dn3 i).
  { intros i. destruct close_fds; cbn [andb]; [|apply E4]. cbn [close_others]. rewrite close_from_spec, E4.
    destruct (Z.leb_spec 3 i); cbn [andb]; [|reflexivity]. destruct (Z.ltb_spec i (3 + Z.of_nat (Z.to_nat (max - 3)))), (Z.ltb_spec i max); try lia; reflexivity. }
  assert (F3 : forall k, 0 <= k <= 2 -> (if close_fds then close_others (Some max) pass t4 else t4) k = view t3 dn3 k).
  { intros k K. rewrite Fin. destruct (Z.leb_spec 3 k); [lia|]. now rewrite !andb_false_r. }
  assert (W1 : view t2 dn2 1 = wanted t null (s_out c) (wr (s_out c)) 1 None).
  { rewrite V2. cbn [Z.eqb Pos.eqb]. change (1 =? 1) with true. unfold wanted. destruct (act (s_out c)) eqn:A; try reflexivity; try congruence.
    - rewrite V1. destruct (Z.eqb_spec (wr (s_out c)) 0) as [X|_]; [exfalso; assert (3 <= wr (s_out c)) by (apply Lo; unfold uo, used; rewrite A; now left); lia|].
      rewrite NI; [reflexivity|]. intros J. apply (Dio _ J). apply in_or_app. left. unfold uo, used. rewrite A. now left.
    - rewrite V1. destruct (Z.eqb_spec (wr (s_out c)) 0) as [X|_]; [exfalso; assert (3 <= wr (s_out c)) by (apply Lo; unfold uo, used; rewrite A; now left); lia|].
      rewrite NI; [reflexivity|]. intros J. apply (Dio _ J). apply in_or_app. left. unfold uo, used. rewrite A. now left.
    - rewrite V1. change (1 =? 0) with false. rewrite Std; [reflexivity|lia|exact Li]. }
  rewrite !F3 by lia.
  assert (R1 : view t3 dn3 1 = view t2 dn2 1). { rewrite V3. change (1 =? 2) with false. rewrite Std; [reflexivity|lia|exact Le]. }
  split; [|split; [|split]].
  - rewrite V3. change (0 =? 2) with false. rewrite Std; [|lia|exact Le]. rewrite V2. change (0 =? 1) with false. rewrite Std; [|lia|exact Lo].
    rewrite V1. change (0 =? 0) with true. unfold wanted. destruct (act (s_in c)) eqn:A; try reflexivity. congruence.
  - now rewrite R1.
  - rewrite R1. rewrite V3. change (2 =? 2) with true. unfold wanted. destruct (act (s_err c)) eqn:A; try reflexivity.
    + rewrite V2. assert (3 <= wr (s_err c)) by (apply Le; unfold ue, used; rewrite A; now left). destruct (Z.eqb_spec (wr (s_err c)) 1); [lia|].
      assert (Ie : In (wr (s_err c)) ue) by (unfold ue, used; rewrite A; now left).
      rewrite NI by (intros J; now apply (Doe _ J)). rewrite V1. destruct (Z.eqb_spec (wr (s_err c)) 0); [lia|].
      rewrite NI; [reflexivity|]. intros J. apply (Dio _ J). apply in_or_app. now right.
    + rewrite V2. assert (3 <= wr (s_err c)) by (apply Le; unfold ue, used; rewrite A; now left). destruct (Z.eqb_spec (wr (s_err c)) 1); [lia|].
      assert (Ie : In (wr (s_err c)) ue) by (unfold ue, used; rewrite A; now left).
      rewrite NI by (intros J; now apply (Doe _ J)). rewrite V1. destruct (Z.eqb_spec (wr (s_err c)) 0); [lia|].
      rewrite NI; [reflexivity|]. intros J. apply (Dio _ J). apply in_or_app. now right.
    + rewrite V2. change (2 =? 1) with false. rewrite Std; [|lia|exact Lo]. rewrite V1. change (2 =? 0) with false. rewrite Std; [reflexivity|lia|exact Li].
  - intros f F. rewrite Fin. destruct (Z.leb_spec 3 f); [|lia]. rewrite andb_true_r. rewrite V3. destruct (Z.eqb_spec f 2); [lia|].
    rewrite V2. destruct (Z.eqb_spec f 1); [lia|]. rewrite V1. destruct (Z.eqb_spec f 0); [lia|].
    rewrite !inb_app. destruct (inb f ui), (inb f uo), (inb f ue), close_fds, (f <? max), (inb f pass); reflexivity.
Qed.
Print Assumptions C173_child_descriptors_partial.
(** The case used below: every kind of redirection at once. *)
Definition C173_child : child := mk_child (mk_stream PIPE 5 6) (fd_out 7) (set_action no_stream DEVNULL).
Definition C173_table : table := fun i => if (0 <=? i) && (i <? 9) then Some (100 + i) else None.
Definition C173_fresh (u : table) : Z := match u 9 with None => 9 | _ => 10 end.
Example C173_case : exists t', post_fork_child C173_fresh 55 C173_table C173_child true (Some 1024) [4] = Ok t' /\
  t' 0 = Some 105 /\ t' 1 = Some 107 /\ t' 2 = Some 55 /\ t' 3 = None /\ t' 4 = Some 104 /\ t' 5 = None /\ t' 6 = None /\ t' 9 = None.
Proof.
  eexists. split; [unfold post_fork_child; cbn [C173_child s_in s_out s_err fd_out set_action no_stream act rd wr child_stream]; reflexivity|].
  cbn [close_others]. rewrite !close_from_spec. repeat split.
Qed.
(** Sending standard output to standard error (set_stdout(2)), or standard error
    to standard output (set_stderr(1)), closes the stream it is sent to; sending a
    stream to itself closes it. *)
Theorem C173_refuted_standard_descriptors : forall fresh null t max pass f,
  (forall k, 0 <= k <= 2 -> t k <> None) -> 0 <= f <= 2 ->
  exists t', post_fork_child fresh null t (mk_child no_stream (fd_out f) no_stream) true (Some max) pass = Ok t' /\ t' f = None /\
    (f <> 1 -> t' 1 = t f).
Proof.
  intros fresh null t max pass f St F. unfold post_fork_child. cbn [s_in s_out s_err no_stream fd_out act rd wr child_stream bind].
  unfold redirect, dup2. destruct (t f) as [g|] eqn:E; [|exfalso; apply (St f); auto]. cbn [bind]. unfold close.
  assert (X : upd t 1 (Some g) f = Some g). { unfold upd. destruct (f =? 1); [reflexivity|exact E]. }
  rewrite X. cbn [bind]. eexists. split; [reflexivity|]. cbn [close_others]. rewrite !close_from_spec.
  destruct (Z.leb_spec 3 f); [lia|]. cbn [andb]. rewrite upd_same. split; [reflexivity|]. intros N. change (3 <=? 1) with false. cbn [andb].
  rewrite upd_other by congruence. apply upd_same.
Qed.
Print Assumptions C173_refuted_standard_descriptors.
(** The same descriptor for standard output and standard error: the child cannot
    be set up, and exits instead of running the program. *)
Theorem C173_refuted_shared_descriptor : forall fresh null t close_fds max pass f, 3 <= f ->
  post_fork_child fresh null t (mk_child no_stream (fd_out f) (fd_out f)) close_fds max pass = Throw.
Proof.
  intros fresh null t close_fds max pass f F. unfold post_fork_child. cbn [s_in s_out s_err no_stream fd_out act rd wr child_stream bind].
  unfold redirect, dup2. destruct (t f) as [g|] eqn:E; [|reflexivity]. cbn [bind]. unfold close.
  rewrite upd_other by lia. rewrite E. cbn [bind]. now rewrite upd_same.
Qed.
Print Assumptions C173_refuted_shared_descriptor.
(** Any descriptor to be passed implies closing the others. *)
Theorem C173_pass_implies_close : forall close_fds pass, effective_close close_fds pass = true <-> close_fds = true \/ pass <> [].
Proof. intros [] [|x l]; cbn; split; intros H; auto; try (right; discriminate); destruct H; congruence. Qed.
Print Assumptions C173_pass_implies_close.

(** ** C174: the descriptors of the parent. *)
Definition new_pipe (t : table) (s : stream) (a : option pipe_answer) : list Z :=
  match act s, a with PIPE, Some p => [p_rd p; p_wr p] | _, _ => [] end.
(** What the setters leave before fork: no parent end yet. *)
Definition not_forked (c : child) : Prop := wr (s_in c) = -1 /\ rd (s_out c) = -1 /\ rd (s_err c) = -1.
(** The parent ends: absent, or descriptors that were closed before. *)
Definition ends (t : table) (c : child) : Prop :=
  Forall (fun e => e = -1 \/ t e = None) [wr (s_in c); rd (s_out c); rd (s_err c)].
Definition only_pipes (c : child) : Prop :=
  (act (s_in c) <> PIPE -> wr (s_in c) = -1) /\ (act (s_out c) <> PIPE -> rd (s_out c) = -1) /\ (act (s_err c) <> PIPE -> rd (s_err c) = -1).
Definition covers (t : table) (tc : table * child) : Prop :=
  let '(u, c) := tc in ends t c /\ only_pipes c /\
  forall i, ~ In i [wr (s_in c); rd (s_out c); rd (s_err c)] -> u i = t i.
Lemma close_covers t w : t (-1) = None -> forall tc, covers t tc -> covers t (close_stream tc w).
Proof.
  intros T [u c] (E & O & C). unfold ends in E. inversion E as [|? ? Ei E1]; subst. inversion E1 as [|? ? Eo E2]; subst. inversion E2 as [|? ? Ee _]; subst.
  destruct O as (O1 & O2 & O3).
  assert (Nn : forall e, e = -1 \/ t e = None -> t e = None) by (intros e [->|X]; auto).
  destruct w; cbn [close_stream covers ends only_pipes s_in s_out s_err act rd wr].
  - split; [constructor; [now left|constructor; [exact Eo|constructor; [exact Ee|constructor]]]|]. split; [split; [reflexivity|split; assumption]|].
    intros i N. unfold close_any. destruct (Z.eq_dec i (wr (s_in c))) as [->|X]; [rewrite upd_same; symmetry; auto|]. rewrite upd_other by exact X.
    apply C. intros [I|[I|[I|[]]]]; subst; try congruence; apply N; cbn; auto.
  - split; [constructor; [exact Ei|constructor; [now left|constructor; [exact Ee|constructor]]]|]. split; [split; [assumption|split; [reflexivity|assumption]]|].
    intros i N. unfold close_any. destruct (Z.eq_dec i (rd (s_out c))) as [->|X]; [rewrite upd_same; symmetry; auto|]. rewrite upd_other by exact X.
    apply C. intros [I|[I|[I|[]]]]; subst; try congruence; apply N; cbn; auto.
  - split; [constructor; [exact Ei|constructor; [exact Eo|constructor; [now left|constructor]]]|]. split; [split; [assumption|split; [assumption|reflexivity]]|].
    intros i N. unfold close_any. destruct (Z.eq_dec i (rd (s_err c))) as [->|X]; [rewrite upd_same; symmetry; auto|]. rewrite upd_other by exact X.
    apply C. intros [I|[I|[I|[]]]]; subst; try congruence; apply N; cbn; auto.
Qed.
Lemma destroy_end_spec t u a e : (e = -1 \/ t e = None) -> (a <> PIPE -> e = -1) -> t (-1) = None ->
  forall l, (forall i, ~ In i (e :: l) -> u i = t i) -> (u (-1) = None) -> forall i, ~ In i l -> destroy_end u a e i = t i.
Proof.
  intros E A T l C U i N. unfold destroy_end.
  assert (Z0 : e = -1 -> u i = t i). { intros ->. destruct (Z.eq_dec i (-1)) as [->|X]; [congruence|]. apply C. intros [I|I]; [congruence|contradiction]. }
  destruct a; try (apply Z0, A; discriminate). destruct (Z.eqb_spec e (-1)); [now apply Z0|]. unfold close_any.
  destruct (Z.eq_dec i e) as [->|X]; [rewrite upd_same; destruct E; [contradiction|now symmetry]|]. rewrite upd_other by exact X. apply C. intros [I|I]; [congruence|contradiction].
Qed.
Lemma destroy_end_m1 u a e : u (-1) = None -> destroy_end u a e (-1) = None.
Proof. intros U. unfold destroy_end. destruct a; try exact U. destruct (Z.eqb_spec e (-1)); [exact U|]. unfold close_any. rewrite upd_other by congruence. exact U. Qed.
Lemma destroy_covers t u c : t (-1) = None -> u (-1) = None -> covers t (u, c) -> forall i, destroy u c i = t i.
Proof.
  intros T U (E & (O1 & O2 & O3) & C) i. unfold ends in E. inversion E as [|? ? Ei E1]; subst. inversion E1 as [|? ? Eo E2]; subst. inversion E2 as [|? ? Ee _]; subst.
  unfold destroy. eapply (destroy_end_spec t _ _ _ Ee O3 T []); [|now apply destroy_end_m1, destroy_end_m1|intros []].
  intros j N. eapply (destroy_end_spec t _ _ _ Eo O2 T [rd (s_err c)]); [|now apply destroy_end_m1|exact N].
  intros k N'. eapply (destroy_end_spec t _ _ _ Ei O1 T [rd (s_out c); rd (s_err c)]); [exact C|exact U|exact N'].
Qed.
Lemma close_m1 w : forall tc, fst tc (-1) = None -> fst (close_stream tc w) (-1) = None.
Proof.
  intros [u c] U. cbn [fst] in U. destruct w; cbn [close_stream fst]; unfold close_any; match goal with |- upd u ?e None (-1) = None => destruct (Z.eq_dec (-1) e) as [<-|X]; [apply upd_same|now rewrite upd_other by exact X] end.
Qed.
Definition new_pipes (t : table) (c : child) (a b e : option pipe_answer) : list Z :=
  new_pipe t (s_in c) a ++ new_pipe t (s_out c) b ++ new_pipe t (s_err c) e.
Definition pipes_given (c : child) (a b e : option pipe_answer) : Prop :=
  (act (s_in c) = PIPE -> a <> None) /\ (act (s_out c) = PIPE -> b <> None) /\ (act (s_err c) = PIPE -> e <> None).
Lemma make_pipe_spec t s a : (act s = PIPE -> a <> None) -> exists t1 s1, make_pipe t s a = (t1, s1, true) /\ act s1 = act s /\
  (forall i, ~ In i (new_pipe t s a) -> t1 i = t i) /\ (forall i, In i (new_pipe t s a) -> t1 i <> None) /\
  (act s = PIPE -> new_pipe t s a = [rd s1; wr s1]) /\ (act s <> PIPE -> s1 = s).
Proof.
  intros G. unfold make_pipe, new_pipe. destruct (act s) eqn:A; try (exists t, s; split; [reflexivity|split; [easy|split; [reflexivity|split; [intros i []|split; [discriminate|reflexivity]]]]]).
  destruct a as [p|]; [|now exfalso; apply (G eq_refl)]. eexists _, _. split; [reflexivity|]. cbn [act rd wr In]. split; [reflexivity|]. split; [|split; [|split; [reflexivity|congruence]]].
  - intros i N. rewrite !upd_other by (intros ->; tauto). reflexivity.
  - intros i I. unfold upd. destruct (i =? p_wr p) eqn:Q; [discriminate|]. destruct (i =? p_rd p) eqn:R; [discriminate|]. lia.
Qed.
Lemma parent_in_spec t s : (act s = PIPE -> t (rd s) <> None) -> exists t1 s1, parent_in t s = Ok (t1, s1) /\ act s1 = act s /\ wr s1 = wr s /\
  (forall i, t1 i = if match act s with PIPE => i =? rd s | _ => false end then None else t i).
Proof.
  intros G. unfold parent_in, close. destruct (act s) eqn:A; try (exists t, s; now repeat split).
  destruct (t (rd s)) eqn:E; [|now exfalso; apply (G eq_refl)]. cbn [bind]. eexists _, _. split; [reflexivity|]. cbn [act wr]. repeat split.
Qed.
Lemma parent_out_spec t s : (act s = PIPE -> t (wr s) <> None) -> exists t1 s1, parent_out t s = Ok (t1, s1) /\ act s1 = act s /\ rd s1 = rd s /\
  (forall i, t1 i = if match act s with PIPE => i =? wr s | _ => false end then None else t i).
Proof.
  intros G. unfold parent_out, close. destruct (act s) eqn:A; try (exists t, s; now repeat split).
  destruct (t (wr s)) eqn:E; [|now exfalso; apply (G eq_refl)]. cbn [bind]. eexists _, _. split; [reflexivity|]. cbn [act rd]. repeat split.
Qed.
Lemma NoDup_apart {A} (l m : list A) x : NoDup (l ++ m) -> In x l -> In x m -> False.
Proof. induction l as [|y l IH]; intros ND I J; [destruct I|]. cbn in ND. inversion ND as [|? ? N ND']; subst. destruct I as [->|I]; [apply N, in_or_app; now right|now apply IH]. Qed.
Lemma fork_covers t c a b e : t (-1) = None -> not_forked c -> pipes_given c a b e ->
  NoDup (new_pipes t c a b e) -> (forall x, In x (new_pipes t c a b e) -> t x = None /\ x <> -1) ->
  exists u c', fork_parent t c a b e true = (u, c', true) /\ covers t (u, c') /\ u (-1) = None.
Proof.
  intros T (Ni & No & Ne) (Gi & Go & Ge) ND U. unfold new_pipes in ND, U.
  assert (W : forall t' t'' s x, new_pipe t' s x = new_pipe t'' s x) by reflexivity.
  unfold fork_parent, pre_fork.
  destruct (make_pipe_spec t (s_in c) a Gi) as (t1 & i1 & E1 & A1 & F1 & P1 & Q1 & R1). rewrite E1. cbn [negb].
  destruct (make_pipe_spec t1 (s_out c) b Go) as (t2 & o1 & E2 & A2 & F2 & P2 & Q2 & R2). rewrite E2. cbn [negb].
  destruct (make_pipe_spec t2 (s_err c) e Ge) as (t3 & e1 & E3 & A3 & F3 & P3 & Q3 & R3). rewrite E3. cbn [negb].
  rewrite (W t1 t) in *. rewrite (W t2 t) in *.
  assert (Zi : act (s_in c) <> PIPE -> new_pipe t (s_in c) a = []) by (unfold new_pipe; now destruct (act (s_in c))).
  assert (Zo : act (s_out c) <> PIPE -> new_pipe t (s_out c) b = []) by (unfold new_pipe; now destruct (act (s_out c))).
  assert (Ze : act (s_err c) <> PIPE -> new_pipe t (s_err c) e = []) by (unfold new_pipe; now destruct (act (s_err c))).
  set (li := new_pipe t (s_in c) a) in *. set (lo := new_pipe t (s_out c) b) in *. set (le := new_pipe t (s_err c) e) in *. clearbody li lo le.
  assert (O3 : forall x, In x (li ++ lo ++ le) -> t3 x <> None).
  { intros x I. destruct (in_dec Z.eq_dec x le) as [J|J]; [now apply P3|]. rewrite F3 by exact J. destruct (in_dec Z.eq_dec x lo) as [K|K]; [now apply P2|].
    rewrite F2 by exact K. apply P1. apply in_app_or in I as [I|I]; [exact I|]. apply in_app_or in I as [I|I]; contradiction. }
  assert (N3 : forall x, ~ In x (li ++ lo ++ le) -> t3 x = t x).
  { intros x I. rewrite F3, F2, F1; [reflexivity| | |]; intros J; apply I, in_or_app; [now left|right; apply in_or_app; now left|right; apply in_or_app; now right]. }
  clear F1 F2 F3 P1 P2 P3 E1 E2 E3 W.
  unfold post_fork_parent. cbn [s_in s_out s_err].
  destruct (parent_in_spec t3 i1) as (t4 & i2 & E4 & A4 & W4 & F4).
  { intros X. apply O3, in_or_app. left. rewrite Q1 by congruence. now left. }
  rewrite E4. cbn [bind].
  destruct (parent_out_spec t4 o1) as (t5 & o2 & E5 & A5 & W5 & F5).
  { intros X. assert (I : In (wr o1) lo) by (rewrite Q2 by congruence; right; now left). rewrite F4.
    assert (N : match act i1 with PIPE => wr o1 =? rd i1 | _ => false end = false).
    { destruct (act i1) eqn:B; try reflexivity. apply Z.eqb_neq. intros Y. apply (NoDup_apart _ _ (wr o1) ND); [rewrite Y, Q1 by congruence; now left|apply in_or_app; now left]. }
    rewrite N. apply O3, in_or_app. right. apply in_or_app. now left. }
  rewrite E5. cbn [bind].
  destruct (parent_out_spec t5 e1) as (t6 & e2 & E6 & A6 & W6 & F6).
  { intros X. assert (I : In (wr e1) le) by (rewrite Q3 by congruence; right; now left). rewrite F5, F4.
    assert (N : match act i1 with PIPE => wr e1 =? rd i1 | _ => false end = false).
    { destruct (act i1) eqn:B; try reflexivity. apply Z.eqb_neq. intros Y. apply (NoDup_apart _ _ (wr e1) ND); [rewrite Y, Q1 by congruence; now left|apply in_or_app; now right]. }
    assert (M : match act o1 with PIPE => wr e1 =? wr o1 | _ => false end = false).
    { destruct (act o1) eqn:B; try reflexivity. apply Z.eqb_neq. intros Y. apply (NoDup_apart lo le (wr e1)); [|rewrite Y, Q2 by congruence; right; now left|exact I].
      clear -ND. induction li as [|y l IH]; [exact ND|]. apply IH. now inversion ND. }
    rewrite M, N. apply O3, in_or_app. right. apply in_or_app. now right. }
  rewrite E6. cbn [bind]. exists t6, (mk_child i2 o2 e2). split; [reflexivity|].
  assert (PE : forall x : action, x = PIPE \/ x <> PIPE) by (intros []; auto; right; discriminate).
  assert (Hi : act (s_in c) <> PIPE -> wr i2 = -1) by (intros X; rewrite W4, R1 by exact X; exact Ni).
  assert (Ho : act (s_out c) <> PIPE -> rd o2 = -1) by (intros X; rewrite W5, R2 by exact X; exact No).
  assert (He : act (s_err c) <> PIPE -> rd e2 = -1) by (intros X; rewrite W6, R3 by exact X; exact Ne).
  assert (Ui : act (s_in c) = PIPE -> t (rd i1) = None /\ t (wr i1) = None) by (intros X; split; apply U, in_or_app; left; rewrite Q1 by exact X; cbn; auto).
  assert (Uo : act (s_out c) = PIPE -> t (rd o1) = None /\ t (wr o1) = None) by (intros X; split; apply U, in_or_app; right; apply in_or_app; left; rewrite Q2 by exact X; cbn; auto).
  assert (Ue : act (s_err c) = PIPE -> t (rd e1) = None /\ t (wr e1) = None) by (intros X; split; apply U, in_or_app; right; apply in_or_app; right; rewrite Q3 by exact X; cbn; auto).
  assert (M1 : t3 (-1) = None). { rewrite N3; [exact T|]. intros I. destruct (U _ I) as [_ Y]. now apply Y. }
  split; [split; [|split]|].
  - unfold ends. cbn [s_in s_out s_err].
    constructor; [destruct (PE (act (s_in c))) as [X|X]; [right; rewrite W4; now apply Ui|left; now apply Hi]|].
    constructor; [destruct (PE (act (s_out c))) as [X|X]; [right; rewrite W5; now apply Uo|left; now apply Ho]|].
    constructor; [destruct (PE (act (s_err c))) as [X|X]; [right; rewrite W6; now apply Ue|left; now apply He]|constructor].
  - unfold only_pipes. cbn [s_in s_out s_err]. rewrite A4, A1, A5, A2, A6, A3. now split; [|split].
  - cbn [s_in s_out s_err In]. intros i N. rewrite F6, F5, F4, A1, A2, A3.
    destruct (in_dec Z.eq_dec i (li ++ lo ++ le)) as [I|I].
    + rewrite (proj1 (U i I)).
      apply in_app_or in I as [I|I]; [|apply in_app_or in I as [I|I]].
      * destruct (PE (act (s_in c))) as [X|X]; [|rewrite Zi in I by exact X; destruct I].
        rewrite Q1 in I by exact X. rewrite X. destruct I as [<-|[<-|[]]]; [|exfalso; apply N; left; exact W4]. rewrite Z.eqb_refl.
        repeat match goal with |- (if ?b then _ else _) = None => destruct b; [reflexivity|] end; reflexivity.
      * destruct (PE (act (s_out c))) as [X|X]; [|rewrite Zo in I by exact X; destruct I].
        rewrite Q2 in I by exact X. rewrite X. destruct I as [<-|[<-|[]]]; [exfalso; apply N; right; left; exact W5|]. rewrite Z.eqb_refl.
        repeat match goal with |- (if ?b then _ else _) = None => destruct b; [reflexivity|] end; reflexivity.
      * destruct (PE (act (s_err c))) as [X|X]; [|rewrite Ze in I by exact X; destruct I].
        rewrite Q3 in I by exact X. rewrite X. destruct I as [<-|[<-|[]]]; [exfalso; apply N; right; right; left; exact W6|]. now rewrite Z.eqb_refl.
    + assert (Xi : match act (s_in c) with PIPE => i =? rd i1 | _ => false end = false).
      { destruct (act (s_in c)) eqn:B; try reflexivity. apply Z.eqb_neq. intros ->. apply I, in_or_app. left. rewrite Q1 by first [exact B|reflexivity]. now left. }
      assert (Xo : match act (s_out c) with PIPE => i =? wr o1 | _ => false end = false).
      { destruct (act (s_out c)) eqn:B; try reflexivity. apply Z.eqb_neq. intros ->. apply I, in_or_app. right. apply in_or_app. left. rewrite Q2 by first [exact B|reflexivity]. right. now left. }
      assert (Xe : match act (s_err c) with PIPE => i =? wr e1 | _ => false end = false).
      { destruct (act (s_err c)) eqn:B; try reflexivity. apply Z.eqb_neq. intros ->. apply I, in_or_app. right. apply in_or_app. right. rewrite Q3 by first [exact B|reflexivity]. right. now left. }
      rewrite Xi, Xo, Xe. now apply N3.
  - rewrite F6, F5, F4, M1. repeat match goal with |- (if ?b then _ else _) = None => destruct b; [reflexivity|] end; reflexivity.
Qed.
(** Whatever the redirections, and whichever pipe ends the program closes
    meanwhile, and how often: once the object is destroyed the parent has exactly
    the open descriptors it had before. *)
Theorem C174_parent_descriptors_partial : forall t c a b e ops, t (-1) = None -> not_forked c -> pipes_given c a b e ->
  NoDup (new_pipes t c a b e) -> (forall x, In x (new_pipes t c a b e) -> t x = None /\ x <> -1) ->
  exists u c', fork_parent t c a b e true = (u, c', true) /\
    let '(u', c'') := fold_left close_stream ops (u, c') in forall i, destroy u' c'' i = t i.
Proof.
  intros t c a b e ops T NF G ND U. destruct (fork_covers t c a b e T NF G ND U) as (u & c' & E & C & M). exists u, c'. split; [exact E|].
  assert (X : forall ops tc, covers t tc -> fst tc (-1) = None -> covers t (fold_left close_stream ops tc) /\ fst (fold_left close_stream ops tc) (-1) = None).
  { induction ops0 as [|w l IH]; intros tc Ct Mt; [split; assumption|]. cbn [fold_left]. apply IH; [now apply close_covers|now apply close_m1]. }
  destruct (X ops (u, c') C M) as [C' M']. destruct (fold_left close_stream ops (u, c')) as [u' c'']. intros i. now apply destroy_covers.
Qed.
Print Assumptions C174_parent_descriptors_partial.
(** When the process cannot be created, the child's end of every pipe stays open
    in the parent for ever. *)
Theorem C174_refuted_failed_fork : forall t p, t (-1) = None -> t (p_rd p) = None -> t (p_wr p) = None -> p_rd p <> p_wr p -> p_wr p <> -1 ->
  let '(u, c, ok) := fork_parent t (mk_child (set_action no_stream PIPE) no_stream no_stream) (Some p) None None false in
  ok = false /\ destroy u c (p_rd p) = Some (p_rfile p) /\ t (p_rd p) = None.
Proof.
  intros t p T R W N M. cbn. destruct (Z.eqb_spec (p_wr p) (-1)); [contradiction|]. split; [reflexivity|]. split; [|exact R].
  unfold close_any. rewrite upd_other by exact N. rewrite upd_other by exact N. apply upd_same.
Qed.
Print Assumptions C174_refuted_failed_fork.
Example C174_case : exists u c', fork_parent C173_table (mk_child (set_action no_stream PIPE) (set_action no_stream PIPE) no_stream)
    (Some (mk_pipe 9 10 200 201)) (Some (mk_pipe 11 12 202 203)) None true = (u, c', true) /\
  u 9 = None /\ u 10 = Some 201 /\ u 11 = Some 202 /\ u 12 = None /\ destroy u c' 10 = None /\ wr (s_in c') = 10.
Proof. eexists _, _. split; [reflexivity|]. repeat split. Qed.

(** ** C175: waiting. *)
(** The status words of wait(2): a normal exit, or death by a signal. *)
Definition exited (raw code : Z) : Prop := 0 <= code < 256 /\ raw = code * 256.
Definition killed (raw sig : Z) (core : bool) : Prop := 1 <= sig <= 126 /\ raw = sig + (if core then 128 else 0).
Lemma exit_word raw code : exited raw code -> WEXITSTATUS raw = code /\ WTERMSIG raw = 0 /\ Z.land raw 128 = 0.
Proof.
  intros [R ->]. unfold WEXITSTATUS, WTERMSIG. rewrite Z.shiftr_div_pow2 by lia. change (2 ^ 8) with 256. rewrite Z.div_mul by lia.
  change 255 with (Z.ones 8). rewrite Z.land_ones by lia. change 127 with (Z.ones 7). rewrite Z.land_ones by lia.
  split; [apply Z.mod_small; exact R|]. split; [change (2 ^ 7) with 128; lia|].
  apply Z.bits_inj'. intros n Hn. rewrite Z.land_spec, Z.bits_0. change 128 with (2 ^ 7). rewrite Z.pow2_bits_eqb by lia. destruct (Z.eqb_spec 7 n); [|apply andb_false_r].
  subst. change 256 with (2 ^ 8). rewrite Z.mul_pow2_bits_low by lia. reflexivity.
Qed.
Lemma kill_word raw sig core : killed raw sig core -> WEXITSTATUS raw = 0 /\ WTERMSIG raw = sig /\ (Z.land raw 128 =? 0) = negb core.
Proof.
  intros [R E]. assert (B : forall k, 1 <= k < 127 -> forall c : bool, let w := k + (if c then 128 else 0) in
    WEXITSTATUS w = 0 /\ WTERMSIG w = k /\ (Z.land w 128 =? 0) = negb c).
  { clear. intros k K c w. assert (W : 0 <= w < 256) by (unfold w; destruct c; lia). unfold WEXITSTATUS, WTERMSIG. rewrite Z.shiftr_div_pow2 by lia. change (2 ^ 8) with 256.
    rewrite Z.div_small by exact W. split; [reflexivity|]. change 127 with (Z.ones 7). rewrite Z.land_ones by lia. change (2 ^ 7) with 128. split; [unfold w; destruct c; lia|].
    assert (Q : Z.land w 128 = if c then 128 else 0).
    { apply Z.bits_inj'. intros n Hn. rewrite Z.land_spec. change 128 with (2 ^ 7) at 1. rewrite Z.pow2_bits_eqb by lia. 
      assert (T7 : Z.testbit w 7 = c). { rewrite Z.testbit_odd, Z.shiftr_div_pow2 by lia. change (2 ^ 7) with 128. replace (w / 128) with (if c then 1 else 0) by (unfold w; destruct c; lia). now destruct c. }
      destruct (Z.eqb_spec 7 n) as [<-|X].
      - rewrite T7. destruct c; reflexivity.
      - rewrite andb_false_r. destruct c; [|now rewrite Z.bits_0]. change 128 with (2 ^ 7). rewrite Z.pow2_bits_eqb by lia. destruct (Z.eqb_spec 7 n); congruence. }
    rewrite Q. destruct c; reflexivity. }
  rewrite E. apply B. lia.
Qed.
(** A child that exits reports its code: wait() returns it, and so does
    returncode() after wait() or poll(). *)
Theorem C175_exit_code_partial : forall pid raw0 raw code, pid <> 0 -> exited raw code ->
  let p := mk_proc pid raw0 false in let p' := mk_proc pid raw true in
  wait p (Some raw) = Ok (code, p') /\ poll p (WStatus raw) = Ok (true, p') /\ poll p WRunning = Ok (false, p) /\
  returncode p' = code /\ wait p' None = Ok (code, p') /\ (forall w, poll p' w = Ok (true, p')).
Proof.
  intros pid raw0 raw code P E p p'. destruct (exit_word _ _ E) as (X & _ & _). unfold wait, poll, returncode, p, p'. cbn [m_pid m_terminated m_raw].
  destruct (Z.eqb_spec pid 0); [contradiction|]. rewrite X. repeat split.
Qed.
Print Assumptions C175_exit_code_partial.
Example C175_case : exited 768 3 /\ killed 9 9 false /\ killed 139 11 true.
Proof. unfold exited, killed. lia. Qed.
(** Waiting with a time limit for a child not yet collected: true exactly when the
    child was found to have ended, and then its status is kept; false exactly when
    it was still running after the time was used up. *)
Definition ran_out (msecs : Z) (l : list (wait_answer * sleep_answer)) : Prop :=
  exists l1 s l2, l = l1 ++ (WRunning, s) :: l2 /\ Forall (fun x => fst x = WRunning) l1 /\
    match rev l1 with [] => msecs = 0 | (_, SElapsed) :: _ => True | (_, SInterrupted r) :: _ => r = 0 | (_, SError) :: _ => False end.
Definition found (raw : Z) (l : list (wait_answer * sleep_answer)) : Prop :=
  exists l1 s l2, l = l1 ++ (WStatus raw, s) :: l2 /\ Forall (fun x => fst x = WRunning) l1.
Lemma wait_loop_true p : forall l tmo z p', wait_loop p tmo l = (z, Ok (true, p')) -> exists raw, found raw l /\ p' = mk_proc (m_pid p) raw true.
Proof.
  induction l as [|[w s] l IH]; intros tmo z p' H; [discriminate|]. cbn [wait_loop] in H. destruct w; try discriminate.
  - destruct (tmo =? 0); [discriminate|]. destruct s; try discriminate; destruct (wait_loop p _ l) as [z' o] eqn:W; apply pair_equal_spec in H as [_ ->]; destruct (IH _ _ _ W) as (raw & (l1 & s' & l2 & -> & F) & E);
      (exists raw; split; [|exact E]; eexists (_ :: l1), s', l2; split; [reflexivity|constructor; [reflexivity|exact F]]).
  - apply pair_equal_spec in H as [_ H]. apply Ok_inj in H. apply pair_equal_spec in H as [_ <-]. exists raw. split; [|reflexivity]. exists [], s, l. split; [reflexivity|constructor].
Qed.
Lemma wait_loop_false p : forall l tmo z p', wait_loop p tmo l = (z, Ok (false, p')) -> p' = p /\
  exists l1 s l2, l = l1 ++ (WRunning, s) :: l2 /\ Forall (fun x => fst x = WRunning) l1 /\
    match rev l1 with [] => tmo = 0 | (_, SElapsed) :: _ => True | (_, SInterrupted r) :: _ => r = 0 | (_, SError) :: _ => False end.
Proof.
  induction l as [|[w s] l IH]; intros tmo z p' H; [discriminate|]. cbn [wait_loop] in H. destruct w; try discriminate.
  destruct (Z.eqb_spec tmo 0) as [->|T].
  - apply pair_equal_spec in H as [_ H]. apply Ok_inj in H. apply pair_equal_spec in H as [_ <-]. split; [reflexivity|]. exists [], s, l. repeat split. constructor.
  - destruct s; try discriminate; destruct (wait_loop p _ l) as [z' o] eqn:W; apply pair_equal_spec in H as [_ ->]; destruct (IH _ _ _ W) as (E & l1 & s' & l2 & -> & F & X); (split; [exact E|]; eexists (_ :: l1), s', l2;
      split; [reflexivity|]; split; [constructor; [reflexivity|exact F]|]; cbn [rev]; destruct (rev l1) as [|y r]; cbn [app]; [|exact X]); auto.
Qed.
Theorem C175_time_limit_partial : forall pid raw0 msecs l z b p', pid <> 0 -> wait_ms (mk_proc pid raw0 false) msecs l = (z, Ok (b, p')) ->
  (b = true <-> exists raw, found raw l /\ p' = mk_proc pid raw true) /\ (b = false -> ran_out msecs l /\ p' = mk_proc pid raw0 false).
Proof.
  intros pid raw0 msecs l z b p' P H. unfold wait_ms in H. cbn [m_pid m_terminated] in H. destruct (Z.eqb_spec pid 0); [contradiction|]. destruct b.
  - destruct (wait_loop_true _ _ _ _ _ H) as (raw & F & E). split; [|discriminate]. split; [exists raw; now split|reflexivity].
  - destruct (wait_loop_false _ _ _ _ _ H) as (E & l1 & s & l2 & L & F & X). split.
    + split; [discriminate|]. intros (raw & _ & Y). rewrite Y in E. discriminate.
    + intros _. split; [|exact E]. exists l1, s, l2. split; [exact L|]. split; [exact F|]. destruct (rev l1) as [|[? []] ?]; auto. pose proof (Z.quot_rem' msecs 1000). lia.
Qed.
Print Assumptions C175_time_limit_partial.
(** The sleeps add up to the limit: the first is asked for all of it, and each
    later one for what the interrupted one before it left. *)
Inductive sleeps : Z -> list Z -> list (wait_answer * sleep_answer) -> Prop :=
| no_sleep : forall t l, sleeps t [] l
| sleep_once : forall t w s l, t <> 0 -> s = SElapsed \/ s = SError -> sleeps t [t] ((w, s) :: l)
| sleep_on : forall t w r z l, t <> 0 -> sleeps r z l -> sleeps t (t :: z) ((w, SInterrupted r) :: l).
Theorem C175_sleeps : forall pid raw0 msecs l z o, pid <> 0 -> wait_ms (mk_proc pid raw0 false) msecs l = (z, o) ->
  sleeps (msecs * 1000000) z l /\ (forall p', o = Ok (false, p') -> msecs <> 0 -> exists z', z = msecs * 1000000 :: z').
Proof.
  intros pid raw0 msecs l z o P H. unfold wait_ms in H. cbn [m_pid m_terminated] in H. destruct (Z.eqb_spec pid 0); [contradiction|].
  replace (Z.quot msecs 1000 * 1000000000 + Z.rem msecs 1000 * 1000000) with (msecs * 1000000) in H by (pose proof (Z.quot_rem' msecs 1000); lia). split.
  - revert z o H. generalize (msecs * 1000000) as t. induction l as [|[w s] l IH]; intros t z o H; cbn [wait_loop] in H; [apply pair_equal_spec in H as [<- _]; constructor|].
    destruct w; try (apply pair_equal_spec in H as [<- _]; constructor). destruct (Z.eqb_spec t 0); [apply pair_equal_spec in H as [<- _]; constructor|].
    destruct s.
    + destruct l as [|[w' s'] l]; cbn [wait_loop Z.eqb] in H; [|destruct w']; apply pair_equal_spec in H as [<- _]; apply sleep_once; auto.
    + destruct (wait_loop _ rest l) as [z' o'] eqn:W. apply pair_equal_spec in H as [<- _]. apply sleep_on; [assumption|]. now apply (IH _ _ _ W).
    + apply pair_equal_spec in H as [<- _]. apply sleep_once; auto.
  - intros p' -> M. destruct l as [|[[] s] l]; cbn [wait_loop] in H; try discriminate. destruct (Z.eqb_spec (msecs * 1000000) 0); [lia|].
    destruct (match s with SElapsed => _ | SInterrupted _ => _ | SError => _ end) as [z' o']. apply pair_equal_spec in H as [<- _]. eauto.
Qed.
Print Assumptions C175_sleeps.
Example C175_time_limit_case : wait_ms (mk_proc 7 0 false) 100 [(WRunning, SInterrupted 5000); (WStatus 768, SElapsed)] = ([100000000], Ok (true, mk_proc 7 768 true)) /\
  wait_ms (mk_proc 7 0 false) 1100 [(WRunning, SInterrupted 5000); (WRunning, SElapsed); (WRunning, SElapsed)] = ([1100000000; 5000], Ok (false, mk_proc 7 0 false)).
Proof. now split. Qed.
(** Asked again about a child that already exited with code 0, the same call says
    that it did not exit. *)
Theorem C175_refuted_success_is_false : forall pid raw msecs l, pid <> 0 -> exited raw 0 ->
  wait_ms (mk_proc pid raw true) msecs l = ([], Ok (false, mk_proc pid raw true)).
Proof.
  intros pid raw msecs l P E. destruct (exit_word _ _ E) as (X & _ & _). unfold wait_ms, returncode. cbn [m_pid m_terminated m_raw].
  destruct (Z.eqb_spec pid 0); [contradiction|]. now rewrite X.
Qed.
Print Assumptions C175_refuted_success_is_false.
(** A child killed by a signal reports code 0, the code of success. *)
Theorem C175_refuted_killed_is_success : forall pid raw0 raw sig core, pid <> 0 -> killed raw sig core ->
  wait (mk_proc pid raw0 false) (Some raw) = Ok (0, mk_proc pid raw true) /\ returncode (mk_proc pid raw true) = 0.
Proof.
  intros pid raw0 raw sig core P K. destruct (kill_word _ _ _ K) as (X & _ & _). unfold wait, returncode. cbn [m_pid m_terminated m_raw].
  destruct (Z.eqb_spec pid 0); [contradiction|]. now rewrite X.
Qed.
Print Assumptions C175_refuted_killed_is_success.
(** Signals go to the child once it is started; before that they go to the
    calling program and its whole process group. *)
Theorem C175_signals_partial : forall p, m_pid p <> 0 -> send_signal p = Process (m_pid p).
Proof. intros p P. unfold send_signal. now destruct (Z.eqb_spec (m_pid p) 0). Qed.
Print Assumptions C175_signals_partial.
Theorem C175_refuted_unstarted : forall raw b, send_signal (mk_proc 0 raw b) = OwnGroup.
Proof. reflexivity. Qed.
Print Assumptions C175_refuted_unstarted.

(** ** C176: the outcome in words. *)
Theorem C176_texts : (forall raw, exited raw 0 -> format_raw_returncode raw = codes "terminated successfully") /\
  (forall raw code, exited raw code -> code <> 0 -> exists n, plain_number n code /\ format_raw_returncode raw = codes "exited with code " ++ n) /\
  (forall raw sig core, killed raw sig core -> exists n, plain_number n sig /\
     format_raw_returncode raw = codes "was interrupted, killed by signal " ++ n ++ (if core then codes " (core dumped)" else [])).
Proof.
  unfold format_raw_returncode, WIFEXITED. split; [|split].
  - intros raw E. destruct (exit_word _ _ E) as (X & Y & _). rewrite X, Y. reflexivity.
  - intros raw code E N. destruct (exit_word _ _ E) as (X & Y & _). rewrite X, Y. destruct (Z.eqb_spec code 0); [contradiction|]. cbn [Z.eqb].
    exists (print code). split; [apply print_plain; destruct E; lia|reflexivity].
  - intros raw sig core K. destruct (kill_word _ _ _ K) as (X & Y & W). destruct K as [K _]. unfold WIFSIGNALED. rewrite Y, W.
    destruct (Z.eqb_spec sig 0); [lia|]. destruct (Z.leb_spec 1 sig); [|lia]. destruct (Z.leb_spec sig 126); [|lia]. cbn [andb].
    exists (print sig). split; [apply print_plain; lia|]. now destruct core.
Qed.
Print Assumptions C176_texts.
(** The text tells outcomes apart. *)
Definition outcome_word (raw : Z) : Prop := (exists code, exited raw code) \/ (exists sig core, killed raw sig core).
Theorem C176_distinct : forall raw raw', outcome_word raw -> outcome_word raw' -> format_raw_returncode raw = format_raw_returncode raw' -> raw = raw'.
Proof.
  destruct C176_texts as (T0 & Tn & Tk).
  assert (D : forall n, Forall digit n -> filter (fun c => (48 <=? c) && (c <=? 57)) n = n).
  { induction n as [|c n IH]; intros F; [reflexivity|]. inversion F as [|? ? Dc F']; subst. unfold digit in Dc. cbn [filter]. destruct (Z.leb_spec 48 c), (Z.leb_spec c 57); try lia. cbn [andb]. f_equal. now apply IH. }
  assert (Tail : forall n m (b d : bool), Forall digit n -> Forall digit m ->
    n ++ (if b then codes " (core dumped)" else []) = m ++ (if d then codes " (core dumped)" else []) -> n = m /\ b = d).
  { intros n m b d Fn Fm E. assert (X : n = m).
    { apply (f_equal (filter (fun c => (48 <=? c) && (c <=? 57)))) in E. rewrite !filter_app, (D n Fn), (D m Fm) in E. destruct b, d; cbn in E; rewrite !app_nil_r in E; exact E. }
    subst m. split; [reflexivity|]. apply app_inv_head in E. destruct b, d; try reflexivity; discriminate. }
  assert (Same : forall n a b, plain_number n a -> plain_number n b -> a = b) by (intros n a b (_ & _ & -> & _) (_ & _ & -> & _); reflexivity).
  intros raw raw' W W' E.
  assert (Cases : forall r, outcome_word r -> (exited r 0 \/ (exists c, exited r c /\ c <> 0)) \/ exists sig core, killed r sig core).
  { intros r [(c & X)|X]; [left|now right]. destruct (Z.eq_dec c 0) as [->|N]; [now left|right; exists c; now split]. }
  destruct (Cases _ W) as [[X|(c & X & N)]|(sg & co & X)]; destruct (Cases _ W') as [[X'|(c' & X' & N')]|(sg' & co' & X')].
  - destruct X as [_ ->], X' as [_ ->]. reflexivity.
  - destruct (Tn _ _ X' N') as (n & _ & Q). rewrite (T0 _ X), Q in E. discriminate.
  - destruct (Tk _ _ _ X') as (n & _ & Q). rewrite (T0 _ X), Q in E. discriminate.
  - destruct (Tn _ _ X N) as (n & _ & Q). rewrite (T0 _ X'), Q in E. discriminate.
  - destruct (Tn _ _ X N) as (n & P & Q), (Tn _ _ X' N') as (n' & P' & Q'). rewrite Q, Q' in E. apply app_inv_head in E. subst n'.
    pose proof (Same _ _ _ P P'). destruct X as [_ ->], X' as [_ ->]. congruence.
  - destruct (Tn _ _ X N) as (n & P & Q), (Tk _ _ _ X') as (n' & P' & Q'). rewrite Q, Q' in E. discriminate.
  - destruct (Tk _ _ _ X) as (n & _ & Q). rewrite (T0 _ X'), Q in E. discriminate.
  - destruct (Tk _ _ _ X) as (n & P & Q), (Tn _ _ X' N') as (n' & P' & Q'). rewrite Q, Q' in E. discriminate.
  - destruct (Tk _ _ _ X) as (n & P & Q), (Tk _ _ _ X') as (n' & P' & Q'). rewrite Q, Q' in E. apply app_inv_head in E.
    destruct (Tail n n' co co') as [Y1 Y2]; [apply P|apply P'|exact E|]. subst n' co'. pose proof (Same _ _ _ P P'). destruct X as [_ ->], X' as [_ ->]. congruence.
Qed.
Print Assumptions C176_distinct.
Example C176_case : format_raw_returncode 768 = codes "exited with code 3" /\ format_raw_returncode 139 = codes "was interrupted, killed by signal 11 (core dumped)" /\ outcome_word 768 /\ outcome_word 139.
Proof. split; [reflexivity|]. split; [reflexivity|]. split; [left; exists 3|right; exists 11, true]; unfold exited, killed; lia. Qed.

(** ** C177: the environment and the arguments of the new program. *)
(** Environment entries are "name=value"; the value of a name is that of the first
    entry for it. *)
Inductive value_of : list str -> str -> option str -> Prop :=
| value_none name : value_of [] name None
| value_here name v env : ~ In 61 name -> value_of ((name ++ 61 :: v) :: env) name (Some v)
| value_later name e env r : (forall v, e <> name ++ 61 :: v) -> value_of env name r -> value_of (e :: env) name r.
Lemma same_prefix_spec key : forall e, same_prefix key e = true <-> exists r, e = key ++ r.
Proof.
  induction key as [|k key IH]; intros e; [split; [intros _; now exists e|reflexivity]|]. destruct e as [|c e]; cbn [same_prefix].
  - split; [discriminate|intros (r & X); discriminate].
  - rewrite andb_true_iff, IH, Z.eqb_eq. split.
    + intros [-> (r & ->)]. now exists r.
    + intros (r & X). cbn in X. inversion X; subst. split; [reflexivity|now exists r].
Qed.
Lemma is_key_spec key e : is_key key e = true <-> exists v, e = key ++ 61 :: v.
Proof.
  unfold is_key. rewrite !andb_true_iff, Nat.leb_le, Z.eqb_eq, same_prefix_spec. split.
  - intros [[L Q] (r & ->)]. rewrite app_length in L. rewrite app_nth2, Nat.sub_diag in Q by lia. destruct r as [|c r]; [cbn in L; lia|]. cbn in Q. subst c. now exists r.
  - intros (v & ->). rewrite app_length. cbn [List.length]. rewrite app_nth2, Nat.sub_diag by lia. split; [split; [lia|reflexivity]|eexists; reflexivity].
Qed.
Lemma entry_inj : forall n m v w : str, ~ In 61 n -> ~ In 61 m -> n ++ 61 :: v = m ++ 61 :: w -> n = m /\ v = w.
Proof.
  induction n as [|c n IH]; intros [|d m] v w Nn Nm E; cbn in E; inversion E; subst.
  - now split.
  - exfalso. apply Nm. now left.
  - exfalso. apply Nn. now left.
  - destruct (IH m v w) as [-> ->]; [intros I; apply Nn; now right|intros I; apply Nm; now right|assumption|now split].
Qed.
Lemma value_unique env name r : value_of env name r -> forall r', value_of env name r' -> r = r'.
Proof.
  induction 1 as [name|name v env N|name e env r N V IH]; intros r' V'; inversion V'; subst; try reflexivity.
  - match goal with H : _ ++ _ = _ ++ _ |- _ => apply app_inv_head in H; inversion H; reflexivity end.
  - exfalso. match goal with H : forall w, _ <> _ |- _ => now apply (H v) end.
  - exfalso. match goal with |- False => eapply N; reflexivity end.
  - now apply IH.
Qed.
(** setenv sets the variable, and changes no other. *)
Theorem C177_setenv : forall key val env, ~ In 61 key -> value_of (setenv key val env) key (Some val) /\
  forall name r, ~ In 61 name -> name <> key -> (value_of (setenv key val env) name r <-> value_of env name r).
Proof.
  intros key val env K. unfold assignment. induction env as [|e env [IH1 IH2]]; cbn [setenv]; unfold assignment.
  - split; [now constructor|]. intros name r N D. split; intros V.
    + inversion V; subst; [exfalso; match goal with H : _ ++ _ = _ ++ _ |- _ => destruct (entry_inj _ _ _ _ N K H) as [-> _] end; contradiction|assumption].
    + constructor; [|assumption]. intros v E. destruct (entry_inj _ _ _ _ K N E) as [-> _]. contradiction.
  - destruct (is_key key e) eqn:Q.
    + apply is_key_spec in Q as (v0 & ->). split; [now constructor|]. intros name r N D.
      assert (A : forall v w, key ++ 61 :: v <> name ++ 61 :: w) by (intros v w E; destruct (entry_inj _ _ _ _ K N E) as [-> _]; contradiction).
      split; intros V; inversion V; subst; try (constructor; [intros; apply A|assumption]); exfalso; match goal with H : _ ++ _ = _ ++ _ |- _ => now apply (A _ _ (eq_sym H)) end.
    + assert (A : forall v, e <> key ++ 61 :: v). { intros v E. assert (X : is_key key e = true) by (apply is_key_spec; now exists v). congruence. }
      split; [constructor; assumption|]. intros name r N D. split; intros V; inversion V; subst; try (constructor; assumption); constructor; try assumption; now apply (IH2 name r N D).
Qed.
Print Assumptions C177_setenv.
(** The usual use: copy the environment, then change some variables; the program
    gets the changed ones (the last change counts) and the others as they were. *)
Definition changed (l : list (str * str)) (name : str) : option str :=
  fold_left (fun o kv => if list_eq_dec Z.eq_dec (fst kv) name then Some (snd kv) else o) l None.
Theorem C177_environment_partial : forall args exe environ l path argv env, environ <> [] -> Forall (fun kv => ~ In 61 (fst kv)) l ->
  exec_call args exe (fold_left (fun e kv => setenv (fst kv) (snd kv) e) l (copy_env_from_parent environ [])) environ = Ok (path, argv, env) ->
  argv = args /\ forall name, ~ In 61 name ->
    match changed l name with Some v => value_of env name (Some v) | None => forall r, value_of env name r <-> value_of environ name r end.
Proof.
  intros args exe environ l path argv env NE F H. unfold exec_call in H. apply bind_Ok in H as (p & _ & H). apply Ok_inj in H.
  unfold copy_env_from_parent in H. cbn [app] in H.
  assert (SN : forall k v e, setenv k v e <> []) by (intros k v [|x e]; cbn; [discriminate|destruct (is_key k x); discriminate]).
  assert (FN : forall l e, e <> [] -> fold_left (fun e kv => setenv (fst kv) (snd kv) e) l e <> []).
  { induction l0 as [|kv l0 IH]; intros e N; [exact N|]. cbn [fold_left]. apply IH, SN. }
  assert (E : env = fold_left (fun e kv => setenv (fst kv) (snd kv) e) l environ /\ argv = args).
  { specialize (FN l environ NE). destruct (fold_left _ l environ); [contradiction|]. inversion H. now split. }
  destruct E as [-> ->]. split; [reflexivity|]. clear H FN SN p NE path exe args. unfold changed.
  assert (G : forall l e o name, Forall (fun kv => ~ In 61 (fst kv)) l -> ~ In 61 name ->
    match o with Some v => value_of e name (Some v) | None => forall r, value_of e name r <-> value_of environ name r end ->
    match fold_left (fun o kv => if list_eq_dec Z.eq_dec (fst kv) name then Some (snd kv) else o) l o with
    | Some v => value_of (fold_left (fun e kv => setenv (fst kv) (snd kv) e) l e) name (Some v)
    | None => forall r, value_of (fold_left (fun e kv => setenv (fst kv) (snd kv) e) l e) name r <-> value_of environ name r end).
  { induction l0 as [|[k v] l0 IH]; intros e o name Fl N B; [exact B|]. inversion Fl as [|? ? Fk Fl']; subst. cbn [fold_left fst snd] in *. apply IH; [exact Fl'|exact N|].
    destruct (C177_setenv k v e Fk) as [S1 S2]. destruct (list_eq_dec Z.eq_dec k name) as [->|D]; [exact S1|].
    destruct o as [w|]; [apply S2; [exact N|congruence|exact B]|]. intros r. rewrite S2 by (congruence || exact N). apply B. }
  intros name N. apply (G l environ None name F N). reflexivity.
Qed.
Print Assumptions C177_environment_partial.
Example C177_case : exec_call [codes "ls"; codes "-l"] [] (setenv (codes "LANG") (codes "C") (copy_env_from_parent [codes "HOME=/root"; codes "LANG=it"] [])) [codes "HOME=/root"; codes "LANG=it"]
  = Ok (codes "ls", [codes "ls"; codes "-l"], [codes "HOME=/root"; codes "LANG=C"]).
Proof. reflexivity. Qed.
(** Setting one variable without copying the environment first takes every other
    one away. *)
Theorem C177_refuted_one_variable : forall args exe environ key val path argv env, ~ In 61 key ->
  exec_call args exe (setenv key val []) environ = Ok (path, argv, env) -> forall name, ~ In 61 name -> name <> key -> value_of env name None.
Proof.
  intros args exe environ key val path argv env K H name N D. unfold exec_call in H. apply bind_Ok in H as (p & _ & H). apply Ok_inj in H. cbn [setenv] in H. inversion H; subst.
  constructor; [|constructor]. unfold assignment. intros v E. destruct (entry_inj _ _ _ _ K N E) as [-> _]. contradiction.
Qed.
Print Assumptions C177_refuted_one_variable.
(** Copying after setting does not override what was set, although the documentation
    says so. *)
Theorem C177_refuted_copy_after : forall key val environ, ~ In 61 key -> value_of (copy_env_from_parent environ (setenv key val [])) key (Some val).
Proof. intros key val environ K. unfold copy_env_from_parent. cbn [setenv app]. now constructor. Qed.
Print Assumptions C177_refuted_copy_after.
(** With neither arguments nor an executable, the program reads an element that
    does not exist. *)
Theorem C177_refuted_nothing_to_run : forall env environ, exec_call [] [] env environ = UB.
Proof. reflexivity. Qed.
Print Assumptions C177_refuted_nothing_to_run.
