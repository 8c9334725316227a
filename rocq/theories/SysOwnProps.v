(** C171, C172: memory mappings and file descriptors have one owner each. *)
From Verif Require Import Base BaseFacts SysOwnModel.

(** ** Specification *)
Definition owner (st : state) (s : nat) (a : Z) : Prop := hold st s = Some (Some a).
(** Nothing was given back twice, every resource in use has exactly one owner,
    and no object holds a resource that is no longer in use. *)
Definition well_owned (st : state) : Prop :=
  bad st = false /\ NoDup (live st) /\
  (forall a, In a (live st) -> exists s, owner st s a) /\
  (forall s a, owner st s a -> In a (live st)) /\
  (forall s t a, owner st s a -> owner st t a -> s = t).

(** ** Facts *)
Lemma in_use_spec a l : in_use a l = true <-> In a l.
Proof.
  unfold in_use. rewrite existsb_exists. split; [intros (x & I & E); apply Z.eqb_eq in E; now subst|intros I; exists a; split; [exact I|apply Z.eqb_refl]].
Qed.
Lemma set_same h s v : set h s v s = v.
Proof. unfold set. now rewrite Nat.eqb_refl. Qed.
Lemma set_other h s v i : i <> s -> set h s v i = h i.
Proof. intros N. unfold set. destruct (Nat.eqb_spec i s); congruence. Qed.
Lemma acquire_owned st a s : well_owned st -> hold st s = None \/ hold st s = Some None -> ~ In a (live st) -> well_owned (put (acquire st a) s (Some (Some a))).
Proof.
  intros (B & ND & L & O & U) H N. unfold well_owned, put, acquire, owner in *. cbn [bad live hold].
  assert (K : forall i b, set (hold st) s (Some (Some a)) i = Some (Some b) -> (i = s /\ b = a) \/ (i <> s /\ hold st i = Some (Some b))).
  { intros i b E. destruct (Nat.eq_dec i s) as [->|X]; [rewrite set_same in E; left; split; congruence|rewrite set_other in E by exact X; auto]. }
  split; [exact B|]. split; [now constructor|]. split; [|split].
  - intros b [<-|I]; [exists s; apply set_same|]. destruct (L b I) as (t & E). exists t. rewrite set_other; [exact E|]. intros ->. destruct H; congruence.
  - intros t b E. destruct (K t b E) as [[-> ->]|[X E']]; [now left|right; eauto].
  - intros t u b E1 E2. destruct (K t b E1) as [[Q1 P1]|[X1 E1']], (K u b E2) as [[Q2 P2]|[X2 E2']]; try congruence; eauto; subst; exfalso; eauto.
Qed.
Lemma release_owned st a s v : well_owned st -> owner st s a -> v = None \/ v = Some None -> well_owned (put (release st a) s v).
Proof.
  intros (B & ND & L & O & U) H V. unfold release. assert (In a (live st)) by eauto. apply in_use_spec in H0. rewrite H0. apply in_use_spec in H0.
  unfold well_owned, put, owner in *. cbn [bad live hold]. 
  assert (K : forall i b, set (hold st) s v i = Some (Some b) -> i <> s /\ hold st i = Some (Some b)).
  { intros i b E. destruct (Nat.eq_dec i s) as [->|X]; [rewrite set_same in E; destruct V; congruence|rewrite set_other in E by exact X; auto]. }
  split; [exact B|]. split; [now apply NoDup_filter|]. split; [|split].
  - intros b I. apply filter_In in I as [I Nb]. destruct (L b I) as (t & E). exists t. rewrite set_other; [exact E|]. intros ->.
    assert (a = b) by congruence. subst. rewrite Z.eqb_refl in Nb. discriminate.
  - intros t b E. destruct (K t b E) as [X E']. apply filter_In. split; [eauto|]. destruct (Z.eqb_spec b a); [|reflexivity]. subst. exfalso. apply X. eauto.
  - intros t u b E1 E2. destruct (K t b E1), (K u b E2). eauto.
Qed.
Lemma move_owned st s t v : well_owned st -> s <> t -> hold st s = Some v -> hold st t = None \/ hold st t = Some None ->
  well_owned (put (put st t (Some v)) s (Some None)).
Proof.
  intros (B & ND & L & O & U) N Hs Ht. unfold well_owned, put, owner in *. cbn [bad live hold].
  assert (K : forall i b, set (set (hold st) t (Some v)) s (Some None) i = Some (Some b) -> (i = t /\ hold st s = Some (Some b)) \/ (i <> t /\ i <> s /\ hold st i = Some (Some b))).
  { intros i b E. destruct (Nat.eq_dec i s) as [->|X]; [rewrite set_same in E; discriminate|]. rewrite set_other in E by exact X.
    destruct (Nat.eq_dec i t) as [->|Y]; [rewrite set_same in E; left; split; congruence|]. rewrite set_other in E by exact Y. auto. }
  split; [exact B|]. split; [exact ND|]. split; [|split].
  - intros a I. destruct (L a I) as (u & E). destruct (Nat.eq_dec u s) as [->|X].
    + exists t. rewrite set_other by congruence. rewrite set_same. congruence.
    + exists u. rewrite set_other by exact X. rewrite set_other; [exact E|]. intros ->. destruct Ht; congruence.
  - intros u a E. destruct (K u a E) as [[-> E']|(X & Y & E')]; eauto.
  - intros u w a E1 E2. destruct (K u a E1) as [[-> E1']|(X1 & Y1 & E1')], (K w a E2) as [[-> E2']|(X2 & Y2 & E2')]; eauto; exfalso; eauto.
Qed.
Lemma empty_owned st s : well_owned st -> hold st s = Some None -> well_owned (put st s None).
Proof.
  intros (B & ND & L & O & U) H. unfold well_owned, put, owner in *. cbn [bad live hold].
  assert (K : forall i b, set (hold st) s None i = Some (Some b) -> hold st i = Some (Some b)).
  { intros i b E. destruct (Nat.eq_dec i s) as [->|X]; [rewrite set_same in E; discriminate|now rewrite set_other in E by exact X]. }
  split; [exact B|]. split; [exact ND|]. split; [|split]; eauto.
  intros a I. destruct (L a I) as (t & E). exists t. rewrite set_other; [exact E|]. intros ->. congruence.
Qed.
Lemma release_hold st a : hold (release st a) = hold st.
Proof. unfold release. now destruct (in_use a (live st)). Qed.
Lemma put_put st s v w : put (put st s v) s w = mk_state (set (set (hold st) s v) s w) (live st) (bad st).
Proof. reflexivity. Qed.

(** ** C171 *)
Lemma put_put_hold st t v w x s : well_owned (put (put (put st t v) t w) s x) -> well_owned (put (put st t w) s x).
Proof.
  intros (B & ND & L & O & U).
  assert (H : forall i, hold (put (put (put st t v) t w) s x) i = hold (put (put st t w) s x) i).
  { intros i. unfold put, set. cbn [hold]. destruct (i =? s)%nat, (i =? t)%nat; reflexivity. }
  unfold well_owned, owner in *. split; [exact B|]. split; [exact ND|]. split; [|split].
  - intros a I. destruct (L a I) as (u & E). exists u. now rewrite <- H.
  - intros u a. rewrite <- H. apply O.
  - intros u u' a. rewrite <- !H. apply U.
Qed.
Lemma mmap_step_owned st o : well_owned st -> well_owned (fst (mmap_step st o)).
Proof.
  intros W. destruct o as [s a|t s|t s|s|s]; cbn [mmap_step].
  - destruct (hold st s) eqn:H; [exact W|]. destruct (in_use a (live st)) eqn:I; [exact W|]. apply acquire_owned; auto.
    intros X. apply in_use_spec in X. congruence.
  - destruct (hold st t) eqn:Ht; [exact W|]. destruct (hold st s) as [v|] eqn:Hs; [|exact W]. apply move_owned; auto. congruence.
  - destruct (Nat.eqb_spec t s) as [->|N]; [exact W|]. destruct (hold st t) as [[a|]|] eqn:Ht, (hold st s) as [v|] eqn:Hs; try exact W.
    cbn [fst]. apply (put_put_hold (release st a) t (Some None)). apply move_owned; auto.
    + apply release_owned; auto.
    + unfold put. cbn [hold]. rewrite set_other by congruence. now rewrite release_hold.
    + right. unfold put. cbn [hold]. apply set_same.
  - destruct (hold st s) as [[a|]|] eqn:H; try exact W. apply release_owned; auto.
  - destruct (hold st s) as [[a|]|] eqn:H; try exact W; [apply release_owned; auto|now apply empty_owned].
Qed.
Lemma init_owned : well_owned init.
Proof.
  unfold well_owned, init, owner. cbn. split; [reflexivity|]. split; [constructor|]. split; [intros a []|]. split; intros; discriminate.
Qed.
Lemma none_left st : well_owned st -> (forall s, hold st s = None) -> live st = [].
Proof.
  intros (_ & _ & L & _ & _) H. destruct (live st) as [|a l]; [reflexivity|]. destruct (L a (or_introl eq_refl)) as (s & E). unfold owner in E. rewrite H in E. discriminate.
Qed.
(** Over every history of creations, moves, explicit unmappings and destructions,
    exceptions included: no mapping is unmapped twice or while another object
    still holds it, and none stays mapped once its objects are gone. *)
Theorem C171_mappings_partial : forall l, let st := mmap_run l init in well_owned st /\ ((forall s, hold st s = None) -> live st = []).
Proof.
  intros l st. assert (W : well_owned st).
  { unfold st, mmap_run. generalize init_owned. generalize init. induction l as [|o l IH]; intros i W; [exact W|]. cbn [fold_left]. apply IH. now apply mmap_step_owned. }
  split; [exact W|now apply none_left].
Qed.
Print Assumptions C171_mappings_partial.
(** Assigning to an object that was moved from, or explicitly unmapped, throws,
    and the mapping stays where it was. *)
Theorem C171_refuted_assign_to_empty : forall st t s v, t <> s -> hold st t = Some None -> hold st s = Some v ->
  mmap_step st (MAssign t s) = (st, true).
Proof. intros st t s v N Ht Hs. cbn [mmap_step]. destruct (Nat.eqb_spec t s); [congruence|]. now rewrite Ht, Hs. Qed.
Print Assumptions C171_refuted_assign_to_empty.
Example C171_case : let st := mmap_run [Map 0 4096; Map 1 8192; MMoveNew 2 0; MAssign 2 1; MAssign 0 2; MDestroy 0] init in
  live st = [8192] /\ hold st 2%nat = Some (Some 8192) /\ live (mmap_run [MDestroy 1; MDestroy 2] st) = [].
Proof. repeat split. Qed.

(** ** C172 *)
Definition closes_ok (o : fop) : Prop := match o with FAssign _ _ ok | Close _ ok | Reopen _ _ ok => ok = true | _ => True end.
Lemma fd_close_owned st s : well_owned st -> well_owned (fst (fd_close st s true)) /\ snd (fd_close st s true) = false /\
  (hold st s <> None -> hold (fst (fd_close st s true)) s = Some None) /\ (forall i, i <> s -> hold (fst (fd_close st s true)) i = hold st i).
Proof.
  intros W. unfold fd_close. destruct (hold st s) as [[a|]|] eqn:H; cbn [fst snd].
  - split; [apply release_owned; auto|]. split; [reflexivity|]. unfold put. cbn [hold]. split; [intros _; apply set_same|]. intros i N.
    rewrite set_other by exact N. now rewrite release_hold.
  - auto.
  - split; [exact W|]. split; [reflexivity|]. split; congruence.
Qed.
Lemma fd_step_owned st o : well_owned st -> closes_ok o -> well_owned (fst (fd_step st o)).
Proof.
  intros W C. destruct o as [s a|t s|t s ok|s ok|s a ok|s]; cbn [fd_step closes_ok] in *; try subst ok.
  - destruct (hold st s) eqn:H; [exact W|]. destruct (in_use a (live st)) eqn:I; [exact W|]. apply acquire_owned; auto.
    intros X. apply in_use_spec in X. congruence.
  - destruct (hold st t) eqn:Ht; [exact W|]. destruct (hold st s) as [v|] eqn:Hs; [|exact W]. apply move_owned; auto. congruence.
  - destruct (Nat.eqb_spec t s) as [->|N]; [exact W|]. destruct (hold st t) as [o|] eqn:Ht, (hold st s) as [v|] eqn:Hs; try exact W.
    destruct (fd_close_owned st t W) as (W1 & T & H1 & H2). destruct (fd_close st t true) as [st1 threw]. cbn [fst snd] in *. subst threw.
    cbn [fst]. apply move_owned; auto; [rewrite H2 by congruence; exact Hs|]. right. apply H1. congruence.
  - destruct (fd_close_owned st s W) as (W1 & _). exact W1.
  - destruct (hold st s) as [o|] eqn:Hs; [|exact W].
    destruct (fd_close_owned st s W) as (W1 & T & H1 & H2). destruct (fd_close st s true) as [st1 threw]. cbn [fst snd] in *. subst threw.
    destruct (in_use a (live st1)) eqn:I; [exact W1|]. apply acquire_owned; auto; [right; apply H1; congruence|].
    intros X. apply in_use_spec in X. congruence.
  - destruct (hold st s) as [[a|]|] eqn:H; try exact W; [apply release_owned; auto|now apply empty_owned].
Qed.
(** While no close fails: every descriptor is closed exactly once, by its only
    owner, and none stays open once its objects are gone. *)
Theorem C172_descriptors_partial : forall l, Forall closes_ok l -> let st := fd_run l init in
  well_owned st /\ ((forall s, hold st s = None) -> live st = []).
Proof.
  intros l F st. assert (W : well_owned st).
  { unfold st, fd_run. generalize init_owned. generalize init. induction F as [|o l C F IH]; intros i W; [exact W|]. cbn [fold_left]. apply IH. now apply fd_step_owned. }
  split; [exact W|now apply none_left].
Qed.
Print Assumptions C172_descriptors_partial.
(** After a close that reports an error the object keeps the number, and its
    destructor closes whatever file was opened with that number in between. *)
Theorem C172_refuted_failed_close : forall st s t a, well_owned st -> owner st s a -> s <> t -> hold st t = None ->
  let st' := fd_run [Close s false; Open t a; FDestroy s] st in hold st' t = Some (Some a) /\ ~ In a (live st').
Proof.
  intros st s t a (B & ND & L & O & U) H N Ht st'. unfold st'. cbn [fd_run fold_left fd_step]. unfold fd_close. unfold owner in H. rewrite H. cbn [fst].
  assert (I : in_use a (live st) = true) by (apply in_use_spec; eauto). unfold release. rewrite I. cbn [hold]. rewrite Ht. cbn [live].
  assert (F : in_use a (filter (fun b => negb (b =? a)) (live st)) = false).
  { apply not_true_is_false. intros Q. apply in_use_spec, filter_In in Q as [_ Q]. rewrite Z.eqb_refl in Q. discriminate. }
  rewrite F. cbn [fst]. unfold put, acquire. cbn [hold live]. rewrite set_other by exact N. rewrite H.
  cbn [in_use existsb live]. rewrite Z.eqb_refl. cbn [orb fst hold live]. rewrite set_other by congruence. rewrite set_same. split; [reflexivity|].
  cbn [filter]. rewrite Z.eqb_refl. cbn [negb]. intros X. apply filter_In in X as [_ X]. rewrite Z.eqb_refl in X. discriminate.
Qed.
Print Assumptions C172_refuted_failed_close.
Example C172_case : let st := fd_run [Open 0 3; Open 1 4; FMoveNew 2 0; FAssign 2 1 true; FAssign 0 2 true; Reopen 0 5 true] init in
  live st = [5] /\ hold st 0%nat = Some (Some 5) /\ hold st 2%nat = Some None /\ Forall closes_ok [Open 0 3; Close 0 true].
Proof. repeat split. repeat constructor. Qed.
