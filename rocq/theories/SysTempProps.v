(** Properties C200-C202: missing files, temporary files and locks. *)
From Verif Require Import BaseFacts IniModel IniProofs SysTreeModel SysTempModel.

(** ** What a path leads to. Directories are entered through links; the last name is an
    entry of the directory reached. *)
Inductive goes (c : fs) : ino -> list str -> ino -> Prop :=
| goes_here i : goes c i [] i
| goes_in i es n j t ns k : c i = Some (ODir es) -> lookup n es = Some j -> follow c j = Some t -> goes c t ns k -> goes c i (n :: ns) k.
Definition named (c : fs) (w : place) (p : path) (d j : ino) : Prop :=
  goes c (start w p) (pt_dirs p) d /\ exists es, c d = Some (ODir es) /\ lookup (pt_name p) es = Some j.
Definition present (c : fs) (w : place) (p : path) (o : obj) : Prop := exists d j t, named c w p d j /\ follow c j = Some t /\ c t = Some o.
(** The directory a name would be in. *)
Definition has_directory (c : fs) (w : place) (p : path) : Prop := exists d es, goes c (start w p) (pt_dirs p) d /\ c d = Some (ODir es).
(** Something on the way is not a directory. *)
Definition blocked (c : fs) (w : place) (p : path) : Prop := exists a b f o, pt_dirs p = a ++ b /\ goes c (start w p) a f /\ c f = o /\ forall es, o <> Some (ODir es).
(** Entries and links lead to objects that exist. *)
Definition sound (c : fs) : Prop :=
  (forall d es n j, c d = Some (ODir es) -> lookup n es = Some j -> c j <> None) /\ (forall j t, c j = Some (OLink (Some t)) -> c t <> None).

Lemma goes_fun c i ns j k : goes c i ns j -> goes c i ns k -> j = k.
Proof. intros G. revert k. induction G as [i|i es n j t ns k E L F G IH]; intros k' G'; inversion G'; subst; [reflexivity|]. apply IH. congruence. Qed.
Lemma walk_goes c ns : forall i j, walk c i ns = inl j <-> goes c i ns j.
Proof.
  induction ns as [|n ns IH]; intros i j; cbn [walk].
  - split; intros H; [injection H as <-; constructor|inversion H; reflexivity].
  - split.
    + destruct (c i) as [[|es|]|] eqn:E; try discriminate. destruct (lookup n es) as [k|] eqn:L; [|discriminate]. destruct (follow c k) as [t|] eqn:F; [|discriminate]. intros H. econstructor; eauto. now apply IH.
    + intros H. inversion H as [|? es ? k t ? ? E L F G]; subst. rewrite E, L, F. now apply IH.
Qed.
Lemma walk_blocked c ns : forall i, walk c i ns = inr ENOTDIR -> exists a b f, ns = a ++ b /\ goes c i a f /\ forall es, c f <> Some (ODir es).
Proof.
  induction ns as [|n ns IH]; intros i H; cbn [walk] in H; [discriminate|]. destruct (c i) as [[|es|]|] eqn:E; try (exists [], (n :: ns), i; split; [reflexivity|]; split; [constructor|congruence]).
  destruct (lookup n es) as [k|] eqn:L; [|discriminate]. destruct (follow c k) as [t|] eqn:F; [|discriminate]. destruct (IH t H) as (a & b & f & -> & G & N). exists (n :: a), b, f. split; [reflexivity|]. split; [econstructor; eauto|exact N].
Qed.
Lemma walk_no_other c ns : forall i, walk c i ns <> inr EOTHER.
Proof. induction ns as [|n ns IH]; intros i; cbn [walk]; [discriminate|]. destruct (c i) as [[|es|]|]; try discriminate. destruct (lookup n es); [|discriminate]. destruct (follow c _); [|discriminate]. apply IH. Qed.
Lemma entry_named c w p d j : entry c w p = inl (d, Some j) <-> named c w p d j.
Proof.
  unfold entry, named. split.
  - destruct (walk _ _ _) as [i|e] eqn:W; [|discriminate]. destruct (c i) as [[|es|]|] eqn:E; try discriminate. intros H. injection H as -> H. apply walk_goes in W. eauto.
  - intros (G & es & E & L). apply walk_goes in G. now rewrite G, E, L.
Qed.
Lemma entry_none c w p d : entry c w p = inl (d, None) -> (forall e k, ~ named c w p e k) /\ has_directory c w p.
Proof.
  intros H. split; [intros e k N; apply entry_named in N; congruence|]. unfold entry in H. destruct (walk _ _ _) as [i|e] eqn:W; [|discriminate]. destruct (c i) as [[|es|]|] eqn:E; try discriminate. injection H as -> H. apply walk_goes in W. exists d, es. auto.
Qed.
Lemma entry_err c w p e : entry c w p = inr e -> (forall d k, ~ named c w p d k) /\ ~ has_directory c w p /\ (e = ENOTDIR -> blocked c w p) /\ e <> EOTHER.
Proof.
  intros H. split; [intros d k N; apply entry_named in N; congruence|]. unfold entry in H. destruct (walk _ _ _) as [i|e'] eqn:W.
  - split; [intros (d & es & G & E); apply walk_goes in G; rewrite W in G; injection G as ->; rewrite E in H; discriminate|]. destruct (c i) as [[|es|]|] eqn:E; try discriminate; injection H as <-; (split; [intros _; apply walk_goes in W; exists (pt_dirs p), [], i, (c i); split; [symmetry; apply app_nil_r|]; split; [exact W|]; split; [reflexivity|congruence]|discriminate]).
  - injection H as ->. split; [intros (d & es & G & E); apply walk_goes in G; congruence|]. split; [|intros ->; now apply (walk_no_other c (pt_dirs p) (start w p))]. intros ->. destruct (walk_blocked _ _ _ W) as (a & b & f & Eq & G & N). exists a, b, f, (c f). auto.
Qed.

Lemma str_eq_iff a b : str_eqb a b = true <-> a = b.
Proof. destruct (str_eqb_spec a b); split; congruence. Qed.
Lemma named_fun c w p d j e k : named c w p d j -> named c w p e k -> d = e /\ j = k.
Proof. intros N M. apply entry_named in N, M. rewrite N in M. injection M as -> ->. auto. Qed.
Lemma lookup_filter n m es : lookup n (filter (fun e => negb (str_eqb m (fst e))) es) = if str_eqb m n then None else lookup n es.
Proof.
  induction es as [|[k j] es IH]; [cbn; now destruct (str_eqb m n)|]. cbn [filter fst lookup]. destruct (str_eqb m k) eqn:E; cbn [negb].
  - rewrite IH. apply str_eq_iff in E. subst k. destruct (str_eqb m n) eqn:F; [reflexivity|]. destruct (str_eqb n m) eqn:G; [|reflexivity]. apply str_eq_iff in G. subst n. assert (str_eqb m m = true) by now apply str_eq_iff. congruence.
  - cbn [lookup fst]. rewrite IH. destruct (str_eqb n k) eqn:G; [|reflexivity]. apply str_eq_iff in G. subst k. now rewrite E.
Qed.
Lemma lookup_app n a b : lookup n (a ++ b) = match lookup n a with Some j => Some j | None => lookup n b end.
Proof. induction a as [|[k j] a IH]; [reflexivity|]. cbn [app lookup]. now destruct (str_eqb n k). Qed.
Lemma str_eqb_refl n : str_eqb n n = true.
Proof. now apply str_eq_iff. Qed.
Lemma remove_lookup c d m : forall e n, lookup n (entries (remove_entry c d m) e) = if (e =? d) && str_eqb m n then None else lookup n (entries c e).
Proof.
  intros e n. unfold entries, remove_entry. destruct (Z.eqb_spec e d) as [->|N]; [|reflexivity]. cbn [andb]. destruct (c d) as [[|es|]|]; cbn [lookup]; try (now destruct (str_eqb m n)). apply lookup_filter.
Qed.
Lemma set_lookup c d m j : is_dir c d = true -> forall e n, lookup n (entries (set_entry c d m j) e) = if (e =? d) && str_eqb m n then Some j else lookup n (entries c e).
Proof.
  intros D e n. unfold entries, set_entry, is_dir in *. destruct (Z.eqb_spec e d) as [->|N]; [|reflexivity]. cbn [andb]. destruct (c d) as [[|es|]|]; try discriminate. rewrite lookup_app, lookup_filter. cbn [lookup]. destruct (str_eqb m n) eqn:E.
  - apply str_eq_iff in E. subst n. now rewrite str_eqb_refl.
  - destruct (str_eqb n m) eqn:G; [apply str_eq_iff in G; subst n; now rewrite str_eqb_refl in E|]. now destruct (lookup n es).
Qed.
(** An object that is no directory is not touched by changes of entries. *)
Definition same_objects (c c' : fs) : Prop := forall i, is_dir c i = is_dir c' i /\ (is_dir c i = false -> c' i = c i).
Lemma remove_objects c d m : same_objects c (remove_entry c d m).
Proof. intros i. unfold is_dir, remove_entry. destruct (Z.eqb_spec i d) as [->|N]; [|auto]. destruct (c d) as [[|es|]|]; split; try reflexivity; discriminate. Qed.
Lemma set_objects c d m j : same_objects c (set_entry c d m j).
Proof. intros i. unfold is_dir, set_entry. destruct (Z.eqb_spec i d) as [->|N]; [|auto]. destruct (c d) as [[|es|]|]; split; try reflexivity; discriminate. Qed.
Lemma same_objects_trans a b c : same_objects a b -> same_objects b c -> same_objects a c.
Proof. intros H K i. destruct (H i) as [H1 H2], (K i) as [K1 K2]. split; [congruence|]. intros E. rewrite K2 by congruence. now apply H2. Qed.

(** ** C200 *)
Theorem C200_stat : forall c w p, sound c ->
  (forall o, present c w p o -> stat c w p = Ok (Some o)) /\
  match stat c w p with
  | Ok (Some o) => present c w p o
  | Ok None => forall o, ~ present c w p o
  | Throw => blocked c w p /\ forall o, ~ present c w p o
  | _ => False
  end.
Proof.
  intros c w p [S1 S2]. assert (A : forall o, present c w p o -> stat c w p = Ok (Some o)).
  { intros o (d & j & t & N & F & E). apply entry_named in N. unfold stat, k_stat. now rewrite N, F, E. }
  split; [exact A|]. unfold stat, k_stat. destruct (entry c w p) as [[d [j|]]|e] eqn:EN.
  - pose proof EN as N. apply entry_named in N. destruct (follow c j) as [t|] eqn:F.
    + destruct (c t) as [o|] eqn:E; [exists d, j, t; auto|]. destruct N as (_ & es & E1 & L). unfold follow in F. destruct (c j) as [[|es'|to]|] eqn:EJ; try discriminate; [injection F as ->; congruence|injection F as ->; congruence|]. subst to. now apply (S2 j t).
    + intros o (d' & j' & t & N' & F' & _). destruct (named_fun _ _ _ _ _ _ _ N N') as [_ ->]. congruence.
  - intros o (d' & j' & t & N' & _). now apply (proj1 (entry_none _ _ _ _ EN) d' j').
  - destruct (entry_err _ _ _ _ EN) as (N & _ & B & O). destruct e; [|split; [now apply B|]|contradiction]; intros o (d' & j' & t & N' & _); now apply (N d' j').
Qed.
Print Assumptions C200_stat.
(** timestamp, size and inode with a default. *)
Theorem C200_default_partial : forall get c w p def, sound c -> ~ blocked c w p ->
  (forall o, present c w p o -> stat_or get c w p def = Ok (get o)) /\ ((forall o, ~ present c w p o) -> stat_or get c w p def = Ok def).
Proof.
  intros get c w p def S NB. destruct (C200_stat c w p S) as [A B]. unfold stat_or. split.
  - intros o P. now rewrite (A o P).
  - intros N. destruct (stat c w p) as [[o|]| | | |]; try contradiction; [exfalso; now apply (N o)|reflexivity|]. destruct B as [B _]. contradiction.
Qed.
Print Assumptions C200_default_partial.
(** When a name on the way is that of a file, there is nothing under the path and the
    default is not given. *)
Lemma goes_app c i a f b k : goes c i a f -> goes c i (a ++ b) k -> goes c f b k.
Proof. intros G. induction G as [i|i es n j t ns f E L F G IH]; intros H; [exact H|]. cbn [app] in H. inversion H; subst. apply IH. replace t with t0 by congruence. assumption. Qed.
Lemma walk_app c a : forall i f b, goes c i a f -> walk c i (a ++ b) = walk c f b.
Proof. induction a as [|n a IH]; intros i f b G; inversion G as [|? es ? k t ? ? E L F G']; subst; [reflexivity|]. cbn [app walk]. rewrite E, L, F. now apply IH. Qed.
Theorem C200_refuted_notdir : forall get c w p def a b f, pt_dirs p = a ++ b -> goes c (start w p) a f -> c f = Some OFile -> stat_or get c w p def = Throw /\ forall o, ~ present c w p o.
Proof.
  intros get c w p def a b f Eq G E. assert (EN : entry c w p = inr ENOTDIR). { unfold entry. rewrite Eq, (walk_app c a _ f b G). destruct b as [|n b]; cbn [walk]; now rewrite E. }
  unfold stat_or, stat, k_stat. rewrite EN. split; [reflexivity|]. intros o (d & j & t & N & _). apply entry_named in N. congruence.
Qed.
Print Assumptions C200_refuted_notdir.
(** unlink_ifexists: true removes the entry and nothing else, false changes nothing and
    there was no entry. *)
Theorem C200_unlink : forall c w p b c', unlink_ifexists c w p = Ok (b, c') ->
  if b then exists d j, named c w p d j /\ is_dir c j = false /\ same_objects c c' /\ forall e n, lookup n (entries c' e) = if (e =? d) && str_eqb (pt_name p) n then None else lookup n (entries c e)
  else c' = c /\ forall d j, ~ named c w p d j.
Proof.
  intros c w p b c'. unfold unlink_ifexists, k_unlink. destruct (entry c w p) as [[d [j|]]|e] eqn:EN.
  - destruct (is_dir c j) eqn:D; [discriminate|]. intros H. apply Ok_inj in H. injection H as <- <-. exists d, j. split; [now apply entry_named|]. split; [exact D|]. split; [apply remove_objects|apply remove_lookup].
  - intros H. apply Ok_inj in H. injection H as <- <-. split; [reflexivity|]. apply (entry_none _ _ _ _ EN).
  - destruct e; try discriminate. intros H. apply Ok_inj in H. injection H as <- <-. split; [reflexivity|]. apply (entry_err _ _ _ _ EN).
Qed.
Print Assumptions C200_unlink.
(** rename_ifexists: true moves the entry; false changes nothing, and the source or the
    directory of the destination is missing. *)
Theorem C200_rename_partial : forall inside c w src dst b c', rename_ifexists inside c w src dst = Ok (b, c') ->
  if b then exists d1 j d2, named c w src d1 j /\ goes c (start w dst) (pt_dirs dst) d2 /\
    (named c w dst d2 j /\ c' = c \/
     same_objects c c' /\ forall e n, lookup n (entries c' e) = if (e =? d2) && str_eqb (pt_name dst) n then Some j else if (e =? d1) && str_eqb (pt_name src) n then None else lookup n (entries c e))
  else c' = c /\ ((forall d j, ~ named c w src d j) \/ ~ has_directory c w dst).
Proof.
  intros inside c w src dst b c'. unfold rename_ifexists, k_rename. destruct (entry c w src) as [[d1 [j|]]|e] eqn:ES.
  - destruct (entry c w dst) as [[d2 o]|e] eqn:ED.
    + destruct (is_dir c j && inside c d2 j); [discriminate|]. destruct (match o with Some k => k =? j | None => false end) eqn:SJ.
      * destruct o as [k|]; [|discriminate]. apply Z.eqb_eq in SJ. subst k. intros H. apply Ok_inj in H. injection H as <- <-. exists d1, j, d2. split; [now apply entry_named|]. apply entry_named in ED. split; [apply ED|]. now left.
      * destruct (negb _); [discriminate|]. intros H. apply Ok_inj in H. injection H as <- <-. exists d1, j, d2. split; [now apply entry_named|].
        assert (GD : goes c (start w dst) (pt_dirs dst) d2 /\ is_dir c d2 = true). { unfold entry in ED. destruct (walk _ _ _) as [i|] eqn:W; [|discriminate]. destruct (c i) as [[|es|]|] eqn:E; try discriminate. injection ED as -> _. split; [now apply walk_goes|]. unfold is_dir. now rewrite E. }
        destruct GD as [G D]. split; [exact G|]. right. split; [eapply same_objects_trans; [apply remove_objects|apply set_objects]|]. intros e n. rewrite set_lookup by (destruct (remove_objects c d1 (pt_name src) d2) as [<- _]; exact D). destruct (_ && _); [reflexivity|]. apply remove_lookup.
    + destruct e; try discriminate. intros H. apply Ok_inj in H. injection H as <- <-. split; [reflexivity|]. right. apply (entry_err _ _ _ _ ED).
  - intros H. apply Ok_inj in H. injection H as <- <-. split; [reflexivity|]. left. apply (entry_none _ _ _ _ ES).
  - destruct e; try discriminate. intros H. apply Ok_inj in H. injection H as <- <-. split; [reflexivity|]. left. apply (entry_err _ _ _ _ ES).
Qed.
Print Assumptions C200_rename_partial.
(** The answer false does not mean that the source is missing: an existing source is
    not moved into a directory that is missing, without an error. *)
Theorem C200_refuted_rename : forall inside c w src dst d j a n b k es, named c w src d j -> pt_dirs dst = a ++ n :: b -> goes c (start w dst) a k -> c k = Some (ODir es) -> lookup n es = None ->
  rename_ifexists inside c w src dst = Ok (false, c).
Proof.
  intros inside c w src dst d j a n b k es N Eq G E L. apply entry_named in N. unfold rename_ifexists, k_rename. rewrite N. unfold entry. rewrite Eq, (walk_app c a _ k _ G). cbn [walk]. now rewrite E, L.
Qed.
Print Assumptions C200_refuted_rename.

(** Root 1 with a directory "d" (2) holding the file "f" (3), and a link "l" (4) to it. *)
Definition ex_c : fs := fun i =>
  if i =? 1 then Some (ODir [([100], 2); ([108], 4)]) else if i =? 2 then Some (ODir [([102], 3)]) else if i =? 3 then Some OFile else if i =? 4 then Some (OLink (Some 2)) else None.
Definition ex_w : place := mk_place 1 2.
Example ex_sound : sound ex_c.
Proof.
  split.
  - intros d es n j. unfold ex_c. destruct (d =? 1); [intros H; injection H as <-; cbn [lookup]; destruct (str_eqb n [100]); [intros H; injection H as <-; discriminate|destruct (str_eqb n [108]); [intros H; injection H as <-; discriminate|discriminate]]|].
    destruct (d =? 2); [intros H; injection H as <-; cbn [lookup]; destruct (str_eqb n [102]); [intros H; injection H as <-; discriminate|discriminate]|]. destruct (d =? 3); [discriminate|]. destruct (d =? 4); discriminate.
  - intros j t. unfold ex_c. destruct (j =? 1); [discriminate|]. destruct (j =? 2); [discriminate|]. destruct (j =? 3); [discriminate|]. destruct (j =? 4); [|discriminate]. intros H. injection H as <-. discriminate.
Qed.
Example C200_case :
  stat ex_c ex_w (mk_path true [[108]] [102]) = Ok (Some OFile) /\ stat ex_c ex_w (mk_path false [] [102]) = Ok (Some OFile) /\ stat ex_c ex_w (mk_path true [] [102]) = Ok None /\
  stat_or (fun _ => 5) ex_c ex_w (mk_path true [[120]] [102]) 7 = Ok 7 /\ stat_or (fun _ => 5) ex_c ex_w (mk_path true [[100]; [102]] [102]) 7 = Throw /\
  (exists c', unlink_ifexists ex_c ex_w (mk_path true [[108]] [102]) = Ok (true, c') /\ stat c' ex_w (mk_path false [] [102]) = Ok None) /\
  (exists c', rename_ifexists (fun _ _ _ => false) ex_c ex_w (mk_path true [[100]] [102]) (mk_path true [] [103]) = Ok (true, c') /\ stat c' ex_w (mk_path true [] [103]) = Ok (Some OFile)) /\
  rename_ifexists (fun _ _ _ => false) ex_c ex_w (mk_path true [[100]] [102]) (mk_path true [[120]] [103]) = Ok (false, ex_c).
Proof. repeat split; try reflexivity; eexists; split; reflexivity. Qed.

(** ** C201. Between its construction in [c], [w] and its destruction in [c2], [w2]
    anything may happen. *)
Lemma goes_grow c c' : (forall i, c i <> None -> c' i = c i \/ exists es es', c i = Some (ODir es) /\ c' i = Some (ODir es') /\ forall n j, lookup n es = Some j -> lookup n es' = Some j) ->
  forall i ns k, goes c i ns k -> goes c' i ns k.
Proof.
  intros M i ns k G. induction G as [i|i es n j t ns k E L F G IH]; [constructor|].
  assert (F' : follow c' j = Some t). { unfold follow in *. destruct (c j) as [o|] eqn:EJ; [|discriminate]. destruct (M j) as [->|(es1 & es2 & E1 & E2 & _)]; [congruence|now rewrite EJ|]. rewrite E2. rewrite EJ in E1. injection E1 as ->. exact F. }
  destruct (M i) as [Q|(es1 & es2 & E1 & E2 & K)]; [congruence| |].
  - econstructor; eauto. congruence.
  - rewrite E in E1. injection E1 as <-. econstructor; [exact E2|apply K; exact L|exact F'|exact IH].
Qed.
Theorem C201_created : forall c w prefix x i t c', c i = None -> mkstemp c w prefix x i = Ok (t, c') ->
  tf_path t = mk_path (pt_abs prefix) (pt_dirs prefix) (pt_name prefix ++ x) /\ tf_unlink t = true /\ (forall d j, ~ named c w (tf_path t) d j) /\
  (exists d, named c' w (tf_path t) d i /\ forall e n, lookup n (entries c' e) = if (e =? d) && str_eqb (pt_name (tf_path t)) n then Some i else lookup n (entries c e)) /\ c' i = Some OFile.
Proof.
  intros c w prefix x i t c' NI. unfold mkstemp. set (p := mk_path _ _ _). destruct (entry c w p) as [[d [j|]]|] eqn:EN; try discriminate. intros H. apply Ok_inj in H. injection H as <- <-. cbn [tf_path tf_unlink].
  split; [reflexivity|]. split; [reflexivity|]. split; [apply (entry_none _ _ _ _ EN)|]. unfold entry in EN. destruct (walk _ _ _) as [d'|] eqn:W; [|discriminate]. destruct (c d') as [[|es|]|] eqn:E; try discriminate. injection EN as -> L. apply walk_goes in W.
  set (c1 := fun j => if j =? i then Some OFile else c j). assert (NE : d <> i) by congruence. assert (E1 : c1 d = Some (ODir es)) by (unfold c1; destruct (Z.eqb_spec d i); congruence).
  assert (SL := set_lookup c1 d (pt_name p) i). assert (D1 : is_dir c1 d = true) by (unfold is_dir; now rewrite E1). specialize (SL D1).
  assert (EC : forall e, entries c1 e = entries c e). { intros e. unfold entries, c1. destruct (Z.eqb_spec e i) as [->|]; [now rewrite NI|reflexivity]. }
  split; [exists d; split|].
  - split.
    + apply (goes_grow c); [|exact W]. intros k K. unfold set_entry. destruct (Z.eqb_spec k d) as [->|].
      * right. change (if d =? i then Some OFile else c d) with (c1 d). rewrite E1. exists es, (filter (fun e => negb (str_eqb (pt_name prefix ++ x) (fst e))) es ++ [(pt_name prefix ++ x, i)]). split; [exact E|]. split; [reflexivity|]. intros n j Lj. rewrite lookup_app, lookup_filter. destruct (str_eqb (pt_name prefix ++ x) n) eqn:Q; [apply str_eq_iff in Q; subst n; congruence|now rewrite Lj].
      * left. unfold c1. destruct (Z.eqb_spec k i); congruence.
    + specialize (SL d (pt_name p)). rewrite Z.eqb_refl, str_eqb_refl in SL. cbn [andb] in SL. unfold entries in SL. destruct (set_entry c1 d (pt_name p) i d) as [[|es'|]|] eqn:E2; try discriminate SL. exists es'. auto.
  - intros e n. rewrite SL, EC. reflexivity.
  - unfold set_entry. destruct (Z.eqb_spec i d); [congruence|]. unfold c1. now rewrite Z.eqb_refl.
Qed.
Print Assumptions C201_created.
(** The end of the object, when the path still means the same place: the file goes, and
    nothing else. *)
Theorem C201_removed_partial : forall c w prefix x i t c' c2 w2 d, c i = None -> mkstemp c w prefix x i = Ok (t, c') ->
  (pt_abs prefix = true /\ pl_root w2 = pl_root w \/ pl_cwd w2 = pl_cwd w /\ pl_root w2 = pl_root w) -> named c2 w (tf_path t) d i -> c2 i = Some OFile ->
  exists c3, destroy c2 w2 t = Ok c3 /\ (forall e j, ~ named c3 w2 (tf_path t) e j) /\ same_objects c2 c3 /\ forall e n, lookup n (entries c3 e) = if (e =? d) && str_eqb (pt_name (tf_path t)) n then None else lookup n (entries c2 e).
Proof.
  intros c w prefix x i t c' c2 w2 d NI MK SP N EI. destruct (C201_created c w prefix x i t c' NI MK) as (EP & EU & _). assert (ST : start w2 (tf_path t) = start w (tf_path t)). { unfold start. rewrite EP. cbn [pt_abs]. destruct SP as [[-> ->]|[-> ->]]; reflexivity. }
  assert (N2 : named c2 w2 (tf_path t) d i) by (unfold named in *; now rewrite ST). pose proof N2 as EN. apply entry_named in EN.
  exists (remove_entry c2 d (pt_name (tf_path t))). split; [unfold destroy, remove; rewrite EU, EN, EI; reflexivity|]. split; [|split; [apply remove_objects|apply remove_lookup]].
  intros e j (G & es & E & L). assert (G2 : goes c2 (start w2 (tf_path t)) (pt_dirs (tf_path t)) e).
  { assert (SO := remove_objects c2 d (pt_name (tf_path t))). assert (RL := remove_lookup c2 d (pt_name (tf_path t))). clear -G SO RL. induction G as [a|a es n j' t0 ns k Ea La Fa G IH]; [constructor|]. destruct (SO a) as [D1 _]. unfold is_dir in D1. rewrite Ea in D1. destruct (c2 a) as [[|es'|]|] eqn:E2; try discriminate D1.
    specialize (RL a n). unfold entries in RL. rewrite Ea, E2, La in RL. destruct (_ && _); [discriminate|]. econstructor; [exact E2|symmetry; exact RL| |exact IH]. unfold follow in *. destruct (SO j') as [D2 S2]. unfold is_dir in D2, S2. destruct (remove_entry c2 d _ j') as [[|?|?]|] eqn:EJ; destruct (c2 j') as [[|?|?]|] eqn:EK; try discriminate; try (specialize (S2 eq_refl); congruence); assumption. }
  destruct N2 as (G3 & _). pose proof (goes_fun _ _ _ _ _ G2 G3) as ->. assert (RL := remove_lookup c2 d (pt_name (tf_path t)) d (pt_name (tf_path t))). rewrite Z.eqb_refl, str_eqb_refl in RL. cbn [andb] in RL. unfold entries in RL. rewrite E in RL. congruence.
Qed.
Print Assumptions C201_removed_partial.
(** A file that is gone, or that is to be kept. *)
Theorem C201_nothing_to_do : forall c w t, tf_unlink t = false \/ ((forall d j, ~ named c w (tf_path t) d j) /\ ~ blocked c w (tf_path t)) -> destroy c w t = Ok c.
Proof.
  intros c w t B. unfold destroy. destruct (tf_unlink t); [|reflexivity]. destruct B as [B|[N B]]; [discriminate|]. unfold remove. destruct (entry c w (tf_path t)) as [[d [j|]]|e] eqn:EN; [exfalso; apply (N d j); now apply entry_named|reflexivity|].
  destruct (entry_err _ _ _ _ EN) as (_ & _ & B1 & B2). destruct e; [reflexivity|exfalso; now apply B, B1|contradiction].
Qed.
Print Assumptions C201_nothing_to_do.
(** Paths are kept as given: after a change of the current directory the file of a
    relative path stays, and a file of that name in the new directory is removed. *)
Theorem C201_refuted_chdir : forall c w w2 x i p t c', c i = None -> pt_abs p = false -> mkstemp c w p x i = Ok (t, c') ->
  ((forall d j, ~ named c' w2 (tf_path t) d j) -> ~ blocked c' w2 (tf_path t) -> exists d, destroy c' w2 t = Ok c' /\ named c' w (tf_path t) d i) /\
  (forall d j, named c' w2 (tf_path t) d j -> is_dir c' j = false -> exists c3, destroy c' w2 t = Ok c3 /\ lookup (pt_name (tf_path t)) (entries c' d) = Some j /\ lookup (pt_name (tf_path t)) (entries c3 d) = None).
Proof.
  intros c w w2 x i p t c' NI A MK. destruct (C201_created c w p x i t c' NI MK) as (EP & EU & _ & (d0 & N0 & _) & _). split.
  - intros N B. exists d0. split; [|exact N0]. apply C201_nothing_to_do; auto.
  - intros d j N D. pose proof N as EN. apply entry_named in EN. exists (remove_entry c' d (pt_name (tf_path t))). split; [|split].
    + unfold destroy, remove. rewrite EU, EN. unfold is_dir in D. destruct (c' j) as [[|?|?]|]; try reflexivity. discriminate.
    + destruct N as (_ & es & E & L). unfold entries. now rewrite E.
    + rewrite remove_lookup, Z.eqb_refl, str_eqb_refl. reflexivity.
Qed.
Print Assumptions C201_refuted_chdir.
(** The destructor ends the program when the path cannot be removed. *)
Theorem C201_refuted_terminate : forall c w t a b f, tf_unlink t = true -> pt_dirs (tf_path t) = a ++ b -> goes c (start w (tf_path t)) a f -> c f = Some OFile -> destroy c w t = Terminate.
Proof.
  intros c w t a b f EU Eq G E. unfold destroy, remove. rewrite EU. assert (EN : entry c w (tf_path t) = inr ENOTDIR). { unfold entry. rewrite Eq, (walk_app c a _ f b G). destruct b as [|n b]; cbn [walk]; now rewrite E. } now rewrite EN.
Qed.
Print Assumptions C201_refuted_terminate.
Example C201_case : exists t c', mkstemp ex_c ex_w (mk_path false [] [116]) [97; 98; 99; 100; 101; 102] 9 = Ok (t, c') /\ named c' ex_w (tf_path t) 2 9 /\ stat c' ex_w (mk_path true [[108]] [116; 97; 98; 99; 100; 101; 102]) = Ok (Some OFile) /\
  (exists c3, destroy c' ex_w t = Ok c3 /\ stat c3 ex_w (tf_path t) = Ok None) /\ destroy c' (mk_place 1 1) t = Ok c'.
Proof.
  eexists. eexists. split; [reflexivity|]. split; [split; [constructor|]; eexists; split; reflexivity|]. split; [reflexivity|]. split; [eexists; split; reflexivity|reflexivity].
Qed.

(** ** C202 *)
Theorem C202_try : forall a, ofd_setlk a = match a with Granted => Ok true | EAgain | EAcces => Ok false | EIntr | EFail => Throw end.
Proof. intros []; reflexivity. Qed.
Lemma wait_from fuel answers retry m : forall k, (k <= m)%nat -> (m < k + fuel)%nat -> (forall i, (k <= i < m)%nat -> answers i = EIntr) -> retry = true \/ k = m ->
  ofd_setlkw fuel answers k retry = match answers m with Granted => Ok (true, S m) | EIntr => if retry then ofd_setlkw (fuel - (S m - k)) answers (S m) retry else Ok (false, S m) | _ => Throw end.
Proof.
  induction fuel as [|f IH]; intros k L1 L2 I R; [lia|]. cbn [ofd_setlkw]. destruct (Nat.eq_dec k m) as [->|N].
  - replace (S m - m)%nat with 1%nat by lia. replace (S f - 1)%nat with f by lia. reflexivity.
  - rewrite (I k) by lia. destruct R as [->|]; [|lia]. rewrite IH; [|lia|lia|intros i Hi; apply I; lia|auto]. replace (f - (S m - S k))%nat with (S f - (S m - k))%nat by lia. reflexivity.
Qed.
(** Waiting with retries: every signal before the first other answer is passed over;
    that answer decides, and false is never given. *)
Theorem C202_wait_retry : forall answers k m, (k <= m)%nat -> (forall i, (k <= i < m)%nat -> answers i = EIntr) -> answers m <> EIntr ->
  forall fuel, (m - k < fuel)%nat -> ofd_setlkw fuel answers k true = match answers m with Granted => Ok (true, S m) | _ => Throw end.
Proof. intros answers k m L I N fuel F. rewrite (wait_from fuel answers true m) by (auto; lia). destruct (answers m); try reflexivity. contradiction. Qed.
Theorem C202_never_false : forall fuel answers k k', ofd_setlkw fuel answers k true <> Ok (false, k').
Proof. induction fuel as [|f IH]; intros answers k k'; cbn [ofd_setlkw]; [discriminate|]. destruct (answers k); try discriminate. apply IH. Qed.
(** It waits as long as there are only signals. *)
Theorem C202_waits : forall answers k, (forall i, (k <= i)%nat -> answers i = EIntr) -> forall fuel, ofd_setlkw fuel answers k true = Loop.
Proof. intros answers k I fuel. revert k I. induction fuel as [|f IH]; intros k I; cbn [ofd_setlkw]; [reflexivity|]. rewrite (I k) by lia. apply IH. intros i Hi. apply I. lia. Qed.
(** Without retries one answer decides; false means a signal. *)
Theorem C202_wait_once : forall answers k fuel, (0 < fuel)%nat -> ofd_setlkw fuel answers k false = match answers k with Granted => Ok (true, S k) | EIntr => Ok (false, S k) | _ => Throw end.
Proof. intros answers k [|f] F; [lia|]. cbn [ofd_setlkw]. destruct (answers k); reflexivity. Qed.
Print Assumptions C202_wait_retry.
Print Assumptions C202_waits.
Example C202_case : ofd_setlkw 9 (fun i => if (i <? 3)%nat then EIntr else Granted) 0 true = Ok (true, 4%nat) /\ ofd_setlkw 9 (fun i => if (i <? 3)%nat then EIntr else Granted) 0 false = Ok (false, 1%nat) /\ ofd_setlk EAgain = Ok false.
Proof. repeat split. Qed.
