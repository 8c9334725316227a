(** Properties C206 and C207: temporary directories, and working in an open directory. *)
From Verif Require Import BaseFacts IniModel IniProofs SysTreeModel SysTreeProps SysTempModel SysTempProps SysDirModel.

(** ** C206 *)
(** No directory on the way of a path is in the tree. *)
Definition outside (c : fs) (i s : ino) (ns : list str) : Prop := forall a b x, ns = a ++ b -> goes c s a x -> ~ under c i x.

Lemma shrunk_follow c d j : shrunk c d -> follow d j = follow c j.
Proof. intros Sh. specialize (Sh j). unfold follow. destruct (c j) as [[|es|t]|]; try (now rewrite Sh). destruct Sh as (es' & -> & _). reflexivity. Qed.
Lemma goes_same c d i s ns k : (forall x, ~ under c i x -> d x = c x) -> (forall j, follow d j = follow c j) -> outside c i s ns -> goes c s ns k -> goes d s ns k.
Proof.
  intros S F O G. induction G as [s|s es n j t ns k E L Fo G IH]; [constructor|]. assert (NS : ~ under c i s) by (apply (O [] (n :: ns) s); [reflexivity|constructor]).
  econstructor; [rewrite S by exact NS; exact E|exact L|rewrite F; exact Fo|]. apply IH. intros a b x -> G'. apply (O (n :: a) b x); [reflexivity|]. econstructor; eauto.
Qed.
Lemma goes_back c d i s ns k : (forall x, ~ under c i x -> d x = c x) -> (forall j, follow d j = follow c j) -> outside c i s ns -> goes d s ns k -> goes c s ns k.
Proof.
  intros S F O G. induction G as [s|s es n j t ns k E L Fo G IH]; [constructor|]. assert (NS : ~ under c i s) by (apply (O [] (n :: ns) s); [reflexivity|constructor]).
  rewrite S in E by exact NS. rewrite F in Fo. econstructor; [exact E|exact L|exact Fo|]. apply IH. intros a b x -> G'. apply (O (n :: a) b x); [reflexivity|]. econstructor; eauto.
Qed.
Lemma goes_join c s a x b y : goes c s a x -> goes c x b y -> goes c s (a ++ b) y.
Proof. intros G Gb. induction G; [exact Gb|]. cbn [app]. econstructor; eauto. Qed.
Lemma goes_end c s a x : goes c s a x -> forall b y, goes c s (a ++ b) y -> goes c x b y.
Proof. intros G b y. now apply goes_app. Qed.
Lemma lookup_In n es k : lookup n es = Some k -> In (n, k) es.
Proof. induction es as [|[m j] es IH]; [discriminate|]. cbn [lookup]. destruct (str_eqb_spec n m) as [->|]; [intros H; injection H as ->; now left|right; auto]. Qed.
Lemma prefix_last {A} (l : list A) (z : A) a b : l ++ [z] = a ++ b -> (b = [] /\ a = l ++ [z]) \/ exists b', l = a ++ b'.
Proof.
  revert b. induction b as [|y b _] using rev_ind; intros H; [left; rewrite app_nil_r in H; auto|]. right. rewrite app_assoc in H. apply app_inj_tail in H as (H & _). eauto.
Qed.

Lemma rmtree_path_does w h : forall c p d k i es, names_distinct c -> depth_le c h i -> c i = Some (ODir es) -> outside c i (start w p) (pt_dirs p) ->
  named c w p d k -> follow c k = Some i -> exists c', rmtree_path h true w c p i = Ok c' /\ does c c' d (pt_name p) i.
Proof.
  induction h as [|h IH]; intros c p d k i es ND D E O (G & ep & Ep & L) Fk; [cbn in D; rewrite E in D; contradiction|].
  assert (NU : ~ under c i d) by (apply (O (pt_dirs p) [] d); [symmetry; apply app_nil_r|exact G]).
  cbn [rmtree_path]. rewrite E.
  destruct (loop_step (fun c' _ n t => rmtree_path h true w c' (sub p n) t) c h i es ND E D) with (l := es) (pre := @nil (str * ino)) (cm := c) as (c1 & R & C1 & C2 & C3); auto.
  { intros c2 m k' Sh Out ND' D' (e & Ek) NU' L'. cbv beta.
    assert (F2 : forall j, follow c2 j = follow c j) by (intros j; now apply shrunk_follow).
    assert (Gi : goes c2 (start w (sub p m)) (pt_dirs (sub p m)) i).
    { cbn [sub pt_dirs]. change (start w (sub p m)) with (start w p). eapply goes_join; [eapply goes_same; eauto|]. econstructor; [rewrite Out by exact NU; exact Ep|exact L|rewrite F2; exact Fk|constructor]. }
    assert (X : exists e', c2 i = Some (ODir e') /\ lookup m e' = Some k'). { unfold entries in L'. destruct (c2 i) as [[|e'|]|]; try discriminate. eauto. }
    destruct X as (e' & Ei' & Lm).
    assert (Sub : forall x, under c2 k' x -> under c i x).
    { intros x U. destruct (shrunk_dir _ _ _ _ Sh Ei') as (e0 & E0 & Inc). eapply under_sub; [exact E0|apply Inc, lookup_In; exact Lm|]. eapply shrunk_under; eauto. }
    destruct (IH c2 (sub p m) i k' k' e ND' D' Ek) as (d' & Rd & Dd).
    - intros a b x Eab Ga. change (start w (sub p m)) with (start w p) in Ga. cbn [sub pt_dirs] in Eab. destruct (prefix_last _ _ _ _ Eab) as [(_ & ->)|(b' & Eb)].
      + assert (x = i) as ->; [|exact NU']. eapply goes_fun; [exact Ga|exact Gi].
      + intros U. apply (O a b' x Eb); [|now apply Sub]. eapply goes_back; [exact Out|exact F2| |exact Ga]. intros a1 b1 x1 -> G1. apply (O a1 (b1 ++ b') x1); [rewrite Eb; now rewrite app_assoc|exact G1].
    - split; [exact Gi|]. exists e'. auto.
    - unfold follow. now rewrite Ek.
    - exists d'. auto. }
  { intros m k' y []. }
  rewrite R. cbn [bind]. clear R.
  assert (Np : d <> i) by (intros ->; apply NU; econstructor; eauto).
  assert (Out : forall x, ~ under c i x -> c1 x = c x).
  { intros x NUx. destruct (Z.eq_dec x i) as [->|Nx]; [exfalso; apply NUx; econstructor; eauto|]. destruct (C2 x Nx) as [Q|[U _]]; [exact Q|contradiction]. }
  assert (F1 : forall j, follow c1 j = follow c j).
  { intros j. unfold follow. destruct (Z.eq_dec j i) as [->|Nj]; [now rewrite C1, E|]. destruct (C2 j Nj) as [->|[U Q]]; [reflexivity|]. destruct (under_dir_r _ _ _ U) as (ej & Ej). rewrite Ej, Q; [reflexivity|]. econstructor; eauto. }
  assert (Ep1 : c1 d = Some (ODir ep)) by (rewrite Out by exact NU; exact Ep).
  assert (EN : entry c1 w p = inl (d, Some k)). { apply entry_named. split; [eapply goes_same; eauto|]. eauto. }
  unfold remove. rewrite EN.
  assert (Ke : match c1 k with Some (ODir (_ :: _)) => @Throw fs | _ => Ok (remove_entry c1 d (pt_name p)) end = Ok (remove_entry c1 d (pt_name p))).
  { unfold follow in Fk. destruct (Z.eq_dec k i) as [->|Nk]; [now rewrite C1|]. destruct (c k) as [[|e|t]|] eqn:Ek; try discriminate; try (injection Fk as ->; contradiction).
    rewrite Out; [now rewrite Ek|]. intros U. destruct (under_dir_r _ _ _ U) as (e & Q). congruence. }
  rewrite Ke. eexists. split; [reflexivity|].
  assert (All : forall j, under c i j -> c1 j = Some (ODir [])).
  { intros j U. destruct (Z.eq_dec j i) as [->|Nj]; [exact C1|]. inversion U as [? ? ?|? es' m k' ? E' I' U']; subst; [congruence|].
    assert (es' = es) by congruence. subst. eapply C3; eauto. }
  split; [|split].
  - intros j U. rewrite remove_other; [auto|]. intros ->. contradiction.
  - intros j Nj. rewrite remove_other by exact Nj. destruct (Z.eq_dec j i) as [->|Ni].
    + right. split; [econstructor; eauto|exact C1].
    + destruct (C2 j Ni) as [Q|[U _]]; [now left|]. right. auto.
  - unfold remove_entry. rewrite Z.eqb_refl. now rewrite Ep1, Ep.
Qed.
(** A new empty directory under a name that was free. *)
Theorem C206_created : forall c w prefix x i, c i = None ->
  match Tempdir c w prefix x i with
  | Ok (t, c') =>
      td_path t = mk_path (pt_abs prefix) (pt_dirs prefix) (pt_name prefix ++ x) /\ td_dir t = i /\ td_rmtree t = true /\ (forall d j, ~ named c w (td_path t) d j) /\
      c' i = Some (ODir []) /\ exists d, named c' w (td_path t) d i /\ forall e n, lookup n (entries c' e) = if (e =? d) && str_eqb (pt_name (td_path t)) n then Some i else lookup n (entries c e)
  | Throw => let p := mk_path (pt_abs prefix) (pt_dirs prefix) (pt_name prefix ++ x) in ~ has_directory c w p \/ exists d j, named c w p d j
  | _ => False
  end.
Proof.
  intros c w prefix x i NI. unfold Tempdir, mkdtemp. set (p := mk_path _ _ _). destruct (entry c w p) as [[d [j|]]|e0] eqn:EN; cbn [bind].
  { right. exists d, j. now apply entry_named. }
  2: { left. apply (entry_err _ _ _ _ EN). }
  pose proof EN as EN0. unfold entry in EN. destruct (walk _ _ _) as [d'|] eqn:W; [|discriminate]. destruct (c d') as [[|es|]|] eqn:E; try discriminate. injection EN as -> L. apply walk_goes in W.
  set (c1 := fun j => if j =? i then Some (ODir []) else c j). assert (NE : d <> i) by congruence. assert (E1 : c1 d = Some (ODir es)) by (unfold c1; destruct (Z.eqb_spec d i); congruence).
  assert (SL := set_lookup c1 d (pt_name p) i). assert (D1 : is_dir c1 d = true) by (unfold is_dir; now rewrite E1). specialize (SL D1).
  assert (EC : forall e, entries c1 e = entries c e). { intros e. unfold entries, c1. destruct (Z.eqb_spec e i) as [->|]; [now rewrite NI|reflexivity]. }
  assert (EI : set_entry c1 d (pt_name p) i i = Some (ODir [])). { unfold set_entry. destruct (Z.eqb_spec i d); [congruence|]. unfold c1. now rewrite Z.eqb_refl. }
  assert (N : named (set_entry c1 d (pt_name p) i) w p d i).
  { split.
    + apply (goes_grow c); [|exact W]. intros k K. unfold set_entry. destruct (Z.eqb_spec k d) as [->|].
      * right. rewrite E1. eexists es, _. split; [exact E|]. split; [reflexivity|]. intros n j Lj. rewrite lookup_app, lookup_filter. destruct (str_eqb (pt_name p) n) eqn:Q; [apply str_eq_iff in Q; rewrite <- Q in Lj; assert (L2 : lookup (pt_name p) es = None) by exact L; rewrite L2 in Lj; discriminate|now rewrite Lj].
      * left. unfold c1. destruct (Z.eqb_spec k i); congruence.
    + specialize (SL d (pt_name p)). rewrite Z.eqb_refl, str_eqb_refl in SL. cbn [andb] in SL. unfold entries in SL. destruct (set_entry c1 d (pt_name p) i d) as [[|es'|]|] eqn:E2; try discriminate SL. exists es'. auto. }
  assert (KS : k_stat (set_entry c1 d (pt_name p) i) w p = inl i) by (unfold k_stat; pose proof N as N'; apply entry_named in N'; rewrite N'; unfold follow; now rewrite EI).
  match goal with |- context [k_stat ?a ?b ?p0] => change (k_stat a b p0) with (k_stat (set_entry c1 d (pt_name p) i) w p) end. rewrite KS. cbn [td_path td_dir td_rmtree].
  split; [reflexivity|]. split; [reflexivity|]. split; [reflexivity|]. split; [apply (entry_none _ _ _ _ EN0)|]. split; [exact EI|]. exists d. split; [exact N|]. intros e n. rewrite SL, EC. reflexivity.
Qed.
Print Assumptions C206_created.
(** The end of the object, when its path still is that of the directory: all that is in
    it is gone, and nothing else. *)
Theorem C206_removed_partial : forall c w t d k es h, td_rmtree t = true -> names_distinct c -> depth_le c h (td_dir t) -> c (td_dir t) = Some (ODir es) ->
  named c w (td_path t) d k -> follow c k = Some (td_dir t) -> outside c (td_dir t) (start w (td_path t)) (pt_dirs (td_path t)) ->
  exists c', destroy_dir h true c w t = Ok (Some c') /\
    (forall j, under c (td_dir t) j -> c' j = Some (ODir [])) /\
    (forall j, ~ under c (td_dir t) j -> j <> d -> c' j = c j) /\
    (forall m, lookup m (entries c' d) = if str_eqb (pt_name (td_path t)) m then None else lookup m (entries c d)) /\
    forall e j, ~ named c' w (td_path t) e j.
Proof.
  intros c w t d k es h R ND D E N F O. destruct (rmtree_path_does w h c (td_path t) d k (td_dir t) es ND D E O N F) as (c' & Rm & D1 & D2 & D3).
  exists c'. unfold destroy_dir. rewrite R, Rm. split; [reflexivity|]. split; [exact D1|].
  assert (D2' : forall j, ~ under c (td_dir t) j -> j <> d -> c' j = c j) by (intros j Nj Nd; destruct (D2 j Nd) as [Q|[U _]]; [exact Q|contradiction]).
  split; [exact D2'|]. destruct N as (G & ep & Ep & L).
  assert (X : forall m, lookup m (entries c' d) = if str_eqb (pt_name (td_path t)) m then None else lookup m (entries c d)).
  { intros m. pose proof (remove_lookup c d (pt_name (td_path t)) d m) as RL. rewrite Z.eqb_refl in RL. cbn [andb] in RL. rewrite <- RL. unfold entries. now rewrite D3. }
  split; [exact X|]. intros e j (G' & e' & Ee & L').
  assert (NU : forall a b x, pt_dirs (td_path t) = a ++ b -> goes c (start w (td_path t)) a x -> ~ under c (td_dir t) x) by exact O.
  (* the way to a directory in the new state is a way in the old one *)
  assert (Back : forall s ns y, (forall a b x, ns = a ++ b -> goes c s a x -> ~ under c (td_dir t) x) -> goes c' s ns y -> goes c s ns y).
  { intros s ns y Ou Gy. induction Gy as [s|s es0 n j0 t0 ns y Es Ls Fs Gy IH]; [constructor|].
    assert (Fj : follow c j0 = Some t0).
    { unfold follow in *. destruct (Z.eq_dec j0 d) as [->|Nj].
      - rewrite D3, (remove_same _ _ _ _ Ep) in Fs. now rewrite Ep.
      - destruct (D2 j0 Nj) as [Q|[U Q]]; [now rewrite Q in Fs|]. rewrite Q in Fs. destruct (under_dir_r _ _ _ U) as (ej & ->). exact Fs. }
    assert (Ss : exists es1, c s = Some (ODir es1) /\ lookup n es1 = Some j0).
    { destruct (Z.eq_dec s d) as [->|Nd].
      - exists ep. split; [exact Ep|]. specialize (X n). unfold entries in X. rewrite Es, Ep, Ls in X. destruct (str_eqb _ n); [discriminate|]. now symmetry.
      - rewrite D2' in Es; [eauto| |exact Nd]. apply (Ou [] (n :: ns) s); [reflexivity|constructor]. }
    destruct Ss as (es1 & Es1 & Ls1). econstructor; [exact Es1|exact Ls1|exact Fj|]. apply IH. intros a b x -> Ga. apply (Ou (n :: a) b x); [reflexivity|]. econstructor; eauto. }
  apply Back in G'; [|exact NU]. pose proof (goes_fun _ _ _ _ _ G' G) as ->. specialize (X (pt_name (td_path t))). rewrite str_eqb_refl in X. unfold entries in X. rewrite Ee in X. congruence.
Qed.
Print Assumptions C206_removed_partial.

(** *** A path that leads nowhere any more *)
Definition missing (c : fs) (w : place) (p : path) : Prop := entry c w p = inr ENOENT \/ exists d, entry c w p = inl (d, None).
Lemma missing_iff c w p : missing c w p <-> (forall d j, ~ named c w p d j) /\ entry c w p <> inr ENOTDIR.
Proof.
  unfold missing. split.
  - intros [E|(d & E)]; (split; [intros d' j N; apply entry_named in N; congruence|congruence]).
  - intros (N & NB). destruct (entry c w p) as [[d [j|]]|e] eqn:E; [exfalso; apply (N d j); now apply entry_named|eauto|]. destruct e; [auto|contradiction|]. destruct (entry_err _ _ _ _ E) as (_ & _ & _ & X). contradiction.
Qed.
Lemma remove_missing c w p : missing c w p -> remove c w p = Ok c.
Proof. unfold remove. intros [->|(d & ->)]; reflexivity. Qed.
Lemma walk_err c ns : forall i b e, walk c i ns = inr e -> walk c i (ns ++ b) = inr e.
Proof.
  induction ns as [|n ns IH]; intros i b e H; [discriminate|]. cbn [app walk] in *. destruct (c i) as [[|es|]|]; auto. destruct (lookup n es) as [j|]; [|exact H]. destruct (follow c j); [|exact H]. now apply IH.
Qed.
Lemma missing_sub c w p n : missing c w p -> missing c w (sub p n).
Proof.
  intros M. left. unfold entry. cbn [sub pt_dirs]. change (start w (sub p n)) with (start w p). unfold missing, entry in M. destruct (walk c (start w p) (pt_dirs p)) as [d|e] eqn:W.
  - apply walk_goes in W. rewrite (walk_app _ _ _ _ _ W). cbn [walk]. destruct M as [M|(d' & M)]; destruct (c d) as [[|es|]|]; try discriminate. injection M as -> ->. reflexivity.
  - destruct M as [M|(d' & M)]; [|discriminate]. injection M as ->. now rewrite (walk_err _ _ _ _ _ W).
Qed.
(** Directories lose only entries that are no directories. *)
Definition thinned (c d : fs) : Prop := forall x, match c x with
  | Some (ODir es) => exists g, (forall e, In e es -> is_dir c (snd e) = true -> g e = true) /\ d x = Some (ODir (filter g es))
  | o => d x = o
  end.
Definition only_dirs (c : fs) (es : list (str * ino)) : list (str * ino) := filter (fun e => is_dir c (snd e)) es.
Lemma filter_and {A} (f g : A -> bool) l : filter g (filter f l) = filter (fun x => f x && g x) l.
Proof. induction l as [|x l IH]; [reflexivity|]. cbn [filter]. destruct (f x); cbn [filter andb]; [destruct (g x); now rewrite IH|exact IH]. Qed.
Lemma filter_all {A} (f : A -> bool) l : (forall x, In x l -> f x = true) -> filter f l = l.
Proof. induction l as [|x l IH]; intros H; [reflexivity|]. cbn [filter]. rewrite (H x) by now left. f_equal. apply IH. intros y I. apply H. now right. Qed.
Lemma filter_eq {A} (f g : A -> bool) l : (forall x, In x l -> f x = g x) -> filter f l = filter g l.
Proof. induction l as [|x l IH]; intros H; [reflexivity|]. cbn [filter]. rewrite (H x) by now left. rewrite IH; [reflexivity|]. intros y I. apply H. now right. Qed.
Lemma thinned_refl c : thinned c c.
Proof. intros x. destruct (c x) as [[|es|]|]; auto. exists (fun _ => true). split; [auto|]. now rewrite filter_all. Qed.
Lemma thinned_dir c d : thinned c d -> forall j, is_dir d j = is_dir c j.
Proof. intros T j. specialize (T j). unfold is_dir. destruct (c j) as [[|es|]|]; try (now rewrite T). destruct T as (g & _ & ->). reflexivity. Qed.
Lemma thinned_trans c d e : thinned c d -> thinned d e -> thinned c e.
Proof.
  intros T U x. pose proof (thinned_dir _ _ T) as TD. specialize (T x). specialize (U x). destruct (c x) as [[|es|]|]; try (now rewrite T in U). destruct T as (g & Hg & E). rewrite E in U. destruct U as (g' & Hg' & E').
  exists (fun a => g a && g' a). split; [|rewrite E'; now rewrite filter_and]. intros a I D. rewrite (Hg a I D). cbn [andb]. apply Hg'; [|now rewrite TD]. apply filter_In. auto.
Qed.
Lemma thinned_shrunk c d : thinned c d -> shrunk c d.
Proof. intros T x. specialize (T x). destruct (c x) as [[|es|]|]; auto. destruct T as (g & _ & E). exists (filter g es). split; [exact E|]. intros a I. apply filter_In in I. apply I. Qed.
Lemma thinned_under c d i j : thinned c d -> under c i j -> under d i j.
Proof.
  intros T. induction 1 as [i es E|i es n k j E I U IH]; pose proof (T i) as Ti; rewrite E in Ti; destruct Ti as (g & Hg & Ed); [econstructor; eauto|].
  eapply under_sub; [exact Ed| |exact IH]. apply filter_In. split; [exact I|]. apply Hg; [exact I|]. destruct (under_dir_l _ _ _ U) as (ek & Ek). unfold is_dir. cbn [snd]. now rewrite Ek.
Qed.
Lemma thinned_only c d x es : thinned c d -> c x = Some (ODir es) -> only_dirs d (entries d x) = only_dirs c es.
Proof.
  intros T E. pose proof (thinned_dir _ _ T) as TD. pose proof (T x) as Tx. rewrite E in Tx. destruct Tx as (g & Hg & Ed). unfold entries, only_dirs. rewrite Ed, filter_and. apply filter_eq. intros a I. rewrite TD. destruct (is_dir c (snd a)) eqn:Q; [rewrite (Hg a I Q); reflexivity|now rewrite andb_false_r].
Qed.
Lemma nodup_filter (g : str * ino -> bool) l : NoDup (map fst l) -> NoDup (map fst (filter g l)).
Proof.
  induction l as [|e l IH]; intros H; [constructor|]. cbn [map] in H. inversion H as [|? ? N M]; subst. cbn [filter]. destruct (g e); [|auto]. cbn [map]. constructor; [|auto]. intros I. apply N. apply in_map_iff in I as (a & <- & I). apply filter_In in I. apply in_map. apply I.
Qed.
Lemma thinned_names c d : thinned c d -> names_distinct c -> names_distinct d.
Proof.
  intros T ND x es E. destruct (shrunk_dir _ _ _ _ (thinned_shrunk _ _ T) E) as (es0 & E0 & _). pose proof (T x) as Tx. rewrite E0 in Tx. destruct Tx as (g & _ & Ed). rewrite E in Ed. injection Ed as ->. apply nodup_filter. now apply (ND x).
Qed.
Lemma lookup_sub n es es' j : NoDup (map fst es) -> incl es' es -> lookup n es' = Some j -> lookup n es = Some j.
Proof.
  intros ND I L. apply lookup_In in L. apply I in L. clear I. induction es as [|[m k] es IH]; [destruct L|]. cbn [map fst] in ND. inversion ND as [|? ? N M]; subst. cbn [lookup]. destruct L as [L|L].
  - injection L as -> ->. now rewrite str_eqb_refl.
  - destruct (str_eqb_spec n m) as [->|]; [exfalso; apply N; apply in_map_iff; exists (m, j); auto|auto].
Qed.
Lemma walk_shrunk c d ns : names_distinct c -> shrunk c d -> forall i, match walk c i ns with
  | inl k => walk d i ns = inl k \/ walk d i ns = inr ENOENT
  | inr ENOENT => walk d i ns = inr ENOENT
  | inr _ => True
  end.
Proof.
  intros ND Sh. induction ns as [|n ns IH]; intros i; [left; reflexivity|]. cbn [walk]. pose proof (Sh i) as Si. destruct (c i) as [[|es|]|] eqn:E; auto. destruct Si as (es' & -> & Inc).
  destruct (lookup n es) as [j|] eqn:L.
  - destruct (lookup n es') as [j'|] eqn:L'.
    + pose proof (lookup_sub _ _ _ _ (ND i es E) Inc L') as X. assert (j' = j) by congruence. subst j'. rewrite (shrunk_follow c d j Sh). destruct (follow c j) as [t|]; [apply IH|reflexivity].
    + destruct (follow c j) as [t|]; [|reflexivity]. destruct (walk c t ns) as [k|[| |]]; auto.
  - destruct (lookup n es') as [j'|] eqn:L'; [|reflexivity]. pose proof (lookup_sub _ _ _ _ (ND i es E) Inc L') as X. congruence.
Qed.
Lemma missing_shrunk c d w p : names_distinct c -> shrunk c d -> missing c w p -> missing d w p.
Proof.
  intros ND Sh M. pose proof (walk_shrunk c d (pt_dirs p) ND Sh (start w p)) as W. unfold missing, entry in *. destruct (walk c (start w p) (pt_dirs p)) as [k|e] eqn:Ew.
  - pose proof (Sh k) as Sk. destruct (c k) as [[|es|]|] eqn:Ek; try (destruct M as [M|(? & M)]; discriminate). destruct Sk as (es' & Edk & Inc). destruct M as [M|(d0 & M)]; [discriminate|]. injection M as -> L. destruct W as [->| ->]; [|now left]. right. rewrite Edk. exists d0. f_equal. f_equal.
    destruct (lookup (pt_name p) es') as [j'|] eqn:L'; [|reflexivity]. pose proof (lookup_sub _ _ _ _ (ND d0 es Ek) Inc L') as X. congruence.
  - destruct M as [M|(? & M)]; [|discriminate]. injection M as ->. rewrite W. now left.
Qed.
(** Files and links are gone, directories are left. *)
Definition hollow (c d : fs) (i : ino) : Prop :=
  thinned c d /\ (forall y, under c i y -> d y = Some (ODir (only_dirs c (entries c y)))) /\
  forall y, d y = c y \/ (under c i y /\ d y = Some (ODir (only_dirs c (entries c y)))).
Lemma hollow_loop (rm : fs -> ino -> str -> ino -> outcome fs) (c : fs) h i es :
  names_distinct c -> c i = Some (ODir es) -> depth_le c (S h) i ->
  (forall d n k, thinned c d -> depth_le d h k -> is_dir d k = true -> exists d', rm d i n k = Ok d' /\ hollow d d' k) ->
  forall l pre cm, es = pre ++ l -> thinned c cm -> cm i = Some (ODir (only_dirs c pre ++ l)) ->
    (forall y, y <> i -> cm y = c y \/ (under c i y /\ cm y = Some (ODir (only_dirs c (entries c y))))) ->
    (forall n k y, In (n, k) pre -> under c k y -> cm y = Some (ODir (only_dirs c (entries c y)))) ->
    exists c', rm_loop rm true i cm l = Ok c' /\ hollow c c' i.
Proof.
  intros ND Ei D RM. assert (Ent : entries c i = es) by (unfold entries; now rewrite Ei). induction l as [|[n k] l IH]; intros pre cm Es T Ci Inv Pre.
  - exists cm. cbn [rm_loop]. split; [reflexivity|]. rewrite app_nil_r in *. subst pre. split; [exact T|]. split.
    + intros y U. inversion U as [? es1 E1 X Y|? es1 m k1 ? E1 I1 U1 X Y]; [rewrite <- Y, Ent; exact Ci|]. assert (es1 = es) by congruence. subst es1. now apply (Pre m k1 y).
    + intros y. destruct (Z.eq_dec y i) as [->|N]; [right; split; [econstructor; eauto|rewrite Ent; exact Ci]|auto].
  - assert (Ik : In (n, k) es) by (rewrite Es; apply in_or_app; right; now left).
    assert (NCy : ~ under c k i) by (eapply no_cycle; [exact D|exact Ei|exact Ik]).
    assert (OD : only_dirs c (pre ++ [(n, k)]) = only_dirs c pre ++ (if is_dir c k then [(n, k)] else [])). { unfold only_dirs. rewrite filter_app. cbn [filter snd]. now destruct (is_dir c k). }
    cbn [rm_loop isdir bind]. rewrite (thinned_dir _ _ T k). destruct (is_dir c k) eqn:Dk.
    + assert (Fo : follow cm k = Some k). { pose proof (thinned_dir _ _ T k) as Q. rewrite Dk in Q. unfold is_dir, follow in *. destruct (cm k) as [[| |]|]; try discriminate. reflexivity. }
      rewrite Fo. destruct (RM cm n k T) as (d & Rd & T2 & H1 & H2).
      { eapply shrunk_depth; [apply thinned_shrunk; exact T|]. eapply depth_dir; eauto. } { now rewrite (thinned_dir _ _ T k). }
      rewrite Rd. cbn [bind]. assert (K : forall y e, c y = Some (ODir e) -> only_dirs cm (entries cm y) = only_dirs c (entries c y)). { intros y e Ey. rewrite (thinned_only c cm y e T Ey). unfold entries. now rewrite Ey. }
      assert (H2' : forall y, d y = cm y \/ (under c k y /\ d y = Some (ODir (only_dirs c (entries c y))))).
      { intros y. destruct (H2 y) as [Q|[U Q]]; [now left|]. right. pose proof (shrunk_under _ _ _ _ (thinned_shrunk _ _ T) U) as U'. split; [exact U'|]. rewrite Q. destruct (under_dir_r _ _ _ U') as (e & Ey). now rewrite (K y e Ey). }
      apply (IH (pre ++ [(n, k)]) d).
      * now rewrite <- app_assoc.
      * eapply thinned_trans; eauto.
      * rewrite OD, <- app_assoc. cbn [app]. destruct (H2' i) as [Q|[U _]]; [now rewrite Q|contradiction].
      * intros y Ny. destruct (H2' y) as [Q|[U Q]]; [rewrite Q; auto|]. right. split; [eapply under_sub; eauto|exact Q].
      * intros m k' y I U. apply in_app_iff in I as [I|[I|[]]].
        -- destruct (H2' y) as [Q|[_ Q]]; [rewrite Q; eapply Pre; eauto|exact Q].
        -- injection I as <- <-. destruct (H2' y) as [Q|[_ Q]]; [|exact Q]. rewrite (H1 y) by (eapply thinned_under; eauto). destruct (under_dir_r _ _ _ U) as (e & Ey). now rewrite (K y e Ey).
    + assert (Nn : ~ In n (map fst l) /\ ~ In n (map fst pre)).
      { pose proof (ND i es Ei) as X. rewrite Es, map_app in X. cbn in X. apply NoDup_remove_2 in X. split; intros I; apply X; apply in_or_app; auto. }
      assert (Rm : remove_entry cm i n i = Some (ODir (only_dirs c pre ++ l))).
      { rewrite (remove_same _ _ _ _ Ci), filter_app. rewrite filter_head by apply Nn. rewrite filter_self; [reflexivity|]. intros I. apply in_map_iff in I as (a & Ea & I). apply filter_In in I as (I & _). apply (proj2 Nn). apply in_map_iff. eauto. }
      apply (IH (pre ++ [(n, k)]) (remove_entry cm i n)).
      * now rewrite <- app_assoc.
      * eapply thinned_trans; [exact T|]. intros x. destruct (Z.eq_dec x i) as [->|Nx]; [|rewrite remove_other by exact Nx; apply (thinned_refl cm x)].
        rewrite Ci. exists (fun e => negb (str_eqb n (fst e))). split; [|rewrite (remove_same _ _ _ _ Ci); reflexivity].
        intros [m k'] I Dk'. cbn [fst snd] in *. destruct (str_eqb_spec n m) as [<-|]; [|reflexivity]. exfalso. rewrite (thinned_dir _ _ T) in Dk'. apply in_app_iff in I as [I|[I|I]].
        -- apply filter_In in I as (I & _). apply (proj2 Nn). apply in_map_iff. exists (n, k'). auto.
        -- injection I as ->. congruence.
        -- apply (proj1 Nn). apply in_map_iff. exists (n, k'). auto.
      * rewrite OD, app_nil_r. exact Rm.
      * intros y Ny. rewrite remove_other by exact Ny. auto.
      * intros m k' y I U. assert (Ny : y <> i). { intros ->. apply (no_cycle c (S h) i es m k' D Ei); [rewrite Es; apply in_app_iff in I as [I|[I|[]]]; apply in_or_app; [now left|right; left; exact I]|exact U]. }
        rewrite remove_other by exact Ny. apply in_app_iff in I as [I|[I|[]]]; [eapply Pre; eauto|]. injection I as <- <-. destruct (under_dir_l _ _ _ U) as (e & Ek). unfold is_dir in Dk. rewrite Ek in Dk. discriminate.
Qed.
Lemma hollow_rmtree w h : forall c p i, names_distinct c -> depth_le c h i -> is_dir c i = true -> missing c w p -> exists c', rmtree_path h true w c p i = Ok c' /\ hollow c c' i.
Proof.
  induction h as [|h IH]; intros c p i ND D Di M; assert (X : exists es, c i = Some (ODir es)) by (unfold is_dir in Di; destruct (c i) as [[| |]|]; try discriminate; eauto); destruct X as (es & E); [cbn in D; rewrite E in D; contradiction|].
  cbn [rmtree_path]. rewrite E.
  destruct (hollow_loop (fun c' _ n t => rmtree_path h true w c' (sub p n) t) c h i es ND E D) with (l := es) (pre := @nil (str * ino)) (cm := c) as (c1 & R & H); auto.
  - intros d n k T Dd Dk. apply IH; auto; [eapply thinned_names; eauto|]. eapply missing_shrunk; [exact ND|apply thinned_shrunk; exact T|]. now apply missing_sub.
  - apply thinned_refl.
  - intros n k y [].
  - rewrite R. cbn [bind]. exists c1. split; [|exact H]. apply remove_missing. eapply missing_shrunk; [exact ND|apply thinned_shrunk, H|exact M].
Qed.
(** When the path leads nowhere at the end, because the directory was renamed or the
    current directory changed: no error is told, the files are deleted and all the
    directories stay. *)
Theorem C206_refuted_moved : forall c w t h, td_rmtree t = true -> names_distinct c -> depth_le c h (td_dir t) -> is_dir c (td_dir t) = true ->
  (forall d j, ~ named c w (td_path t) d j) -> ~ blocked c w (td_path t) ->
  exists c', destroy_dir h true c w t = Ok (Some c') /\ (forall j, under c (td_dir t) j -> is_dir c' j = true /\ under c' (td_dir t) j /\ forall n k, In (n, k) (entries c' j) <-> In (n, k) (entries c j) /\ is_dir c k = true) /\
    forall j, ~ under c (td_dir t) j -> c' j = c j.
Proof.
  intros c w t h R ND D Di N NB. destruct (hollow_rmtree w h c (td_path t) (td_dir t) ND D Di) as (c' & Rm & T & H1 & H2); [apply missing_iff; split; [exact N|]; intros EN; apply NB; now apply (entry_err _ _ _ _ EN)|].
  exists c'. unfold destroy_dir. rewrite R, Rm. split; [reflexivity|]. split.
  - intros j U. pose proof (H1 j U) as E. split; [unfold is_dir; now rewrite E|]. split; [now apply thinned_under with (c := c)|]. intros n k. unfold entries at 1. rewrite E. unfold only_dirs. rewrite filter_In. reflexivity.
  - intros j NU. destruct (H2 j) as [Q|[U _]]; [exact Q|contradiction].
Qed.
Print Assumptions C206_refuted_moved.
(** And when another directory has that path then, that one is deleted if it is empty, and the
    temporary directory stays. *)
Theorem C206_refuted_other : forall c w t d j h, td_rmtree t = true -> (0 < h)%nat -> c (td_dir t) = Some (ODir []) -> named c w (td_path t) d j -> j <> td_dir t -> d <> td_dir t -> c j = Some (ODir []) ->
  exists c', destroy_dir h true c w t = Ok (Some c') /\ lookup (pt_name (td_path t)) (entries c' d) = None /\ c' (td_dir t) = Some (ODir []) /\
    forall e n, (e, n) <> (d, pt_name (td_path t)) -> lookup n (entries c' e) = lookup n (entries c e).
Proof.
  intros c w t d j h R Hh E N Nj Nd Ej. destruct h as [|h]; [lia|]. pose proof N as EN. apply entry_named in EN. exists (remove_entry c d (pt_name (td_path t))). unfold destroy_dir. rewrite R. cbn [rmtree_path]. rewrite E. cbn [rm_loop bind]. unfold remove. rewrite EN, Ej.
  split; [reflexivity|]. split; [rewrite remove_lookup, Z.eqb_refl, str_eqb_refl; reflexivity|]. split; [rewrite remove_other by congruence; exact E|]. intros e n Ne. rewrite remove_lookup. destruct (Z.eqb_spec e d) as [->|]; [|reflexivity]. cbn [andb]. destruct (str_eqb_spec (pt_name (td_path t)) n) as [<-|]; [congruence|reflexivity].
Qed.
Print Assumptions C206_refuted_other.
(** The program is never ended by the destructor, and a directory that is to be kept is kept. *)
Theorem C206_quiet : forall fuel known c w t, destroy_dir fuel known c w t <> Terminate /\ destroy_dir fuel known c w t <> Throw /\ destroy_dir fuel known c w (rmtree_on_exit t false) = Ok (Some c).
Proof.
  assert (RT : forall known w fuel c p i, rmtree_path fuel known w c p i <> Terminate).
  { intros known w. induction fuel as [|f IH]; intros c p i; [discriminate|]. cbn [rmtree_path]. destruct (c i) as [[|es|]|]; try discriminate.
    assert (L : forall l c', rm_loop (fun c' _ n t => rmtree_path f known w c' (sub p n) t) known i c' l <> Terminate).
    { induction l as [|[n j] l IHl]; intros c'; [discriminate|]. cbn [rm_loop]. assert (ID : isdir known c' j <> Terminate). { unfold isdir. destruct known; [discriminate|]. destruct (follow c' j) as [t|]; [|discriminate]. destruct (c' t); discriminate. }
      destruct (isdir known c' j) as [b| | | |]; cbn [bind]; try discriminate; [|contradiction]. destruct b.
      - destruct (follow c' j) as [t|]; cbn [bind]; [|discriminate]. specialize (IH c' (sub p n) t). destruct (rmtree_path f known w c' (sub p n) t); cbn [bind]; try discriminate; [apply IHl|contradiction].
      - cbn [bind]. apply IHl. }
    specialize (L es c). destruct (rm_loop _ _ _ _ _) as [c1| | | |]; cbn [bind]; try discriminate; [|contradiction]. unfold remove. destruct (entry c1 w p) as [[d [j|]]|[| |]]; try discriminate. destruct (c1 j) as [[|[|]|]|]; discriminate. }
  intros fuel known c w t. unfold destroy_dir. specialize (RT known w fuel c (td_path t) (td_dir t)). split; [|split]; [destruct (td_rmtree t); [|discriminate]..|reflexivity].
  - destruct (rmtree_path _ _ _ _ _ _); try discriminate. contradiction.
  - destruct (rmtree_path _ _ _ _ _ _); discriminate.
Qed.
Print Assumptions C206_quiet.
(** In root 1: the directory "d" (2) with the file "f" (3) and the directory "s" (5) with the
    file "g" (3); the current directory is the root, then "d". *)
Definition ex_t : fs := fun i => if i =? 1 then Some (ODir [([100], 2)]) else if i =? 2 then Some (ODir [([102], 3); ([115], 5)]) else if i =? 5 then Some (ODir [([103], 3)]) else if i =? 3 then Some OFile else None.
Example ex_t_distinct : names_distinct ex_t.
Proof.
  intros i es. unfold ex_t. destruct (i =? 1); [intros H; injection H as <-; repeat constructor; cbn; intuition discriminate|]. destruct (i =? 2); [intros H; injection H as <-; repeat constructor; cbn; intuition discriminate|].
  destruct (i =? 5); [intros H; injection H as <-; repeat constructor; cbn; intuition discriminate|]. destruct (i =? 3); discriminate.
Qed.
Example C206_case : let t := mk_tempdir (mk_path false [] [100]) 2 true in
  (exists c' , Tempdir ex_t (mk_place 1 2) (mk_path true [[100]] [116]) [97; 98; 99; 100; 101; 102] 9 = Ok (mk_tempdir (mk_path true [[100]] [116; 97; 98; 99; 100; 101; 102]) 9 true, c') /\ c' 9 = Some (ODir [])) /\
  depth_le ex_t 3 2 /\ named ex_t (mk_place 1 1) (td_path t) 1 2 /\ (forall d j, ~ named ex_t (mk_place 1 2) (td_path t) d j) /\
  (exists c', destroy_dir 3 true ex_t (mk_place 1 1) t = Ok (Some c') /\ c' 1 = Some (ODir []) /\ c' 5 = Some (ODir [])) /\
  (exists c', destroy_dir 3 true ex_t (mk_place 1 2) t = Ok (Some c') /\ c' 1 = Some (ODir [([100], 2)]) /\ c' 2 = Some (ODir [([115], 5)]) /\ c' 5 = Some (ODir [])).
Proof.
  cbv zeta. split; [eexists; split; reflexivity|]. split; [cbn; intros n k [H|[H|[]]]; injection H as <- <-; [exact I|]; cbn; intros n k [H|[]]; injection H as <- <-; exact I|]. split; [split; [constructor|eexists; split; reflexivity]|].
  split; [intros d j (G & es & E & L); cbn in G; inversion G; subst; cbn in E; injection E as <-; cbn in L; discriminate|]. split; eexists; (split; [reflexivity|]); repeat split.
Qed.
Example C206_outside : outside ex_t 2 1 [].
Proof.
  intros a b x E G. destruct a; [|discriminate]. inversion G; subst. intros U. assert (D : depth_le ex_t 3 2) by apply C206_case.
  inversion U as [? es Q|? es n k j Q I2 U2]; subst. cbn in Q. injection Q as <-. destruct I2 as [H|[H|[]]]; injection H as <- <-; inversion U2 as [? es2 Q2|? es2 n2 k2 j2 Q2 I3 U3]; subst; try discriminate. cbn in Q2. injection Q2 as <-. destruct I3 as [H|[]]. injection H as <- <-. inversion U3; subst; discriminate.
Qed.

(** ** C207 *)
(** A name in the open directory. The answers are told by the directory alone, whatever its
    path, the current directory and the root are now. *)
Definition bare (n : str) : path := mk_path false [] n.
Lemma entry_bare c w i n es : c i = Some (ODir es) -> entry c (from w i) (bare n) = inl (i, lookup n es).
Proof. intros E. unfold entry. cbn. now rewrite E. Qed.
Theorem C207_absent : forall c w i es n, c i = Some (ODir es) -> lookup n es = None ->
  openat_ifexists c w i (bare n) = Ok None /\ fstatat_ifexists c w i (bare n) = Ok None /\ lstatat_ifexists c w i (bare n) = Ok None /\ faccessat c w i (bare n) = false /\
  openat c w i (bare n) = Throw /\ fstatat c w i (bare n) = Throw /\ lstatat c w i (bare n) = Throw /\ unlinkat c w i (bare n) = Throw /\ rmdirat c w i (bare n) = Throw.
Proof.
  intros c w i es n E L. unfold openat_ifexists, fstatat, lstatat, fstatat_ifexists, lstatat_ifexists, faccessat, openat, unlinkat, rmdirat, stat, k_stat, k_lstat, k_unlink. rewrite !(entry_bare c w i n es E), L. repeat split.
Qed.
Print Assumptions C207_absent.
Theorem C207_present : forall c w i es n j o, c i = Some (ODir es) -> lookup n es = Some j -> c j = Some o ->
  lstatat c w i (bare n) = Ok o /\ lstatat_ifexists c w i (bare n) = Ok (Some o) /\
  (forall t u, (o = OLink (Some t) \/ (forall l, o <> OLink l) /\ t = j) -> c t = Some u ->
     openat c w i (bare n) = Ok t /\ openat_ifexists c w i (bare n) = Ok (Some t) /\ fstatat c w i (bare n) = Ok u /\ fstatat_ifexists c w i (bare n) = Ok (Some u) /\ faccessat c w i (bare n) = true) /\
  (o = OLink None -> openat c w i (bare n) = Throw /\ openat_ifexists c w i (bare n) = Ok None /\ fstatat c w i (bare n) = Throw /\ fstatat_ifexists c w i (bare n) = Ok None /\ faccessat c w i (bare n) = false).
Proof.
  intros c w i es n j o E L Ej. unfold openat_ifexists, fstatat, lstatat, fstatat_ifexists, lstatat_ifexists, faccessat, openat, stat, k_stat, k_lstat. rewrite !(entry_bare c w i n es E), L, !Ej. split; [reflexivity|]. split; [reflexivity|]. split.
  - intros t u H Et. assert (follow c j = Some t) as ->. { unfold follow. rewrite Ej. destruct H as [->|[N ->]]; [reflexivity|]. destruct o; try reflexivity. now destruct (N to). } rewrite !Et. repeat split.
  - intros ->. assert (follow c j = None) as -> by (unfold follow; now rewrite Ej). repeat split.
Qed.
Print Assumptions C207_present.
(** Names with directories in them: the functions agree on whether something is there, and
    a part of the name that is no directory is no missing entry. *)
Theorem C207_paths : forall c w i p,
  (faccessat c w i p = true <-> exists t, openat c w i p = Ok t) /\
  (forall t, openat c w i p = Ok t <-> openat_ifexists c w i p = Ok (Some t)) /\
  (openat_ifexists c w i p = Ok None -> openat c w i p = Throw /\ fstatat_ifexists c w i p = Ok None) /\
  (openat_ifexists c w i p = Throw -> openat c w i p = Throw /\ fstatat_ifexists c w i p = Throw).
Proof.
  intros c w i p. unfold faccessat, openat, openat_ifexists, fstatat_ifexists, stat. destruct (k_stat c (from w i) p) as [t|[| |]];
  (split; [split; [intros H; try discriminate; eauto|intros [u H]; try discriminate; reflexivity]|]);
  (split; [intros u; split; congruence|]); split; intros H; try discriminate; auto.
Qed.
Print Assumptions C207_paths.
(** What is made or deleted, is made or deleted in the open directory. *)
Theorem C207_changes : forall c w i es n k, c i = Some (ODir es) -> c k = None ->
  (lookup n es = None ->
    (exists c', mkdirat c w i (bare n) k = Ok c' /\ c' k = Some (ODir []) /\ forall e m, lookup m (entries c' e) = if (e =? i) && str_eqb n m then Some k else lookup m (entries c e)) /\
    (forall t, exists c', symlinkat c w i t (bare n) k = Ok c' /\ c' k = Some (OLink t) /\ forall e m, lookup m (entries c' e) = if (e =? i) && str_eqb n m then Some k else lookup m (entries c e))) /\
  (forall j, lookup n es = Some j ->
    mkdirat c w i (bare n) k = Throw /\ (forall t, symlinkat c w i t (bare n) k = Throw) /\
    (if is_dir c j then unlinkat c w i (bare n) = Throw else exists c', unlinkat c w i (bare n) = Ok c' /\ same_objects c c' /\ forall e m, lookup m (entries c' e) = if (e =? i) && str_eqb n m then None else lookup m (entries c e)) /\
    (c j = Some (ODir []) -> exists c', rmdirat c w i (bare n) = Ok c' /\ same_objects c c' /\ forall e m, lookup m (entries c' e) = if (e =? i) && str_eqb n m then None else lookup m (entries c e)) /\
    (c j <> Some (ODir []) -> rmdirat c w i (bare n) = Throw)).
Proof.
  intros c w i es n k E Ek. assert (Nk : i <> k) by congruence. split.
  - intros L.
    assert (C : forall o, (forall l, o = ODir l -> l = []) -> exists c', create c (from w i) (bare n) k o = Ok c' /\ c' k = Some o /\ forall e m, lookup m (entries c' e) = if (e =? i) && str_eqb n m then Some k else lookup m (entries c e)).
    { intros o Ho. unfold create. rewrite (entry_bare c w i n es E), L. eexists. split; [reflexivity|]. split; [unfold set_entry; destruct (Z.eqb_spec k i); [congruence|now rewrite Z.eqb_refl]|].
      intros e m. cbn [bare pt_name]. rewrite set_lookup. 2: { unfold is_dir. destruct (Z.eqb_spec i k); [congruence|]. now rewrite E. }
      destruct ((e =? i) && str_eqb n m); [reflexivity|]. unfold entries. destruct (Z.eqb_spec e k) as [->|]; [|reflexivity]. rewrite Ek. destruct o as [|l|]; try reflexivity. now rewrite (Ho l eq_refl). }
    split; [apply C; intros l H; now injection H as <-|]. intros t. apply C. discriminate.
  - intros j L. unfold mkdirat, symlinkat, create, unlinkat, rmdirat, k_unlink. rewrite !(entry_bare c w i n es E), L. split; [reflexivity|]. split; [reflexivity|]. split.
    + destruct (is_dir c j); [reflexivity|]. eexists. split; [reflexivity|]. split; [apply remove_objects|apply remove_lookup].
    + split; [intros ->; eexists; split; [reflexivity|]; split; [apply remove_objects|apply remove_lookup]|]. intros N. destruct (c j) as [[|[|]|]|]; try reflexivity. congruence.
Qed.
Print Assumptions C207_changes.
(** Renaming the open directory, or anything else outside of it, and changing the current
    directory make no difference. *)
Theorem C207_renamed : forall inside c w w2 src dst c' d1 d2 i es, k_rename inside c w src dst = inl c' -> goes c (start w src) (pt_dirs src) d1 -> goes c (start w dst) (pt_dirs dst) d2 -> d1 <> i -> d2 <> i -> c i = Some (ODir es) ->
  c' i = c i /\ forall n, openat_ifexists c' w2 i (bare n) = openat_ifexists c w i (bare n) /\ openat c' w2 i (bare n) = openat c w i (bare n) /\ faccessat c' w2 i (bare n) = faccessat c w i (bare n).
Proof.
  intros inside c w w2 src dst c' d1 d2 i es K G1 G2 N1 N2 E. assert (X : c' i = c i /\ forall j, follow c' j = follow c j).
  { unfold k_rename in K. destruct (entry c w src) as [[e1 [j|]]|] eqn:E1; try discriminate. destruct (entry c w dst) as [[e2 o]|] eqn:E2; try discriminate. destruct (is_dir c j && inside c e2 j); [discriminate|]. cbv zeta in K.
    assert (e1 = d1) as ->. { apply entry_named in E1 as (G & _). eapply goes_fun; eauto. }
    assert (e2 = d2) as ->. { unfold entry in E2. destruct (walk c (start w dst) (pt_dirs dst)) as [e|] eqn:W; [|discriminate]. apply walk_goes in W. destruct (c e) as [[|?|]|]; try discriminate. injection E2 as -> _. eapply goes_fun; eauto. }
    destruct (match o with Some k => k =? j | None => false end); [injection K as <-; auto|]. destruct (negb _); [discriminate|]. injection K as <-.
    assert (F : forall q q', same_objects q q' -> forall j0, follow q' j0 = follow q j0). { intros q q' SO j0. destruct (SO j0) as [A B]. unfold is_dir, follow in *. destruct (q j0) as [[|?|?]|] eqn:Q, (q' j0) as [[|?|?]|] eqn:Q'; try discriminate; try reflexivity; specialize (B eq_refl); congruence. }
    split; [unfold set_entry; destruct (Z.eqb_spec i d2); [congruence|]; now rewrite remove_other by congruence|]. intros j0. rewrite (F _ _ (set_objects _ _ _ _)). apply F, remove_objects. }
  destruct X as [X F]. split; [exact X|]. intros n. unfold openat, openat_ifexists, faccessat, k_stat. rewrite (entry_bare c w i n es E), (entry_bare c' w2 i n es) by congruence. destruct (lookup n es) as [j|]; [rewrite F|]; repeat split.
Qed.
Print Assumptions C207_renamed.
(** An absolute name has nothing to do with the open directory. *)
Theorem C207_absolute : forall c w i p, pt_abs p = true -> fstatat_ifexists c w i p = stat c w p /\ forall i', openat c w i p = openat c w i' p.
Proof. intros c w i p A. unfold fstatat_ifexists, stat, openat, k_stat, entry, start. rewrite A. split; reflexivity. Qed.
Print Assumptions C207_absolute.
Example C207_case : (exists c', k_rename (fun _ _ _ => false) ex_t (mk_place 1 1) (mk_path false [] [100]) (mk_path false [] [101]) = inl c' /\ stat c' (mk_place 1 1) (mk_path true [[100]] [102]) = Ok None /\ fstatat c' (mk_place 1 1) 2 (bare [102]) = Ok OFile) /\
  openat ex_t (mk_place 1 1) 2 (bare [115]) = Ok 5 /\ rmdirat ex_t (mk_place 1 1) 2 (bare [115]) = Throw /\ unlinkat ex_t (mk_place 1 1) 2 (bare [115]) = Throw /\
  (exists c', unlinkat ex_t (mk_place 1 1) 2 (bare [102]) = Ok c' /\ fstatat_ifexists c' (mk_place 1 1) 2 (bare [102]) = Ok None).
Proof. repeat split; eexists; repeat split; reflexivity. Qed.
