(** C170: deleting a directory with all its contents. *)
From Verif Require Import Base BaseFacts IniModel IniProofs SysTreeModel.
Open Scope string_scope.
Open Scope list_scope.
Open Scope Z_scope.

(** ** Specification *)
(** The directories of the tree rooted at a directory: through entries, never
    through links. *)
Inductive under (c : fs) : ino -> ino -> Prop :=
| under_root i es : c i = Some (ODir es) -> under c i i
| under_sub i es n k j : c i = Some (ODir es) -> In (n, k) es -> under c k j -> under c i j.
(** A finite tree: at most [h] levels below. *)
Fixpoint depth_le (c : fs) (h : nat) (i : ino) : Prop :=
  match c i with
  | Some (ODir es) => match h with O => False | S h' => forall n k, In (n, k) es -> depth_le c h' k end
  | _ => True
  end.
Definition names_distinct (c : fs) : Prop := forall i es, c i = Some (ODir es) -> NoDup (map fst es).

(** ** Facts *)
Lemma depth_dir c h i es : c i = Some (ODir es) -> depth_le c (S h) i -> forall n k, In (n, k) es -> depth_le c h k.
Proof. intros E. cbn. now rewrite E. Qed.
Lemma depth_S c h : forall i, depth_le c h i -> depth_le c (S h) i.
Proof.
  induction h as [|h IH]; intros i D.
  - cbn in D |- *. destruct (c i) as [[|es|]|]; auto. contradiction.
  - cbn [depth_le]. destruct (c i) as [[|es|]|] eqn:E; auto. intros n k I. apply IH. eapply depth_dir; eauto.
Qed.
Lemma depth_under c i j : under c i j -> forall h, depth_le c h i -> depth_le c h j.
Proof.
  induction 1 as [i es E|i es n k j E I U IH]; intros h D; [exact D|]. destruct h as [|h].
  - cbn in D. rewrite E in D. contradiction.
  - apply depth_S. apply IH. eapply depth_dir; eauto.
Qed.
Lemma no_cycle c h : forall i es n k, depth_le c h i -> c i = Some (ODir es) -> In (n, k) es -> ~ under c k i.
Proof.
  induction h as [|h IH]; intros i es n k D E I U.
  - cbn in D. rewrite E in D. contradiction.
  - apply (IH i es n k); auto. eapply depth_under; [exact U|]. eapply depth_dir; eauto.
Qed.
Lemma under_dir_l c i j : under c i j -> exists es, c i = Some (ODir es).
Proof. destruct 1; eauto. Qed.
Lemma under_dir_r c i j : under c i j -> exists es, c j = Some (ODir es).
Proof. induction 1; eauto. Qed.
Lemma under_trans c i k j : under c i k -> under c k j -> under c i j.
Proof. induction 1 as [i es E|i es n k' k E I U IH]; intros V; [exact V|]. eapply under_sub; eauto. Qed.

Lemma no_back c h i x : depth_le c h i -> under c i x -> x <> i -> ~ under c x i.
Proof.
  intros D U N V. inversion U as [? es E|? es n k ? E I U']; subst; [congruence|].
  apply (no_cycle c h i es n k D E I). eapply under_trans; eauto.
Qed.

(** A later state in which directories have only lost entries. *)
Definition shrunk (c d : fs) : Prop := forall x, match c x with
  | Some (ODir es) => exists es', d x = Some (ODir es') /\ incl es' es
  | o => d x = o
  end.
Lemma shrunk_dir c d x es' : shrunk c d -> d x = Some (ODir es') -> exists es, c x = Some (ODir es) /\ incl es' es.
Proof.
  intros Sh E. specialize (Sh x). destruct (c x) as [[|es|t]|]; try congruence. destruct Sh as (es2 & E2 & I).
  exists es. split; [reflexivity|]. assert (es2 = es') by congruence. now subst.
Qed.
Lemma shrunk_under c d i j : shrunk c d -> under d i j -> under c i j.
Proof.
  intros Sh. induction 1 as [i es E|i es n k j E I U IH].
  - destruct (shrunk_dir _ _ _ _ Sh E) as (es' & E' & _). econstructor; eauto.
  - destruct (shrunk_dir _ _ _ _ Sh E) as (es' & E' & Inc). eapply under_sub; eauto.
Qed.
Lemma shrunk_depth c d h : shrunk c d -> forall i, depth_le c h i -> depth_le d h i.
Proof.
  intros Sh. induction h as [|h IH]; intros i D; cbn in *; pose proof (Sh i) as Q; destruct (c i) as [[|es|t]|]; try (now rewrite Q).
  - contradiction.
  - destruct Q as (es' & E & Inc). rewrite E. intros n k I. apply IH. eapply D. apply Inc. exact I.
Qed.
Lemma filter_self n (l : list (str * ino)) : ~ In n (map fst l) -> filter (fun e => negb (str_eqb n (fst e))) l = l.
Proof.
  induction l as [|[m j] l IH]; intros N; [reflexivity|]. cbn [filter fst map] in *. destruct (str_eqb_spec n m) as [->|X].
  - exfalso. apply N. now left.
  - cbn [negb]. f_equal. apply IH. intros I. apply N. now right.
Qed.
Lemma filter_head n j (l : list (str * ino)) : ~ In n (map fst l) -> filter (fun e => negb (str_eqb n (fst e))) ((n, j) :: l) = l.
Proof. intros N. cbn [filter fst]. destruct (str_eqb_spec n n); [cbn; now apply filter_self|congruence]. Qed.
Lemma remove_same c i n es : c i = Some (ODir es) -> remove_entry c i n i = Some (ODir (filter (fun e => negb (str_eqb n (fst e))) es)).
Proof. intros E. unfold remove_entry. rewrite Z.eqb_refl, E. reflexivity. Qed.
Lemma remove_other c i n j : j <> i -> remove_entry c i n j = c j.
Proof. intros N. unfold remove_entry. destruct (Z.eqb_spec j i); congruence. Qed.

Lemma nodup_tail {A} (a b : list A) : NoDup (a ++ b) -> NoDup b.
Proof. induction a as [|x a IH]; intros H; [exact H|]. cbn in H. inversion H; auto. Qed.
Definition not_dir (c : fs) (k : ino) : Prop := forall es, c k <> Some (ODir es).
Lemma not_dir_false c k : is_dir c k = false -> not_dir c k.
Proof. unfold is_dir, not_dir. intros H es E. rewrite E in H. discriminate. Qed.

(** What one call has to do: on the tree [i] named [n] in [p]. *)
Definition does (c c' : fs) (p : ino) (n : str) (i : ino) : Prop :=
  (forall j, under c i j -> c' j = Some (ODir [])) /\
  (forall j, j <> p -> c' j = c j \/ (under c i j /\ c' j = Some (ODir []))) /\
  c' p = remove_entry c p n p.

Lemma loop_step (rm : fs -> ino -> str -> ino -> outcome fs) (c : fs) h i es :
  names_distinct c -> c i = Some (ODir es) -> depth_le c (S h) i ->
  (forall d n k, shrunk c d -> (forall x, ~ under c i x -> d x = c x) -> names_distinct d -> depth_le d h k -> (exists e, d k = Some (ODir e)) -> ~ under d k i ->
     lookup n (entries d i) = Some k -> exists d', rm d i n k = Ok d' /\ does d d' i n k) ->
  forall l pre cm, es = pre ++ l ->
    cm i = Some (ODir l) ->
    (forall x, x <> i -> cm x = c x \/ (under c i x /\ forall y, under c x y -> cm y = Some (ODir []))) ->
    (forall n k y, In (n, k) pre -> under c k y -> cm y = Some (ODir [])) ->
    exists c', rm_loop rm true i cm l = Ok c' /\ c' i = Some (ODir []) /\
      (forall x, x <> i -> c' x = c x \/ (under c i x /\ forall y, under c x y -> c' y = Some (ODir []))) /\
      (forall n k y, In (n, k) es -> under c k y -> c' y = Some (ODir [])).
Proof.
  intros ND Ei D RM. induction l as [|[n k] l IH]; intros pre cm Es Ci Inv Pre.
  - exists cm. cbn [rm_loop]. split; [reflexivity|]. split; [exact Ci|]. split; [exact Inv|]. rewrite app_nil_r in Es. subst pre. exact Pre.
  - assert (Ik : In (n, k) es) by (rewrite Es; apply in_or_app; right; now left).
    assert (NCy : ~ under c k i) by (eapply no_cycle; [exact D|exact Ei|exact Ik]).
    assert (Sh : shrunk c cm).
    { intros x. destruct (Z.eq_dec x i) as [->|Nx].
      - rewrite Ei. exists ((n, k) :: l). split; [exact Ci|]. rewrite Es. intros e He. apply in_or_app. now right.
      - destruct (Inv x Nx) as [Q|[U Q]].
        + rewrite Q. destruct (c x) as [[|e|t]|]; auto. exists e. split; [reflexivity|apply incl_refl].
        + destruct (under_dir_r _ _ _ U) as (e & Ex). rewrite Ex. exists []. split; [|intros ? []]. apply Q. econstructor; eauto. }
    assert (Nn : ~ In n (map fst l)).
    { pose proof (ND i es Ei) as X. rewrite Es, map_app in X. cbn in X. apply NoDup_remove_2 in X. intros I. apply X. apply in_or_app. now right. }
    cbn [rm_loop isdir bind].
    assert (Cl : forall d, d i = Some (ODir l) ->
       (forall x, x <> i -> d x = c x \/ (under c i x /\ forall y, under c x y -> d y = Some (ODir []))) ->
       (forall y, under c k y -> d y = Some (ODir [])) -> (forall m k' y, In (m, k') pre -> under c k' y -> d y = Some (ODir [])) ->
       exists c', rm_loop rm true i d l = Ok c' /\ c' i = Some (ODir []) /\
      (forall x, x <> i -> c' x = c x \/ (under c i x /\ forall y, under c x y -> c' y = Some (ODir []))) /\
      (forall n k y, In (n, k) es -> under c k y -> c' y = Some (ODir []))).
    { intros d Di Di2 Dk Dp. apply (IH (pre ++ [(n, k)]) d).
      - now rewrite <- app_assoc.
      - exact Di.
      - exact Di2.
      - intros m k' y I U. apply in_app_iff in I as [I|[I|[]]]; [eapply Dp; eauto|]. injection I as <- <-. auto. }
    destruct (is_dir cm k) eqn:Dk.
    + unfold is_dir in Dk. destruct (cm k) as [[|ek|]|] eqn:Ek; try discriminate.
      assert (follow cm k = Some k) as ->. { unfold follow. rewrite Ek. reflexivity. }
      destruct (RM cm n k) as (d & Rd & D1 & D2 & D3).
      * exact Sh.
      * intros x NU. destruct (Z.eq_dec x i) as [->|Nx]; [exfalso; apply NU; econstructor; eauto|]. destruct (Inv x Nx) as [Q|[U _]]; [exact Q|contradiction].
      * intros x e Ex. destruct (shrunk_dir _ _ _ _ Sh Ex) as (e0 & E0 & Inc). destruct (Z.eq_dec x i) as [->|Nx].
        -- assert (e = (n, k) :: l) by congruence. subst e. pose proof (ND i es Ei) as X. rewrite Es, map_app in X. eapply nodup_tail. exact X.
        -- destruct (Inv x Nx) as [Q|[U Q]].
           ++ apply (ND x). congruence.
           ++ assert (e = []) as ->; [|constructor]. assert (X : cm x = Some (ODir [])) by (apply Q; econstructor; eauto). congruence.
      * eapply shrunk_depth; [exact Sh|]. eapply depth_dir; eauto.
      * eauto.
      * intros U. apply NCy. eapply shrunk_under; eauto.
      * unfold entries. rewrite Ci. cbn [lookup]. destruct (str_eqb_spec n n); congruence.
      * rewrite Rd. cbn [bind]. 
        assert (Keep : forall y, y <> i -> cm y = Some (ODir []) -> d y = Some (ODir [])).
        { intros y Ny E. destruct (D2 y Ny) as [Q|[_ Q]]; congruence. }
        assert (Path : forall x y, under c x y -> ~ under c x i -> under cm x y \/ cm y = Some (ODir [])).
        { intros x y U. induction U as [x e Ex|x e m k2 y Ex Im U IHU]; intros NU.
          - left. assert (Nx : x <> i) by (intros ->; apply NU; econstructor; eauto).
            destruct (Inv x Nx) as [Q|[_ Q]]; [econstructor; rewrite Q; eauto|].
            econstructor. apply Q. econstructor; eauto.
          - assert (Nx : x <> i) by (intros ->; apply NU; econstructor; eauto).
            destruct (Inv x Nx) as [Q|[_ Q]].
            + destruct IHU as [V|V]; [intros V; apply NU; eapply under_sub; eauto| |now right]. left. eapply under_sub; [rewrite Q; exact Ex|exact Im|exact V].
            + right. apply Q. eapply under_sub; eauto. }
        assert (Emp : forall x, under cm k x -> forall y, under c x y -> d y = Some (ODir [])).
        { intros x Ux y Uy. pose proof (shrunk_under _ _ _ _ Sh Ux) as Ux'.
          assert (NU : ~ under c x i) by (intros V; apply NCy; eapply under_trans; eauto).
          destruct (Path x y Uy NU) as [V|V].
          - apply D1. eapply under_trans; eauto.
          - apply Keep; [|exact V]. intros ->. auto. }
        apply Cl.
        -- rewrite D3. rewrite (remove_same _ _ _ _ Ci). now rewrite filter_head.
        -- intros x Nx. destruct (D2 x Nx) as [Q|[U Q]].
           ++ destruct (Inv x Nx) as [Q2|[U Q2]]; [left; congruence|]. right. split; [exact U|]. intros y Uy.
              apply Keep; [|auto]. intros ->. now apply (no_back c (S h) i x).
           ++ right. split.
              ** eapply under_sub; [exact Ei|exact Ik|]. eapply shrunk_under; eauto.
              ** now apply Emp.
        -- intros y Uy. apply (Emp k); [|exact Uy]. econstructor; eauto.
        -- intros m k' y I U. apply Keep; [|eapply Pre; eauto]. intros ->.
           eapply (no_cycle c (S h) i es m k'); eauto. rewrite Es. apply in_or_app. now left.
    + apply Cl.
      * rewrite (remove_same _ _ _ _ Ci). now rewrite filter_head.
      * intros x Nx. rewrite remove_other by exact Nx. destruct (Inv x Nx) as [Q|[U Q]]; [now left|]. right. split; [exact U|].
        intros y Uy. rewrite remove_other; [auto|]. intros ->. now apply (no_back c (S h) i x).
      * intros y Uy. destruct (under_dir_l _ _ _ Uy) as (e & Ek). specialize (Sh k). rewrite Ek in Sh. destruct Sh as (e' & Ek' & _).
        unfold is_dir in Dk. rewrite Ek' in Dk. discriminate.
      * intros m k' y I U. rewrite remove_other; [eapply Pre; eauto|]. intros ->.
        eapply (no_cycle c (S h) i es m k'); eauto. rewrite Es. apply in_or_app. now left.
Qed.

Lemma rmtree_does h : forall c p n i es k, names_distinct c -> depth_le c h i -> c i = Some (ODir es) -> ~ under c i p ->
  lookup n (entries c p) = Some k -> (k = i \/ not_dir c k) -> exists c', rmtree h true c p n i = Ok c' /\ does c c' p n i.
Proof.
  induction h as [|h IH]; intros c p n i es k ND D E NU L K; [cbn in D; rewrite E in D; contradiction|].
  cbn [rmtree]. rewrite E.
  destruct (loop_step (rmtree h true) c h i es ND E D) with (l := es) (pre := @nil (str * ino)) (cm := c) as (c1 & R & C1 & C2 & C3); auto.
  { intros d m k' _ _ ND' D' (e & Ek) NU' L'. eapply IH; eauto. }
  { intros m k' y []. }
  rewrite R. cbn [bind].
  assert (Np : p <> i) by (intros ->; apply NU; econstructor; eauto).
  assert (Ep : c1 p = c p).
  { destruct (C2 p Np) as [Q|[U _]]; [exact Q|contradiction]. }
  unfold remove_path. assert (entries c1 p = entries c p) as -> by (unfold entries; now rewrite Ep). rewrite L.
  assert (Ke : match c1 k with Some (ODir (_ :: _)) => @Throw fs | _ => Ok (remove_entry c1 p n) end = Ok (remove_entry c1 p n)).
  { destruct K as [->|K]; [now rewrite C1|]. destruct (Z.eq_dec k i) as [->|Nk]; [now rewrite C1|].
    destruct (C2 k Nk) as [Q|[U _]].
    - rewrite Q. destruct (c k) as [[|e|t]|] eqn:Ek; auto. exfalso. apply (K e). exact Ek.
    - destruct (under_dir_r _ _ _ U) as (e & Ek). exfalso. apply (K e). exact Ek. }
  rewrite Ke. eexists. split; [reflexivity|].
  assert (All : forall j, under c i j -> c1 j = Some (ODir [])).
  { intros j U. destruct (Z.eq_dec j i) as [->|Nj]; [exact C1|]. inversion U as [? ? ?|? es' m k' ? E' I' U']; subst; [congruence|].
    assert (es' = es) by congruence. subst. eapply C3; eauto. }
  split; [|split].
  - intros j U. rewrite remove_other; [auto|]. intros ->. contradiction.
  - intros j Nj. rewrite remove_other by exact Nj. destruct (Z.eq_dec j i) as [->|Ni].
    + right. split; [econstructor; eauto|exact C1].
    + destruct (C2 j Ni) as [Q|[U _]]; [now left|]. right. auto.
  - unfold remove_entry. rewrite Z.eqb_refl. now rewrite Ep.
Qed.

(** ** C170 *)
(** When the file system tells the type of the entries: deleting the directory
    [i], named [n] in [p], succeeds; every directory of the tree ends up empty,
    the name is gone, and no other object of the file system changes — neither
    the targets of the links in the tree nor their contents. *)
Theorem C170_rmtree_partial : forall c p n i es h, names_distinct c -> depth_le c h i ->
  lookup n (entries c p) = Some i -> c i = Some (ODir es) -> ~ under c i p ->
  exists c', sys_rmtree h true c p n = Ok c' /\
    (forall j, under c i j -> c' j = Some (ODir [])) /\
    (forall j, ~ under c i j -> j <> p -> c' j = c j) /\
    lookup n (entries c' p) = None /\
    (forall m, m <> n -> lookup m (entries c' p) = lookup m (entries c p)).
Proof.
  intros c p n i es h ND D L E NU. unfold sys_rmtree. rewrite L. assert (follow c i = Some i) as -> by (unfold follow; now rewrite E).
  destruct (rmtree_does h c p n i es i ND D E NU L (or_introl eq_refl)) as (c' & R & D1 & D2 & D3). rewrite R. exists c'. split; [reflexivity|].
  split; [exact D1|]. split; [intros j Nj Np; destruct (D2 j Np) as [Q|[U _]]; [exact Q|contradiction]|].
  assert (X : exists ep, c p = Some (ODir ep)). { unfold entries in L. destruct (c p) as [[|ep|]|]; try discriminate. eauto. }
  destruct X as (ep & Ep). unfold entries. rewrite D3, (remove_same _ _ _ _ Ep), Ep. split.
  - clear. induction ep as [|[m j] ep IH]; [reflexivity|]. cbn [filter fst]. destruct (str_eqb n m) eqn:Q; cbn [negb]; [exact IH|]. cbn [lookup]. now rewrite Q.
  - intros m Nm. clear - Nm. induction ep as [|[x j] ep IH]; [reflexivity|]. cbn [filter fst lookup]. destruct (str_eqb_spec n x) as [->|Q]; cbn [negb].
    + rewrite IH. destruct (str_eqb_spec m x); [congruence|reflexivity].
    + cbn [lookup]. now rewrite IH.
Qed.
Print Assumptions C170_rmtree_partial.
(** Given the name of a link to a directory it empties that directory, wherever
    it is, and deletes only the link. *)
Theorem C170_refuted_link_to_directory : forall c p n k i es h, names_distinct c -> depth_le c h i ->
  lookup n (entries c p) = Some k -> c k = Some (OLink (Some i)) -> c i = Some (ODir es) -> ~ under c i p ->
  exists c', sys_rmtree h true c p n = Ok c' /\ lookup n (entries c' p) = None /\
    (forall j, under c i j -> c' j = Some (ODir [])) /\ c' i = Some (ODir []).
Proof.
  intros c p n k i es h ND D L Ek E NU. unfold sys_rmtree. rewrite L. assert (follow c k = Some i) as -> by (unfold follow; now rewrite Ek).
  destruct (rmtree_does h c p n i es k ND D E NU L) as (c' & R & D1 & D2 & D3); [right; intros e; congruence|]. rewrite R. exists c'. split; [reflexivity|].
  assert (X : exists ep, c p = Some (ODir ep)). { unfold entries in L. destruct (c p) as [[|ep|]|]; try discriminate. eauto. }
  destruct X as (ep & Ep). split.
  - unfold entries. rewrite D3, (remove_same _ _ _ _ Ep). clear. induction ep as [|[m j] ep IH]; [reflexivity|]. cbn [filter fst].
    destruct (str_eqb n m) eqn:Q; cbn [negb]; [exact IH|]. cbn [lookup]. now rewrite Q.
  - split; [exact D1|]. apply D1. econstructor; eauto.
Qed.
Print Assumptions C170_refuted_link_to_directory.
(** rmtree_ifexists does the same and says whether there was something. *)
Theorem C170_rmtree_ifexists : forall h known c p n,
  (lookup n (entries c p) = None -> rmtree_ifexists h known c p n = Ok (c, false)) /\
  (forall i es, lookup n (entries c p) = Some i -> c i = Some (ODir es) ->
     rmtree_ifexists h known c p n = let! c' := sys_rmtree h known c p n in Ok (c', true)).
Proof.
  intros h known c p n. unfold rmtree_ifexists, sys_rmtree. split.
  - intros ->. reflexivity.
  - intros i es -> E. unfold follow. rewrite E. reflexivity.
Qed.
Print Assumptions C170_rmtree_ifexists.
(** When the file system does not tell the type of the entries, a link to a
    directory inside the tree is followed: the files of a directory outside the
    tree are deleted. *)
Lemma rm_files rm t : forall l c, c t = Some (ODir l) -> NoDup (map fst l) -> (forall n j, In (n, j) l -> c j = Some OFile) ->
  exists c', rm_loop rm false t c l = Ok c' /\ c' t = Some (ODir []) /\ forall x, x <> t -> c' x = c x.
Proof.
  induction l as [|[n j] l IH]; intros c E ND F; [exists c; auto|].
  assert (Fj : c j = Some OFile) by (apply (F n j); now left). cbn [rm_loop]. unfold isdir, follow. rewrite Fj, Fj. unfold is_dir. rewrite Fj. cbn [bind].
  cbn [map fst] in ND. inversion ND as [|? ? N1 N2]; subst.
  destruct (IH (remove_entry c t n)) as (c' & R & R1 & R2).
  - rewrite (remove_same _ _ _ _ E). now rewrite filter_head.
  - exact N2.
  - intros m k I. rewrite remove_other; [apply (F m k); now right|]. intros ->. assert (c t = Some OFile) by (apply (F m t); now right). congruence.
  - exists c'. split; [exact R|]. split; [exact R1|]. intros x Nx. rewrite R2 by exact Nx. now apply remove_other.
Qed.
Theorem C170_refuted_unknown_type : forall c p n i m k t fl, p <> i -> p <> t -> i <> t ->
  lookup n (entries c p) = Some i -> c i = Some (ODir [(m, k)]) -> c k = Some (OLink (Some t)) ->
  c t = Some (ODir fl) -> NoDup (map fst fl) -> (forall a j, In (a, j) fl -> c j = Some OFile) ->
  ~ under c i t /\ exists c', sys_rmtree 2 false c p n = Ok c' /\ c' t = Some (ODir []).
Proof.
  intros c p n i m k t fl Npi Npt Nit L Ei Ek Et ND F. split.
  { intros U. inversion U as [? ? ?|? ? ? k' ? E' I' U']; subst; [congruence|]. assert (E2 : es = [(m, k)]) by congruence. subst es.
    destruct I' as [I'|[]]. injection I' as <- <-. destruct (under_dir_l _ _ _ U') as (e & Q). congruence. }
  unfold sys_rmtree. rewrite L. unfold follow. rewrite Ei. cbn [rmtree]. rewrite Ei. cbn [rm_loop]. unfold isdir, follow. rewrite Ek, Et. unfold is_dir. rewrite Et. cbn [bind].
  match goal with |- context [rm_loop ?r false t c fl] => destruct (rm_files r t fl c Et ND F) as (c1 & R & R1 & R2) end. rewrite R. cbn [bind].
  unfold remove_path. assert (Ei1 : c1 i = Some (ODir [(m, k)])) by (rewrite R2; auto). unfold entries at 1. rewrite Ei1. cbn [lookup].
  destruct (str_eqb_spec m m); [|congruence]. assert (Ek1 : c1 k = Some (OLink (Some t))) by (rewrite R2; [exact Ek|congruence]). rewrite Ek1. cbn [bind].
  assert (X : remove_entry c1 i m i = Some (ODir [])).
  { rewrite (remove_same _ _ _ _ Ei1). cbn. destruct (str_eqb_spec m m); [reflexivity|congruence]. }
  assert (Ep : entries (remove_entry c1 i m) p = entries c p). { unfold entries. rewrite remove_other by exact Npi. now rewrite R2. }
  rewrite Ep, L, X. eexists. split; [reflexivity|]. rewrite !remove_other by congruence. exact R1.
Qed.
Print Assumptions C170_refuted_unknown_type.

Definition C170_fs : fs := fun j =>
  if j =? 1 then Some (ODir [(codes "d", 2); (codes "x", 7)])
  else if j =? 2 then Some (ODir [(codes "f", 3); (codes "s", 4); (codes "l", 5)])
  else if j =? 4 then Some (ODir [(codes "g", 3)])
  else if j =? 5 then Some (OLink (Some 7))
  else if j =? 7 then Some (ODir [(codes "keep", 3)])
  else if j =? 3 then Some OFile else None.
Example C170_case : exists c', sys_rmtree 3 true C170_fs 1 (codes "d") = Ok c' /\ entries c' 1 = [(codes "x", 7)] /\ entries c' 4 = [] /\
  entries c' 7 = [(codes "keep", 3)] /\ exists c2, sys_rmtree 3 false C170_fs 1 (codes "d") = Ok c2 /\ entries c2 7 = [].
Proof. eexists. split; [reflexivity|]. split; [reflexivity|]. split; [reflexivity|]. split; [reflexivity|]. eexists. split; reflexivity. Qed.
