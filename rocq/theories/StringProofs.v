(** Stripping, splitting and paths. *)
From Verif Require Import BaseFacts IniModel IniProofs IniFile StringModel StringSpec.
Open Scope string_scope.
Open Scope list_scope.
Open Scope Z_scope.

Lemma is_prefix_app p r : is_prefix p (p ++ r) = true.
Proof. apply is_prefix_spec. eauto. Qed.
Lemma startswith_spec s p : startswith s p = true <-> exists r, s = p ++ r.
Proof.
  unfold startswith. destruct (Nat.ltb_spec (List.length s) (List.length p)).
  - split; [discriminate|]. intros [r ->]. rewrite app_length in H. lia.
  - destruct (str_eqb_spec (firstn (List.length p) s) p) as [E|E].
    + split; [|auto]. intros _. exists (skipn (List.length p) s). rewrite <- E at 1. now rewrite firstn_skipn.
    + split; [discriminate|]. intros [r ->]. exfalso. apply E. now apply firstn_app_exact.
Qed.
Lemma endswith_spec s p : endswith s p = true <-> exists r, s = r ++ p.
Proof.
  unfold endswith. destruct (Nat.ltb_spec (List.length s) (List.length p)).
  - split; [discriminate|]. intros [r ->]. rewrite app_length in H. lia.
  - destruct (str_eqb_spec (skipn (List.length s - List.length p) s) p) as [E|E].
    + split; [|auto]. intros _. exists (firstn (List.length s - List.length p) s). rewrite <- E at 2. now rewrite firstn_skipn.
    + split; [discriminate|]. intros [r ->]. exfalso. apply E. apply skipn_app_exact. rewrite app_length. lia.
Qed.

(** ** Index loops *)
Lemma sc_app_l a b i : (i < List.length a)%nat -> sc (a ++ b) i = sc a i.
Proof. intros. unfold sc. now apply app_nth1. Qed.
Lemma sc_mid a c b : sc (a ++ c :: b) (List.length a) = c.
Proof. unfold sc. rewrite app_nth2, Nat.sub_diag by lia. reflexivity. Qed.
(** Moving backwards over a run of accepted characters. *)
Lemma bwd_run p a r b : Forall (fun c => p c = true) r -> (a = [] \/ exists a' c, a = a' ++ [c] /\ p c = false) ->
  bwd p (a ++ r ++ b) 0 (List.length (a ++ r)) = List.length a.
Proof.
  intros R A. revert b. induction r as [|c r IH] using rev_ind; intros b.
  - rewrite app_nil_r. destruct A as [->|(a' & c & -> & Hc)]; [reflexivity|].
    rewrite app_length. cbn [List.length]. rewrite Nat.add_1_r. cbn [bwd Nat.ltb Nat.leb].
    rewrite <- app_assoc. cbn [app]. rewrite sc_mid, Hc. reflexivity.
  - apply Forall_app in R as [R Rc]. inversion Rc; subst.
    rewrite !app_length. cbn [List.length]. rewrite !Nat.add_succ_r, Nat.add_0_r. cbn [bwd Nat.ltb Nat.leb].
    replace (a ++ (r ++ [c]) ++ b) with ((a ++ r) ++ c :: b) by (rewrite <- !app_assoc; reflexivity).
    rewrite <- app_length, sc_mid. rewrite H1. rewrite <- app_assoc. apply IH. exact R.
Qed.
Lemma bwd_spec p l : exists a r, l = a ++ r /\ bwd p l 0 (List.length l) = List.length a /\
  Forall (fun c => p c = true) r /\ (a = [] \/ exists a' c, a = a' ++ [c] /\ p c = false).
Proof.
  assert (D : exists a r, l = a ++ r /\ Forall (fun c => p c = true) r /\ (a = [] \/ exists a' c, a = a' ++ [c] /\ p c = false)).
  { induction l as [|c l IH] using rev_ind; [exists [], []; auto|]. destruct (p c) eqn:E.
    - destruct IH as (a & r & -> & R & A). exists a, (r ++ [c]). rewrite app_assoc. split; [reflexivity|]. split; [|exact A].
      apply Forall_app. auto.
    - exists (l ++ [c]), []. rewrite app_nil_r. split; [reflexivity|]. split; [constructor|]. right. eauto. }
  destruct D as (a & r & -> & R & A). exists a, r. split; [reflexivity|]. split; [|auto].
  pose proof (bwd_run p a r [] R A) as B. now rewrite app_nil_r in B.
Qed.
Lemma bwd_bound p s beg e : (beg <= e)%nat -> (beg <= bwd p s beg e <= e)%nat.
Proof.
  induction e as [|e IH]; intros H; cbn [bwd]; [lia|]. destruct (Nat.ltb_spec beg (S e)); [|lia].
  destruct (p (sc s e)); lia.
Qed.
Lemma fwd_run p pre w s : Forall (fun c => p c = true) w -> (s = [] \/ exists c s', s = c :: s' /\ p c = false) ->
  fwd p (pre ++ w ++ s) (List.length pre) (List.length (w ++ s)) = List.length (pre ++ w).
Proof.
  intros W S. revert pre. induction W as [|c w Hc W IH]; intros pre.
  - rewrite app_nil_r. cbn [app]. destruct S as [->|(c & s' & -> & Hc)]; [reflexivity|].
    cbn [List.length fwd]. now rewrite sc_mid, Hc.
  - cbn [app List.length fwd]. rewrite sc_mid, Hc. specialize (IH (pre ++ [c])). rewrite <- !app_assoc in IH. cbn [app] in IH.
    rewrite app_length in IH. cbn [List.length] in IH. rewrite Nat.add_1_r in IH. exact IH.
Qed.
Lemma white_split l : exists w s, l = w ++ s /\ Forall (fun c => isspace c = true) w /\ (s = [] \/ exists c s', s = c :: s' /\ isspace c = false).
Proof.
  induction l as [|c l IH]; [exists [], []; auto|]. destruct (isspace c) eqn:E.
  - destruct IH as (w & s & -> & W & S). exists (c :: w), s. auto.
  - exists [], (c :: l). split; [reflexivity|]. split; [constructor|]. eauto.
Qed.
Lemma fwd_white w s : Forall (fun c => isspace c = true) w -> (s = [] \/ exists c s', s = c :: s' /\ isspace c = false) ->
  fwd isspace (w ++ s) 0 (List.length (w ++ s)) = List.length w.
Proof. intros W S. exact (fwd_run isspace [] w s W S). Qed.

Lemma lstrip_spec w s : Forall (fun c => isspace c = true) w -> (s = [] \/ exists c s', s = c :: s' /\ isspace c = false) ->
  lstrip (w ++ s) = s.
Proof.
  intros W S. unfold lstrip. destruct (w ++ s) eqn:E; [destruct w, s; try discriminate; reflexivity|]. rewrite <- E. clear E.
  cbv zeta. rewrite fwd_white by assumption. rewrite skipn_app_exact by reflexivity. apply firstn_all2. rewrite app_length. lia.
Qed.
Lemma rstrip_spec s w : Forall (fun c => isspace c = true) w -> (s = [] \/ exists s' c, s = s' ++ [c] /\ isspace c = false) ->
  rstrip (s ++ w) = s.
Proof.
  intros W S. unfold rstrip. destruct (s ++ w) eqn:E; [destruct w, s; try discriminate; reflexivity|]. rewrite <- E. clear E.
  cbv zeta. pose proof (bwd_run isspace s w [] W S) as B. rewrite app_nil_r in B. rewrite B.
  destruct (Nat.eqb_spec (List.length s) 0) as [E|E]; [apply length_zero_iff_nil in E; now subst|]. now apply firstn_app_exact.
Qed.
(** Backwards loop that stops at the forward index. *)
Lemma bwd_beg p w m r : (exists c m', m = c :: m' /\ p c = false) -> (exists m' c, m = m' ++ [c] /\ p c = false) ->
  Forall (fun c => p c = true) r ->
  bwd p (w ++ m ++ r) (List.length w) (List.length (w ++ m ++ r)) = List.length (w ++ m).
Proof.
  intros _ (m' & c & -> & Hc) R.
  assert (G : forall b, bwd p (w ++ (m' ++ [c]) ++ r ++ b) (List.length w) (List.length (w ++ (m' ++ [c]) ++ r)) = List.length (w ++ m' ++ [c])).
  { induction r as [|x r IH] using rev_ind; intros b.
    - rewrite app_nil_r. cbn [app]. rewrite !app_length. cbn [List.length]. rewrite !Nat.add_1_r, Nat.add_succ_r. cbn [bwd].
      destruct (Nat.ltb_spec (List.length w) (S (List.length w + List.length m'))); [|lia].
      replace (w ++ (m' ++ [c]) ++ b) with ((w ++ m') ++ c :: b) by (rewrite <- !app_assoc; reflexivity).
      now rewrite <- app_length, sc_mid, Hc.
    - apply Forall_app in R as [R Rx]. inversion Rx as [|? ? Hx _]; subst.
      replace (List.length (w ++ (m' ++ [c]) ++ r ++ [x])) with (S (List.length (w ++ (m' ++ [c]) ++ r))) by (rewrite !app_length; cbn [List.length]; lia).
      cbn [bwd]. destruct (Nat.ltb_spec (List.length w) (S (List.length (w ++ (m' ++ [c]) ++ r)))); [|rewrite !app_length in *; lia].
      replace (w ++ (m' ++ [c]) ++ (r ++ [x]) ++ b) with ((w ++ (m' ++ [c]) ++ r) ++ x :: b) by (rewrite <- !app_assoc; reflexivity).
      rewrite sc_mid, Hx. rewrite <- !app_assoc. cbn [app]. specialize (IH R (x :: b)). rewrite <- !app_assoc in IH. cbn [app] in IH. exact IH. }
  specialize (G []). now rewrite app_nil_r in G.
Qed.
Lemma strip_spec w m r : Forall (fun c => isspace c = true) w -> Forall (fun c => isspace c = true) r ->
  (m = [] /\ r = [] \/ ((exists c m', m = c :: m' /\ isspace c = false) /\ (exists m' c, m = m' ++ [c] /\ isspace c = false))) ->
  strip (w ++ m ++ r) = m.
Proof.
  intros W R M. unfold strip. destruct (w ++ m ++ r) eqn:E.
  { destruct w; [|discriminate]. destruct m; [reflexivity|discriminate]. }
  rewrite <- E. clear E. cbv zeta.
  destruct M as [[-> ->]|[M1 M2]].
  - rewrite !app_nil_r. pose proof (fwd_white w [] W (or_introl eq_refl)) as F. rewrite app_nil_r in F. rewrite F.
    rewrite skipn_all. now rewrite firstn_nil.
  - rewrite fwd_white; [|exact W|right; destruct M1 as (c & m' & -> & Hc); exists c, (m' ++ r); auto].
    rewrite bwd_beg by assumption. rewrite skipn_app_exact by reflexivity. apply firstn_app_exact. rewrite app_length. lia.
Qed.
Lemma isspace_is_white c : isspace c = true <-> is_white c.
Proof.
  rewrite isspace_white. unfold IniSpec.white, IniSpec.blank, is_white. cbn. rewrite !orb_true_iff, !Z.eqb_eq. intuition auto.
Qed.
(** Every text is white space, a core, white space. *)
Lemma strip_decompose l : exists w m r, l = w ++ m ++ r /\ Forall (fun c => isspace c = true) w /\ Forall (fun c => isspace c = true) r /\
  (m = [] /\ r = [] \/ ((exists c m', m = c :: m' /\ isspace c = false) /\ (exists m' c, m = m' ++ [c] /\ isspace c = false))).
Proof.
  destruct (white_split l) as (w & s & -> & W & S). destruct S as [->|(c & s' & -> & Hc)].
  - exists w, [], []. rewrite !app_nil_r. auto 10.
  - destruct (bwd_spec isspace (c :: s')) as (m & r & E & _ & R & M). exists w, m, r. rewrite E. split; [reflexivity|].
    split; [exact W|]. split; [exact R|]. right. destruct M as [->|M].
    + cbn in E. subst r. inversion R. congruence.
    + split; [|exact M]. destruct M as (m' & x & -> & Hx). destruct m' as [|y m']; cbn in E.
      * inversion E; subst. exists x, []. auto.
      * inversion E; subst. exists y, (m' ++ [x]). auto.
Qed.

(** ** rfind and paths *)
Lemma rfind_app c a t b : ~ In c t -> rfind c (a ++ c :: t ++ b) (List.length (a ++ c :: t)) = Some (List.length a).
Proof.
  revert b. induction t as [|x t IH] using rev_ind; intros b N.
  - rewrite app_length. cbn [List.length]. rewrite Nat.add_1_r. cbn [rfind app]. now rewrite sc_mid, Z.eqb_refl.
  - replace (List.length (a ++ c :: t ++ [x])) with (S (List.length (a ++ c :: t))) by (rewrite !app_length; cbn [List.length]; rewrite app_length; cbn [List.length]; lia).
    cbn [rfind]. replace (a ++ c :: (t ++ [x]) ++ b) with ((a ++ c :: t) ++ x :: b) by (cbn; rewrite <- !app_assoc; reflexivity).
    rewrite sc_mid. destruct (Z.eqb_spec x c); [subst; exfalso; apply N, in_or_app; right; now left|].
    rewrite <- app_assoc. cbn [app]. apply IH. intros I. apply N, in_or_app. now left.
Qed.
Lemma rfind_none c t b : ~ In c t -> rfind c (t ++ b) (List.length t) = None.
Proof.
  revert b. induction t as [|x t IH] using rev_ind; intros b N; [reflexivity|].
  rewrite app_length. cbn [List.length]. rewrite Nat.add_1_r. cbn [rfind]. rewrite <- app_assoc. cbn [app]. rewrite sc_mid.
  destruct (Z.eqb_spec x c); [subst; exfalso; apply N, in_or_app; right; now left|]. apply IH. intros I. apply N, in_or_app. now left.
Qed.
Lemma basename_slash a t : ~ In 47 t -> basename (a ++ 47 :: t) = t.
Proof.
  intros N. unfold basename. pose proof (rfind_app 47 a t [] N) as R. rewrite app_nil_r in R. rewrite R.
  replace (a ++ 47 :: t) with ((a ++ [47]) ++ t) by (rewrite <- app_assoc; reflexivity).
  apply skipn_app_exact. rewrite app_length. reflexivity.
Qed.
Lemma basename_plain t : ~ In 47 t -> basename t = t.
Proof. intros N. unfold basename. pose proof (rfind_none 47 t [] N) as R. rewrite app_nil_r in R. now rewrite R. Qed.

Lemma slashes_all k : Forall (fun c => is_slash c = true) (slashes k).
Proof. apply Forall_forall. intros x H. apply repeat_spec in H. now subst. Qed.
Definition open_ended (d : text) : Prop := d = [] \/ exists d' c, d = d' ++ [c] /\ is_slash c = false.
Lemma no_slash_end t : t <> [] -> ~ In 47 t -> exists t' c, t = t' ++ [c] /\ is_slash c = false.
Proof.
  intros H N. destruct t as [|c t _] using rev_ind; [congruence|]. exists t, c. split; [reflexivity|].
  apply Z.eqb_neq. intros ->. apply N, in_or_app. right. now left.
Qed.
Lemma dirname_split d t j k : open_ended d -> t <> [] -> ~ In 47 t -> 
  dirname (d ++ slashes (S j) ++ t ++ slashes k) = match d with [] => codes "/" | _ => d end.
Proof.
  intros D T N. unfold dirname. destruct (d ++ _) eqn:E; [destruct d; discriminate|]. rewrite <- E. clear E. cbv zeta.
  destruct (no_slash_end t T N) as (t' & c & Et & Hc).
  assert (B : bwd is_slash (d ++ slashes (S j) ++ t ++ slashes k) 0 (List.length (d ++ slashes (S j) ++ t ++ slashes k)) = List.length (d ++ slashes (S j) ++ t)).
  { pose proof (bwd_run is_slash (d ++ slashes (S j) ++ t) (slashes k) [] (slashes_all k)) as B. rewrite app_nil_r in B.
    rewrite <- !app_assoc in B. apply B. right. exists (d ++ slashes (S j) ++ t'), c. rewrite Et, <- !app_assoc. auto. }
  rewrite B. destruct (Nat.eqb_spec (List.length (d ++ slashes (S j) ++ t)) 0) as [Z|_]; [rewrite !app_length in Z; cbn in Z; lia|].
  assert (S1 : slashes (S j) = slashes j ++ [47]) by (unfold slashes; change [47] with (repeat slash 1); now rewrite <- repeat_app, Nat.add_1_r).
  assert (R : rfind 47 (d ++ slashes (S j) ++ t ++ slashes k) (List.length (d ++ slashes (S j) ++ t)) = Some (List.length (d ++ slashes j))).
  { pose proof (rfind_app 47 (d ++ slashes j) t (slashes k) N) as R. rewrite S1. rewrite <- !app_assoc in *. exact R. }
  rewrite R. clear R B.
  pose proof (bwd_run is_slash d (slashes j) (47 :: t ++ slashes k) (slashes_all j) D) as B2.
  rewrite S1, <- !app_assoc. cbn [app]. rewrite B2.
  destruct d as [|x d]; [reflexivity|]. cbn [List.length Nat.eqb]. now apply (firstn_app_exact (x :: d)).
Qed.
Lemma dirname_plain t k : t <> [] -> ~ In 47 t -> dirname (t ++ slashes k) = codes ".".
Proof.
  intros T N. unfold dirname. destruct (t ++ slashes k) eqn:E; [destruct t; [congruence|discriminate]|]. rewrite <- E. clear E. cbv zeta.
  pose proof (bwd_run is_slash t (slashes k) [] (slashes_all k)) as B. rewrite app_nil_r in B. rewrite B by (right; now apply no_slash_end).
  destruct (Nat.eqb_spec (List.length t) 0) as [Z|_]; [apply length_zero_iff_nil in Z; congruence|]. now rewrite rfind_none.
Qed.
Lemma dirname_root k : dirname (slashes (S k)) = codes "/".
Proof.
  unfold dirname. cbn [slashes repeat]. cbv zeta. change (slash :: repeat slash k) with (slashes (S k)).
  pose proof (bwd_run is_slash [] (slashes (S k)) [] (slashes_all (S k)) (or_introl eq_refl)) as B. rewrite app_nil_r in B. cbn [app] in B. now rewrite B.
Qed.
(** Every path has one of the three shapes. *)
Lemma all_slashes r : Forall (fun c => is_slash c = true) r -> r = slashes (List.length r).
Proof. induction 1 as [|c r H _ IH]; cbn; [reflexivity|]. unfold is_slash in H. apply Z.eqb_eq in H. subst. now f_equal. Qed.
Lemma last_slash l : ~ In 47 l \/ exists a t, l = a ++ 47 :: t /\ ~ In 47 t.
Proof.
  induction l as [|c l IH]; [left; tauto|]. destruct IH as [N|(a & t & -> & N)].
  - destruct (Z.eq_dec c 47) as [->|Hc]; [right; exists [], l; auto|]. left. cbn. intros [?|?]; auto.
  - right. exists (c :: a), t. auto.
Qed.
Lemma path_shapes p : p = [] \/ (exists k, p = slashes (S k)) \/ (exists t k, t <> [] /\ ~ In 47 t /\ p = t ++ slashes k) \/
  (exists d j t k, open_ended d /\ t <> [] /\ ~ In 47 t /\ p = d ++ slashes (S j) ++ t ++ slashes k).
Proof.
  destruct (bwd_spec is_slash p) as (q & r & -> & _ & R & Q). apply all_slashes in R. rewrite R. generalize (List.length r). intros k. clear R r.
  destruct Q as [->|Q].
  - destruct k as [|k]; [left; reflexivity|]. right. left. exists k. reflexivity.
  - right. right. destruct (last_slash q) as [N|(a & t & -> & N)].
    + left. exists q, k. split; [|auto]. destruct Q as (q' & c & -> & _). apply app_cons_not_nil || (intros X; symmetry in X; now apply app_cons_not_nil in X).
    + right. destruct (bwd_spec is_slash a) as (d & r & -> & _ & R & D). apply all_slashes in R. rewrite R. generalize (List.length r). intros j.
      exists d, j, t, k. split; [exact D|]. split; [|split; [exact N|]].
      * intros ->. destruct Q as (q' & c & E & Hc). apply (f_equal (fun l => last l 0)) in E. rewrite !last_last in E. subst c. discriminate.
      * replace (slashes (S j)) with (slashes j ++ [47]) by (unfold slashes; change [47] with (repeat slash 1); now rewrite <- repeat_app, Nat.add_1_r).
        rewrite <- !app_assoc. reflexivity.
Qed.

(** ** Components *)
Lemma fields_nonnil l : fields l <> [].
Proof. destruct l as [|x l]; cbn; [discriminate|]. destruct (x =? slash); [discriminate|]. destruct (fields l); discriminate. Qed.
Lemma fields_app a b : fields (a ++ slash :: b) = fields a ++ fields b.
Proof.
  induction a as [|x a IH]; cbn [app fields]; [rewrite Z.eqb_refl; reflexivity|].
  destruct (x =? slash); [now rewrite IH|]. rewrite IH. pose proof (fields_nonnil a). destruct (fields a); [congruence|]. reflexivity.
Qed.
Lemma fields_plain t : ~ In slash t -> fields t = [t].
Proof.
  induction t as [|x t IH]; cbn; intros N; [reflexivity|]. destruct (Z.eqb_spec x slash); [exfalso; auto|].
  rewrite IH by auto. reflexivity.
Qed.
Lemma components_app a b : components (a ++ slash :: b) = components a ++ components b.
Proof. unfold components. now rewrite fields_app, filter_app. Qed.
Lemma components_plain t : t <> [] -> ~ In slash t -> components t = [t].
Proof. intros T N. unfold components. rewrite fields_plain by exact N. now destruct t. Qed.
Lemma components_slash_l b : components (slash :: b) = components b.
Proof. exact (components_app [] b). Qed.
Lemma components_slash_r a : components (a ++ [slash]) = components a.
Proof. rewrite components_app. apply app_nil_r. Qed.
Lemma components_slashes_l k b : components (slashes k ++ b) = components b.
Proof. induction k as [|k IH]; [reflexivity|]. change (slashes (S k) ++ b) with (slash :: slashes k ++ b). rewrite components_slash_l. exact IH. Qed.
Lemma components_slashes_r a k : components (a ++ slashes k) = components a.
Proof.
  induction k as [|k IH]; [now rewrite app_nil_r|]. change (slashes (S k)) with (slash :: slashes k). rewrite components_app.
  replace (components (slashes k)) with (@nil text); [apply app_nil_r|].
  symmetry. pose proof (components_slashes_l k []) as E. rewrite app_nil_r in E. exact E.
Qed.
Lemma components_join a b j : components (a ++ slashes (S j) ++ b) = components a ++ components b.
Proof. change (slashes (S j) ++ b) with (slash :: slashes j ++ b). rewrite components_app. now rewrite components_slashes_l. Qed.
Lemma in_fields_no_slash l : forall f, In f (fields l) -> ~ In slash f.
Proof.
  induction l as [|x l IH]; cbn; [intros f [<-|[]]; tauto|]. destruct (Z.eqb_spec x slash).
  - intros f [<-|H]; [tauto|auto].
  - destruct (fields l) as [|g gs] eqn:E; [now apply fields_nonnil in E|]. intros f [<-|H].
    + intros [?|?]; [congruence|]. apply (IH g); [now left|assumption].
    + apply IH. now right.
Qed.
Lemma in_components p c : In c (components p) -> c <> [] /\ ~ In slash c.
Proof.
  unfold components. intros H. apply filter_In in H as [H1 H2]. split; [destruct c; [discriminate|congruence]|]. eapply in_fields_no_slash; eauto.
Qed.
Lemma appendpath_components a b : components (appendpath a b) = components a ++ components b.
Proof.
  unfold appendpath. destruct b as [|c2 r2]; [unfold components at 3; cbn; now rewrite app_nil_r|].
  destruct a as [|x a]; [reflexivity|]. generalize (x :: a) (ltac:(discriminate) : x :: a <> []). clear x a. intros a Na.
  destruct a as [|z a _] using rev_ind; [congruence|]. clear Na.
  replace (List.length (a ++ [z]) - 1)%nat with (List.length a) by (rewrite app_length; cbn; lia). rewrite sc_mid.
  destruct (Z.eqb_spec z 47) as [->|Hz], (Z.eqb_spec c2 47) as [->|Hc].
  - change 47 with slash. rewrite components_slash_r, components_slash_l, <- app_assoc. apply components_app.
  - change 47 with slash. rewrite components_slash_r, <- app_assoc. apply components_app.
  - change 47 with slash. rewrite components_slash_l. apply components_app.
  - apply components_app.
Qed.
Lemma appendpath_absolute a b : absolute (appendpath a b) <-> absolute a \/ (a = [] /\ absolute b).
Proof.
  unfold appendpath, absolute. destruct b as [|c2 r2].
  - split; [auto|]. intros [H|[_ [r H]]]; [exact H|discriminate].
  - destruct a as [|x a].
    + split; [auto|]. intros [[r H]|[_ H]]; [discriminate|exact H].
    + destruct (sc _ _ =? 47), (c2 =? 47); cbn [app]; (split; [intros [r H]; inversion H; left; eauto|intros [[r H]|[H _]]; [inversion H; eauto|discriminate]]).
Qed.
Lemma joinpath_components l : components (joinpath l) = List.concat (map components l).
Proof.
  unfold joinpath. assert (G : forall acc, components (fold_left appendpath l acc) = components acc ++ List.concat (map components l)).
  { induction l as [|p l IH]; intros acc; cbn [fold_left map List.concat]; [now rewrite app_nil_r|].
    now rewrite IH, appendpath_components, app_assoc. }
  rewrite G. reflexivity.
Qed.

(** ** Split *)
Lemma find_from_spec sep l i : match find_from sep l i with
  | Some k => exists a b, l = a ++ sep ++ b /\ k = (i + List.length a)%nat /\ (sep <> [] -> ~ contains sep (a ++ removelast sep))
  | None => ~ contains sep l
  end.
Proof.
  revert i. induction l as [|x l IH]; intros i; cbn [find_from].
  - destruct (is_prefix sep []) eqn:E.
    + apply is_prefix_spec in E as [r E]. exists [], r. split; [exact E|]. split; [cbn; lia|]. intros S. destruct sep; [congruence|discriminate].
    + intros (a & b & H). assert (sep = []) by (destruct a; [destruct sep; [reflexivity|discriminate]|discriminate]). subst. discriminate.
  - destruct (is_prefix sep (x :: l)) eqn:E.
    + apply is_prefix_spec in E as [r E]. exists [], r. split; [exact E|]. split; [cbn; lia|]. cbn. intros S (a & b & H).
      assert (L : List.length (removelast sep) = (List.length sep - 1)%nat).
      { destruct sep as [|y sep _] using rev_ind; [congruence|]. rewrite removelast_last, app_length. cbn. lia. }
      apply (f_equal (@List.length Z)) in H. rewrite !app_length in H. destruct sep; [congruence|]. cbn [List.length] in *. lia.
    + specialize (IH (S i)). destruct (find_from sep l (S i)) as [k|].
      * destruct IH as (a & b & -> & -> & N). exists (x :: a), b. split; [reflexivity|]. split; [cbn; lia|].
        intros S (a' & b' & H). destruct a' as [|y a']; cbn in H.
        -- assert (P : is_prefix sep (x :: a ++ sep ++ b) = true); [|congruence].
           apply is_prefix_spec.
           assert (Hs : sep = removelast sep ++ [last sep 0]) by now apply app_removelast_last.
           exists (b' ++ [last sep 0] ++ b).
           transitivity ((x :: a ++ removelast sep) ++ [last sep 0] ++ b); [|rewrite H, <- !app_assoc; reflexivity].
           cbn [app]. f_equal. rewrite <- !app_assoc. f_equal. rewrite Hs at 1. rewrite <- !app_assoc. reflexivity.
        -- inversion H; subst. apply (N S). exists a', b'. assumption.
      * intros (a & b & H). destruct a as [|y a]; cbn in H.
        -- assert (is_prefix sep (x :: l) = true) by (apply is_prefix_spec; eauto). congruence.
        -- inversion H; subst. apply IH. exists a, b. reflexivity.
Qed.
