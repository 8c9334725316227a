(** The string properties in their final form. *)
From Verif Require Import BaseFacts IniModel IniProofs StringModel StringSpec StringProofs StringSplit StringCodec.
Open Scope string_scope.
Open Scope list_scope.
Open Scope Z_scope.

(** ** Stripping *)
Definition white (s : text) : Prop := Forall is_white s.
Definition starts_black (s : text) : Prop := s = [] \/ exists c r, s = c :: r /\ ~ is_white c.
Definition ends_black (s : text) : Prop := s = [] \/ exists r c, s = r ++ [c] /\ ~ is_white c.
Lemma white_iff s : white s <-> Forall (fun c => isspace c = true) s.
Proof. unfold white. split; apply Forall_impl; intros c; apply isspace_is_white. Qed.
Lemma black c : isspace c = false -> ~ is_white c.
Proof. intros H W. apply isspace_is_white in W. congruence. Qed.
Lemma black' c : ~ is_white c -> isspace c = false.
Proof. intros H. destruct (isspace c) eqn:E; [apply isspace_is_white in E; tauto|reflexivity]. Qed.
Lemma strip_all l : exists w r, l = w ++ strip l ++ r /\ white w /\ white r /\ starts_black (strip l) /\ ends_black (strip l).
Proof.
  destruct (strip_decompose l) as (w & m & r & -> & W & R & M). rewrite (strip_spec w m r W R M). exists w, r. rewrite !white_iff.
  split; [reflexivity|]. split; [exact W|]. split; [exact R|]. unfold starts_black, ends_black.
  destruct M as [[-> ->]|[(c & m' & E1 & H1) (m'' & c2 & E2 & H2)]]; [auto|]. apply black in H1, H2. split; right; eauto.
Qed.
Lemma lstrip_all l : exists w, l = w ++ lstrip l /\ white w /\ starts_black (lstrip l).
Proof.
  destruct (white_split l) as (w & s & -> & W & H). rewrite (lstrip_spec w s W H). exists w. rewrite white_iff. split; [reflexivity|]. split; [exact W|].
  unfold starts_black. destruct H as [->|(c & s' & -> & Hc)]; [auto|]. apply black in Hc. right. eauto.
Qed.
Lemma rev_split l : exists s w, l = s ++ w /\ Forall (fun c => isspace c = true) w /\ (s = [] \/ exists s' c, s = s' ++ [c] /\ isspace c = false).
Proof.
  destruct (white_split (rev l)) as (w & s & E & W & H). exists (rev s), (rev w). split; [now rewrite <- rev_app_distr, <- E, rev_involutive|].
  split; [now apply Forall_rev|]. destruct H as [->|(c & s' & -> & Hc)]; [auto|]. right. exists (rev s'), c. split; [reflexivity|exact Hc].
Qed.
Lemma rstrip_all l : exists w, l = rstrip l ++ w /\ white w /\ ends_black (rstrip l).
Proof.
  destruct (rev_split l) as (s & w & -> & W & H). rewrite (rstrip_spec s w W H). exists w. rewrite white_iff. split; [reflexivity|]. split; [exact W|].
  unfold ends_black. destruct H as [->|(s' & c & -> & Hc)]; [auto|]. apply black in Hc. right. eauto.
Qed.
Lemma strip_fixed m : starts_black m -> ends_black m -> strip m = m.
Proof.
  intros S E. pose proof (strip_spec [] m [] ltac:(constructor) ltac:(constructor)) as H. cbn [app] in H. rewrite app_nil_r in H. apply H.
  destruct S as [->|(c & r & E1 & H1)]; [left; auto|]. destruct E as [->|(r' & c' & E2 & H2)]; [discriminate|]. right. apply black' in H1, H2.
  split; eauto.
Qed.
Lemma strip_twice l : strip (strip l) = strip l.
Proof. destruct (strip_all l) as (w & r & _ & _ & _ & S & E). now apply strip_fixed. Qed.
Lemma strip_both l : strip l = lstrip (rstrip l) /\ strip l = rstrip (lstrip l).
Proof.
  destruct (strip_decompose l) as (w & m & r & -> & W & R & M). rewrite (strip_spec w m r W R M). destruct M as [[-> ->]|[M1 M2]].
  - cbn [app]. rewrite app_nil_r. assert (L : lstrip w = []) by (rewrite <- (app_nil_r w); apply lstrip_spec; auto).
    assert (Rr : rstrip w = []) by (change w with ([] ++ w); apply rstrip_spec; auto). rewrite L, Rr. split; reflexivity.
  - split.
    + rewrite app_assoc, rstrip_spec; [|exact R|]; [symmetry; apply lstrip_spec; auto|]. right. destruct M2 as (m' & c & -> & H).
      exists (w ++ m'), c. split; [apply app_assoc|exact H].
    + rewrite lstrip_spec; [|exact W|]; [symmetry; apply rstrip_spec; auto|]. right. destruct M1 as (c & m' & -> & H). exists c, (m' ++ r). split; [reflexivity|exact H].
Qed.

(** ** dirname and basename *)
Lemma components_nil_shape p : components p = [] -> p = [] \/ exists k, p = slashes (S k).
Proof.
  intros E. destruct (path_shapes p) as [->|[[k ->]|[(t & k & T & N & ->)|(d & j & t & k & D & T & N & ->)]]]; eauto.
  - exfalso. rewrite components_slashes_r, components_plain in E by assumption. discriminate.
  - exfalso. rewrite components_join, components_slashes_r, (components_plain t) in E by assumption. symmetry in E. now apply app_cons_not_nil in E.
Qed.
Lemma absolute_app_nonnil d r : d <> [] -> absolute (d ++ r) <-> absolute d.
Proof.
  intros N. unfold absolute. destruct d as [|x d]; [congruence|]. split; intros [q E]; cbn in E; inversion E; subst; eexists; reflexivity.
Qed.
Lemma dirname_parent p : components p <> [] ->
  (dirname p = codes "." /\ ~ absolute p /\ List.length (components p) = 1%nat) \/
  (components (dirname p) = removelast (components p) /\ (absolute (dirname p) <-> absolute p) /\ (absolute p \/ (1 < List.length (components p))%nat)).
Proof.
  intros C. destruct (path_shapes p) as [->|[[k ->]|[(t & k & T & N & ->)|(d & j & t & k & D & T & N & ->)]]].
  - exfalso. now apply C.
  - exfalso. apply C. exact (components_slashes_r [] (S k)).
  - left. rewrite dirname_plain, components_slashes_r, components_plain by assumption. split; [reflexivity|]. split; [|reflexivity].
    intros [r E]. destruct t as [|x t]; [congruence|]. cbn in E. inversion E; subst. apply N. now left.
  - right. rewrite dirname_split, components_join, components_slashes_r, (components_plain t) by assumption. rewrite removelast_last.
    destruct d as [|x d]; [split; [reflexivity|]; split; [split; intros _; eexists; reflexivity|left; eexists; reflexivity]|].
    split; [reflexivity|]. split; [symmetry; now apply absolute_app_nonnil|]. rewrite app_length. cbn [List.length].
    right. destruct (components (x :: d)) eqn:E; [|cbn; lia]. exfalso. apply components_nil_shape in E as [E|[i E]]; [discriminate|].
    destruct D as [D|(d' & c & D & Hc)]; [discriminate|]. rewrite E in D. assert (I : In c (slashes (S i))) by (rewrite D; apply in_or_app; right; now left).
    apply repeat_spec in I. subst c. discriminate.
Qed.
Lemma dirname_no_slash p : dirname p = codes "/" \/ ~ exists d, dirname p = d ++ [slash].
Proof.
  destruct (path_shapes p) as [->|[[k ->]|[(t & k & T & N & ->)|(d & j & t & k & D & T & N & ->)]]].
  - right. intros [d E]. change (dirname []) with (codes ".") in E. destruct d as [|? [|]]; discriminate.
  - left. apply dirname_root.
  - right. rewrite dirname_plain by assumption. intros [d E]. destruct d as [|? [|]]; discriminate.
  - rewrite dirname_split by assumption. destruct d as [|x d]; [auto|]. right. intros [d0 E]. destruct D as [D|(d' & c & D & Hc)]; [discriminate|].
    rewrite D in E. apply app_inj_tail in E as [_ ->]. discriminate.
Qed.
Lemma basename_last p : (exists a, p = a ++ [slash]) \/ p = [] \/ (components p <> [] /\ basename p = last (components p) []).
Proof.
  destruct (last_slash p) as [N|(a & t & -> & N)].
  - destruct p as [|x p]; [auto|]. right. right. rewrite basename_plain, components_plain by (assumption || discriminate). split; [discriminate|reflexivity].
  - destruct t as [|x t]; [left; exists a; reflexivity|]. right. right. rewrite basename_slash by exact N.
    change (a ++ 47 :: x :: t) with (a ++ slash :: (x :: t)). rewrite components_app, (components_plain (x :: t)) by (assumption || discriminate).
    split; [intros E; symmetry in E; now apply app_cons_not_nil in E|]. now rewrite last_last.
Qed.
Lemma dirname_basename p w : basename p <> [] -> follow w (joinpath [dirname p; basename p]) = follow w p /\ (absolute (joinpath [dirname p; basename p]) <-> absolute p).
Proof.
  intros B. assert (NE : p <> []) by (intros ->; now apply B).
  destruct (basename_last p) as [[a ->]|[->|[C L]]]; [exfalso; apply B; now apply (basename_slash a [])|exfalso; now apply B|].
  assert (CB : components (basename p) = [basename p]).
  { rewrite L. apply components_plain; [rewrite <- L; exact B|]. destruct (exists_last C) as (i & z & E). rewrite E, last_last.
    apply (in_components p z). rewrite E. apply in_or_app. right. now left. }
  assert (AJ : absolute (joinpath [dirname p; basename p]) <-> absolute (dirname p)).
  { unfold joinpath. cbn [fold_left]. rewrite appendpath_absolute. rewrite appendpath_absolute. split; [|auto].
    intros [[H|[_ H]]|[H1 H2]]; auto; [destruct H as [r H]; discriminate|]. exfalso.
    destruct (dirname p) as [|x d] eqn:Ed; [|discriminate]. destruct (dirname_parent p C) as [(D & _)|(D & A & S)]; [rewrite Ed in D; discriminate|].
    destruct S as [S|S]; [rewrite Ed in A; apply A in S as [r S]; discriminate|]. rewrite Ed in D. cbn in D.
    destruct (components p) as [|? [|? ?]]; cbn in S; try lia. discriminate. }
  rewrite AJ. clear AJ. unfold follow. rewrite joinpath_components. cbn [map List.concat]. rewrite app_nil_r, CB.
  destruct (dirname_parent p C) as [(D & A & S)|(D & A & S)].
  - rewrite D. split.
    + destruct (components p) as [|c [|]]; try discriminate. cbn [last] in L. rewrite L. reflexivity.
    + split; [intros [r E]; discriminate|tauto].
  - rewrite D. split; [|rewrite <- A; reflexivity]. rewrite L. now rewrite <- app_removelast_last.
Qed.

(** ** normpath *)
Definition tidy (q : text) : Prop :=
  Forall (fun c => plain_name c /\ ~ In slash c) (components q) /\ (q = slash :: interleave [slash] (components q) \/ (~ absolute q /\ components q <> [] /\ q = interleave [slash] (components q)))
  \/ q = codes ".".
Lemma show_rel_components names : names <> [] -> Forall dir_name names -> components (show_rel names) = names.
Proof.
  intros N F. unfold show_rel. destruct names; [congruence|]. apply components_interleave. eapply Forall_impl; [|exact F]. intros c [[H _] ?]. auto.
Qed.
Lemma interleave_relative names : names <> [] -> Forall dir_name names -> ~ absolute (interleave [slash] names).
Proof.
  intros N F [r E]. destruct names as [|a l]; [congruence|]. rewrite interleave_concat in E. inversion F as [|? ? [[H _] Sl] _]; subst.
  destruct a as [|x a]; [congruence|]. cbn in E. inversion E; subst. apply Sl. now left.
Qed.
Lemma dir_of p : Forall dir_name (rev (fold_left step (components p) [])).
Proof. apply Forall_rev, fold_names; [apply comp_facts|constructor]. Qed.
Lemma normpath_result p q : normpath p = Ok q ->
  tidy q /\ (absolute q <-> absolute p) /\ (forall w, follow (if list_eq_dec Z.eq_dec (firstn 1 p) [slash] then [] else w) q = follow (if list_eq_dec Z.eq_dec (firstn 1 p) [slash] then [] else w) p) /\ normpath q = Ok q.
Proof.
  intros H. pose proof (dir_of p) as D. set (names := rev (fold_left step (components p) [])) in *.
  assert (PN : Forall plain_name names) by (eapply Forall_impl; [|exact D]; intros c [? _]; assumption).
  assert (RN : rev names = fold_left step (components p) []) by (unfold names; apply rev_involutive).
  assert (DP : Forall (fun c => plain_name c /\ ~ In slash c) names) by exact D.
  destruct (list_eq_dec Z.eq_dec (firstn 1 p) [slash]) as [E|E].
  - assert (A : absolute p) by (destruct p as [|x p]; [discriminate|]; cbn in E; inversion E; eexists; reflexivity).
    rewrite (normpath_abs p A) in H. apply Ok_inj in H. fold names in H.
    assert (C : components q = names).
    { subst q. unfold show_abs. rewrite components_slash_l. apply components_interleave. eapply Forall_impl; [|exact D]. intros c [[X _] ?]. auto. }
    assert (Aq : absolute q) by (subst q; eexists; reflexivity).
    split; [left; rewrite C; split; [exact DP|left; subst q; reflexivity]|]. split; [tauto|]. 
    assert (FQ : fold_left step (components q) [] = rev names) by (rewrite C, (fold_plain names PN), app_nil_r; reflexivity).
    split; [intros _; unfold follow; rewrite FQ; exact RN|]. rewrite (normpath_abs q Aq), FQ, rev_involutive. now rewrite <- H.
  - assert (A : ~ absolute p) by (intros [r ->]; apply E; reflexivity).
    destruct (normpath_rel p A) as [[U _]|[R NC]]; [rewrite U in H; discriminate|]. rewrite R in H. apply Ok_inj in H. fold names in H.
    assert (FU : forall w, follow w p = rev names ++ w).
    { intros w. unfold follow. rewrite RN. apply (fold_under (components p) [] w). intros pre post X Y. apply NC. exists pre, post. auto. }
    destruct (list_eq_dec (list_eq_dec Z.eq_dec) names []) as [Z|Z].
    + rewrite Z in *. subst q. split; [right; reflexivity|]. split; [split; [intros [r X]; discriminate|tauto]|].
      split; [intros w; rewrite FU; reflexivity|reflexivity].
    + assert (C : components q = names) by (subst q; now apply show_rel_components).
      assert (Q : q = interleave [slash] names) by (subst q; unfold show_rel; now destruct names).
      assert (Aq : ~ absolute q) by (rewrite Q; now apply interleave_relative).
      split; [left; rewrite C; split; [exact DP|right; auto]|]. split; [tauto|].
      split; [intros w; rewrite FU; unfold follow; rewrite C; now apply fold_plain|].
      destruct (normpath_rel q Aq) as [[_ (pre & post & X & _)]|[Rq _]].
      * exfalso. rewrite C in X. rewrite X in PN. apply Forall_app in PN as [_ PN]. inversion PN as [|? ? (_ & _ & Y) _]. now apply Y.
      * rewrite Rq, C, (fold_plain names PN), app_nil_r, rev_involutive. now rewrite H.
Qed.
Lemma normpath_defined p : (exists q, normpath p = Ok q) <-> (absolute p \/ ~ climbs p).
Proof.
  destruct (list_eq_dec Z.eq_dec (firstn 1 p) [slash]) as [E|E].
  - assert (A : absolute p) by (destruct p as [|x p]; [discriminate|]; cbn in E; inversion E; eexists; reflexivity).
    split; [auto|]. intros _. rewrite (normpath_abs p A). eauto.
  - assert (A : ~ absolute p) by (intros [r ->]; apply E; reflexivity).
    destruct (normpath_rel p A) as [[-> C]|[-> C]]; (split; [intros [q Q]; try discriminate; auto|intros [X|X]; [tauto|eauto; tauto]]).
Qed.
Lemma normpath_undefined p : ~ absolute p -> climbs p -> normpath p = UB.
Proof. intros A C. destruct (normpath_rel p A) as [[-> _]|[_ X]]; [reflexivity|tauto]. Qed.

(** ** Case *)
Definition up (c d : Z) : Prop := (97 <= c <= 122 /\ d = c - 32) \/ (~ (97 <= c <= 122) /\ d = c).
Definition down (c d : Z) : Prop := (65 <= c <= 90 /\ d = c + 32) \/ (~ (65 <= c <= 90) /\ d = c).
Lemma upper_spec s : Forall2 up s (upper s).
Proof. induction s as [|c s IH]; constructor; [|exact IH]. unfold up, toupper. destruct (Z.leb_spec 97 c), (Z.leb_spec c 122); cbn; lia. Qed.
Lemma lower_spec s : Forall2 down s (lower_ s).
Proof. induction s as [|c s IH]; constructor; [|exact IH]. unfold down, tolower. destruct (Z.leb_spec 65 c), (Z.leb_spec c 90); cbn; lia. Qed.
Lemma case_idem s : upper (upper s) = upper s /\ lower_ (lower_ s) = lower_ s /\ upper (lower_ s) = upper s /\ lower_ (upper s) = lower_ s.
Proof.
  unfold upper, lower_. rewrite !map_map. repeat split; apply map_ext; intros c; unfold toupper, tolower.
  all: destruct (Z.leb_spec 97 c), (Z.leb_spec c 122), (Z.leb_spec 65 c), (Z.leb_spec c 90); cbn;
    repeat match goal with |- context [?a <=? ?b] => destruct (Z.leb_spec a b) end; cbn; lia.
Qed.
