(** C192, C193: the checks on texts, paths and files. *)
From Coq Require Import Permutation.
From Verif Require Import Base BaseFacts IniModel IniProofs StringModel StringSpec StringProofs StringSplit StringCodec StringFinal TestAssertModel.
Open Scope list_scope.

Definition passed (x : outcome unit) : Prop := x = Ok tt.
Lemma check_passed b : passed (check b) <-> b = true.
Proof. unfold passed, check. destruct b; split; congruence. Qed.

(** ** C192 *)
Lemma rstrip_unique j w : ends_black j -> white w -> rstrip (j ++ w) = j.
Proof.
  intros J W. destruct (rstrip_all (j ++ w)) as (w' & E & W' & B). unfold white in *. remember (rstrip (j ++ w)) as r. clear Heqr.
  assert (NW : forall c l, Forall is_white (l ++ [c]) -> is_white c) by (intros c l H; apply Forall_app in H as (_ & H); now inversion H).
  assert (G : forall j w r w', ends_black j -> Forall is_white w -> Forall is_white w' -> j ++ w = r ++ w' -> (List.length j <= List.length r)%nat).
  { clear. intros j w r w' J W W' E. destruct J as [->|(a & c & -> & C)]; [cbn; lia|]. destruct (Nat.le_gt_cases (List.length (a ++ [c])) (List.length r)) as [H|H]; [exact H|exfalso]. apply C.
    apply app_eq_app in E as (l & [(E1 & E2)|(E1 & E2)]).
    - destruct l as [|x l] using rev_ind; [rewrite app_nil_r in E1; rewrite E1 in H; lia|]. rewrite app_assoc in E1. apply app_inj_tail in E1 as (_ & <-). rewrite E2 in W'. apply Forall_app in W' as (X & _). apply Forall_app in X as (_ & X). now inversion X.
    - rewrite E1 in H. rewrite !app_length in H. cbn in H. lia. }
  assert (L : List.length j = List.length r). { apply Nat.le_antisymm; [exact (G j w r w' J W W' E)|exact (G r w' j w B W' W (eq_sym E))]. }
  clear -E L. revert r L E. induction j as [|c j IH]; intros [|d r] L E; try discriminate; [reflexivity|]. cbn in *. injection E as -> E. f_equal. apply IH; [lia|exact E].
Qed.
Lemma same_lines_spec a e : List.length a = List.length e -> (passed (same_lines a e) <-> a = e).
Proof.
  revert e. induction a as [|x a IH]; intros [|y e] L; try discriminate; [split; reflexivity|]. cbn in *. destruct (str_eqb_spec x y) as [->|N].
  - rewrite IH by lia. split; [intros ->; reflexivity|intros H; now injection H].
  - unfold passed. split; [discriminate|]. intros H. injection H as H _. contradiction.
Qed.
Lemma contains_line p : contains [10] p <-> In 10 p.
Proof. split; [intros (a & b & ->); apply in_or_app; right; now left|]. intros H. apply in_split in H as (a & b & ->). now exists a, b. Qed.
Lemma lines_pieces ls : ls <> [] -> Forall (fun p => ~ In 10 p) ls -> pieces [10] (interleave [10] ls) ls.
Proof.
  intros N F. induction F as [|a ls A F IH]; [congruence|]. destruct ls as [|b ls]; [cbn; apply pieces_last; now rewrite contains_line|].
  change (interleave [10] (a :: b :: ls)) with (a ++ [10] ++ interleave [10] (b :: ls)). apply pieces_more; [|apply IH; discriminate]. cbn. rewrite app_nil_r. now rewrite contains_line.
Qed.
(** The check on the lines of a file passes when the file has these lines and then only white
    space. *)
Theorem C192_equal_partial content lines : passed (contents_equal content lines) <->
  (lines = [] /\ white content) \/
  (exists w, content = interleave [10] lines ++ w /\ white w /\ ends_black (interleave [10] lines) /\ interleave [10] lines <> [] /\ Forall (fun l => ~ In 10 l) lines).
Proof.
  unfold contents_equal. destruct (rstrip_all content) as (w & E & W & B). destruct (rstrip content) as [|x r] eqn:R.
  - cbn [bind]. change (split [] [10] false) with (@Ok (list str) []). cbn [bind]. cbn in E. subst w. split.
    + destruct lines as [|l ls]; [intros _; left; auto|]. cbn. unfold passed. discriminate.
    + intros [(-> & _)|(w & E & W' & B' & N & _)]; [reflexivity|]. exfalso. apply N. rewrite E in R. rewrite rstrip_unique in R by assumption. exact R.
  - destruct (split_plain (x :: r) [10] ltac:(discriminate) ltac:(discriminate)) as (ps & SP & P). rewrite SP. cbn [bind]. split.
    + intros H. destruct (Nat.eqb_spec (List.length ps) (List.length lines)) as [L|L]; [|discriminate]. cbn [negb] in H. apply same_lines_spec in H; [|exact L]. subst lines. right. exists w. pose proof (pieces_join _ _ _ P) as J. rewrite J. split; [exact E|]. split; [exact W|]. split; [exact B|]. split; [discriminate|]. pose proof (pieces_free _ _ _ P) as F. eapply Forall_impl; [|exact F]. intros p. cbn. now rewrite contains_line.
    + intros [(-> & WC)|(w' & E' & W' & B' & N & F)].
      * exfalso. destruct B as [X|(a & c & X & C)]; [discriminate|]. apply C. rewrite E, X in WC. unfold white in WC. rewrite Forall_forall in WC. apply WC. apply in_or_app. left. apply in_or_app. right. now left.
      * rewrite E', rstrip_unique in R by assumption. assert (NL : lines <> []) by (intros ->; now apply N). pose proof (lines_pieces lines NL F) as P'. rewrite R in P'. rewrite (pieces_unique [10] (x :: r) ps lines ltac:(discriminate) P P'). rewrite Nat.eqb_refl. cbn [negb]. now apply same_lines_spec.
Qed.
Print Assumptions C192_equal_partial.
(** Lines of which the last one is empty or ends with white space never match, not even the
    file that consists of them. *)
Theorem C192_refuted_blank content ls l c : is_white c -> contents_equal content (ls ++ [l ++ [c]]) = Throw /\ contents_equal content (ls ++ [[]]) = Throw.
Proof.
  assert (D : forall lines, contents_equal content lines = Ok tt \/ contents_equal content lines = Throw).
  { intros lines. unfold contents_equal. assert (S : exists ps, split (rstrip content) [10] false = Ok ps). { destruct (rstrip content) as [|x r]; [eexists; reflexivity|]. destruct (split_plain (x :: r) [10] ltac:(discriminate) ltac:(discriminate)) as (ps & -> & _). eauto. }
    destruct S as (ps & ->). cbn [bind]. destruct (negb _); [now right|]. revert lines. induction ps as [|p ps IH]; intros [|y lines]; cbn; auto. destruct (str_eqb p y); auto. }
  assert (LA : forall ls a, interleave [10] (ls ++ [a]) = interleave [10] ls ++ (if nonempty (List.concat (map (fun _ => [0]) ls)) then [10] else []) ++ a).
  { clear. intros ls a. induction ls as [|b ls IH]; [reflexivity|]. destruct ls as [|b' ls]; [cbn; reflexivity|]. change (interleave [10] ((b :: b' :: ls) ++ [a])) with (b ++ [10] ++ interleave [10] ((b' :: ls) ++ [a])). rewrite IH. change (interleave [10] (b :: b' :: ls)) with (b ++ [10] ++ interleave [10] (b' :: ls)). cbn [map List.concat app nonempty]. rewrite <- !app_assoc. reflexivity. }
  intros WC. split.
  - destruct (D (ls ++ [l ++ [c]])) as [H|H]; [|exact H]. exfalso. apply C192_equal_partial in H as [(H & _)|(w & _ & _ & B & N & _)]; [now destruct ls|]. rewrite LA, !app_assoc in B, N. destruct B as [B|(r & d & B & ND)]; [contradiction|]. apply app_inj_tail in B as (_ & <-). contradiction.
  - destruct (D (ls ++ [[]])) as [H|H]; [|exact H]. exfalso. apply C192_equal_partial in H as [(H & _)|(w & _ & _ & B & N & _)]; [now destruct ls|]. rewrite LA, app_nil_r in B, N. destruct ls as [|b ls]; [now apply N|]. cbn [map List.concat app nonempty] in B, N. destruct B as [B|(r & d & B & ND)]; [contradiction|]. apply app_inj_tail in B as (_ & <-). apply ND. unfold is_white. cbn. tauto.
Qed.
Print Assumptions C192_refuted_blank.
Section Regexp.
Variable valid : str -> bool.
Variable regexec : str -> str -> option (nat * nat).
(** What the check on lines with expressions does: each of them is looked for in the whole
    file. *)
Theorem C192_match_partial content res : passed (contents_match valid regexec content res) <-> forall re, In re res -> valid (c_str re) = true /\ regexec (c_str re) (c_str (rstrip content)) <> None.
Proof.
  unfold contents_match. assert (S : exists ps, split (rstrip content) [10] false = Ok ps). { destruct (rstrip content) as [|x r]; [eexists; reflexivity|]. destruct (split_plain (x :: r) [10] ltac:(discriminate) ltac:(discriminate)) as (ps & -> & _). eauto. }
  destruct S as (ps & ->). cbn [bind]. revert ps. induction res as [|re res IH]; intros ps; cbn [match_loop]; [split; [intros _ ? []|reflexivity]|]. unfold search at 1. unfold passed in *.
  destruct (valid (c_str re)) eqn:V; cbn [bind]; [|split; [discriminate|intros H; destruct (H re) as (X & _); [now left|congruence]]].
  destruct (regexec (c_str re) (c_str (rstrip content))) as [[so eo]|] eqn:M; [|split; [discriminate|intros H; destruct (H re) as (_ & X); [now left|congruence]]].
  assert (G : forall q : Prop, (q <-> forall re0, In re0 res -> valid (c_str re0) = true /\ regexec (c_str re0) (c_str (rstrip content)) <> None) -> (q <-> forall re0, In re0 (re :: res) -> valid (c_str re0) = true /\ regexec (c_str re0) (c_str (rstrip content)) <> None)).
  { intros q Q. rewrite Q. split; [intros H re0 [<-|I]; [split; [exact V|congruence]|now apply H]|intros H re0 I; apply H; now right]. }
  destruct (so =? eo)%nat; apply G, IH.
Qed.
(** So the order of the lines and lines that match nothing are not noticed: a file passes with
    the expressions in any order, repeated or left out. *)
Theorem C192_refuted_order content res res' : (forall re, In re res' -> In re res) -> passed (contents_match valid regexec content res) -> passed (contents_match valid regexec content res').
Proof. intros I H. apply C192_match_partial. intros re R. rewrite C192_match_partial in H. apply H. now apply I. Qed.
(** Matching a text, and a function that throws: the check passes exactly when there is an
    exception whose text matches. *)
Theorem C193_throws : (forall a re, passed (assert_re_matches valid regexec a re) <-> valid (c_str re) = true /\ regexec (c_str re) (c_str a) <> None) /\
  (forall a re, passed (assert_not_re_matches valid regexec a re) <-> valid (c_str re) = true /\ regexec (c_str re) (c_str a) = None) /\
  (forall thrown re, passed (throws valid regexec thrown re) <-> exists w, thrown = Some w /\ valid (c_str re) = true /\ regexec (c_str re) (c_str w) <> None).
Proof.
  assert (M : forall a re, passed (assert_re_matches valid regexec a re) <-> valid (c_str re) = true /\ regexec (c_str re) (c_str a) <> None).
  { intros a re. unfold assert_re_matches, search, passed. destruct (valid (c_str re)); cbn [bind]; [|split; [discriminate|intros (H & _); discriminate]]. destruct (regexec _ _) as [m|]; cbn [check]; (split; [intros H; split; [reflexivity|congruence]|intros (_ & H); congruence]). }
  split; [exact M|]. split.
  - intros a re. unfold assert_not_re_matches, search, passed. destruct (valid (c_str re)); cbn [bind]; [|split; [discriminate|intros (H & _); discriminate]]. destruct (regexec _ _) as [m|]; cbn [check]; (split; [intros H; split; [reflexivity|congruence]|intros (_ & H); congruence]).
  - intros [w|] re; cbn [throws].
    + rewrite M. split; [intros H; exists w; auto|intros (w' & E & H); injection E as <-; exact H].
    + unfold passed. split; [discriminate|intros (w & E & _); discriminate].
Qed.
End Regexp.
Print Assumptions C193_throws.
Print Assumptions C192_match_partial.
Print Assumptions C192_refuted_order.
(** Expressions without special characters. *)
Example C192_case : let rx re s := match find s re 0 with Some i => Some (i, (i + List.length re)%nat) | None => None end in let ok _ := true in
  contents_match ok rx (codes "one" ++ [10] ++ codes "two" ++ [10]) [codes "two"; codes "one"] = Ok tt /\ contents_match ok rx (codes "one" ++ [10] ++ codes "two" ++ [10]) [codes "three"] = Throw /\
  contents_equal (codes "a" ++ [10; 10] ++ codes "b" ++ [32; 10]) [codes "a"; []; codes "b"] = Ok tt /\ contents_equal (codes "a ") [codes "a "] = Throw.
Proof. cbv zeta. repeat split; vm_compute; reflexivity. Qed.

(** ** C193 *)
Lemma path_startswith_spec a e : passed (path_startswith a e) <-> exists r, a = e ++ r.
Proof.
  revert a. induction e as [|y e IH]; intros a.
  - destruct a; cbn; (split; [intros _; eexists; reflexivity|reflexivity]).
  - destruct a as [|x a]; cbn; [unfold passed; split; [discriminate|intros (r & H); discriminate]|]. destruct (str_eqb_spec x y) as [->|N].
    + rewrite IH. split; [intros (r & ->); now exists r|intros (r & H); injection H as ->; now exists r].
    + unfold passed. split; [discriminate|]. intros (r & H). injection H as H _. contradiction.
Qed.
Lemma ends_loop_spec a e i j : (i <= List.length a)%nat -> (j <= List.length e)%nat -> (passed (ends_loop a e i j) <-> exists r, firstn i a = r ++ firstn j e).
Proof.
  revert j. induction i as [|i IH]; intros j I J.
  - destruct j as [|j]; cbn [ends_loop]; [split; [intros _; exists []; reflexivity|reflexivity]|]. unfold passed. split; [discriminate|]. intros (r & H). cbn [firstn] in H. destruct e; [cbn in J; lia|]. destruct r; discriminate.
  - destruct j as [|j]; cbn [ends_loop]; [split; [intros _; exists (firstn (S i) a); cbn; now rewrite app_nil_r|reflexivity]|].
    assert (L : forall (l : list str) n, (n < List.length l)%nat -> firstn (S n) l = firstn n l ++ [nth n l []]). { clear. induction l as [|x l IH]; intros n H; [cbn in H; lia|]. destruct n as [|n]; [reflexivity|]. cbn [firstn app nth]. f_equal. apply IH. cbn in H. lia. }
    rewrite (L a i), (L e j) by lia. destruct (str_eqb_spec (nth i a []) (nth j e [])) as [->|N].
    + rewrite IH by lia. split; [intros (r & ->); exists r; now rewrite app_assoc|]. intros (r & H). rewrite app_assoc in H. apply app_inj_tail in H as (H & _). now exists r.
    + unfold passed. split; [discriminate|]. intros (r & H). rewrite app_assoc in H. apply app_inj_tail in H as (_ & H). contradiction.
Qed.
Lemma find_0 s sep : match find s sep 0 with Some _ => contains sep s | None => ~ contains sep s end.
Proof. unfold find. cbn [Nat.ltb Nat.leb skipn]. pose proof (find_from_spec sep s 0) as H. destruct (find_from sep s 0); [destruct H as (a & b & E & _); now exists a, b|exact H]. Qed.
(** The checks on the begin, the end and the contents of texts, paths and files pass exactly
    when what they say is true. *)
Theorem C193_checks : (forall a e, passed (assert_startswith a e) <-> exists r, a = e ++ r) /\ (forall a e, passed (assert_endswith a e) <-> exists r, a = r ++ e) /\
  (forall a e, passed (assert_contains a e) <-> exists p q, a = p ++ e ++ q) /\ (forall a e, passed (assert_not_contains a e) <-> ~ exists p q, a = p ++ e ++ q) /\
  (forall a e, passed (path_startswith a e) <-> exists r, a = e ++ r) /\ (forall a e, passed (path_endswith a e) <-> exists r, a = r ++ e) /\
  (forall f d, passed (contents_startwith f d) <-> exists r, f = d ++ r).
Proof.
  split; [|split; [|split; [|split; [|split; [|split]]]]].
  - intros a e. unfold assert_startswith. rewrite check_passed. apply startswith_spec.
  - intros a e. unfold assert_endswith. rewrite check_passed. apply endswith_spec.
  - intros a e. unfold assert_contains. rewrite check_passed. pose proof (find_0 a e) as H. destruct (find a e 0); [split; [intros _; exact H|reflexivity]|split; [discriminate|intros X; now destruct (H X)]].
  - intros a e. unfold assert_not_contains. rewrite check_passed. pose proof (find_0 a e) as H. destruct (find a e 0); [split; [discriminate|intros X; now destruct (X H)]|split; [intros _; exact H|reflexivity]].
  - exact path_startswith_spec.
  - intros a e. unfold path_endswith. rewrite ends_loop_spec by lia. now rewrite !firstn_all.
  - intros f d. unfold contents_startwith. destruct (Nat.ltb_spec (List.length f) (List.length d)) as [L|L].
    + unfold passed. split; [discriminate|]. intros (r & ->). rewrite app_length in L. lia.
    + rewrite check_passed. split.
      * intros H. destruct (str_eqb_spec (firstn (List.length d) f) d) as [E|]; [|discriminate]. exists (skipn (List.length d) f). rewrite <- E at 1. symmetry. apply firstn_skipn.
      * intros (r & ->). rewrite firstn_app, firstn_all, Nat.sub_diag. cbn. rewrite app_nil_r. destruct (str_eqb_spec d d); congruence.
Qed.
Print Assumptions C193_checks.
(** Two C strings, or the same null pointer, are the same or different and never both. *)
Theorem C193_cstring a e : (passed (cstring_eq a e) <-> a = e) /\ (passed (cstring_ne a e) <-> a <> e).
Proof.
  unfold cstring_eq, cstring_ne. destruct a as [a|], e as [e|]; rewrite ?check_passed; try (destruct (str_eqb_spec a e) as [->|N]); unfold passed; cbn; split; split; intros; try reflexivity; try discriminate; try congruence.
Qed.
Print Assumptions C193_cstring.
Example C193_case : path_endswith [codes "/"; codes "usr"; codes "lib"] [codes "usr"; codes "lib"] = Ok tt /\ path_endswith [codes "usrlib"] [codes "lib"] = Throw /\ path_startswith [codes "a"] [codes "a"; codes "b"] = Throw.
Proof. repeat split. Qed.
