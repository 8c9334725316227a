(** C208-C210: the statistics and the summary of a run of the unit tests. *)
From Verif Require Import Base BaseFacts IniModel IniSpec IniProofs StringModel GribModel Db1Spec Db1Props TestRunModel TestRunProps TestStatsModel.
From Coq Require Import Permutation Sorting.Sorted.
Open Scope string_scope.
Open Scope list_scope.
Open Scope Z_scope.

(** ** What is asked for *)
Definition all_tests (l : list timed) : list mres := flat_map (fun c => k_methods (fst c)) l.
Definition has_times (l : list timed) : Prop := Forall (fun c => List.length (snd c) = List.length (k_methods (fst c))) l.
(** How many tests were skipped for a reason. *)
Definition skipped_for (r : str) (l : list mres) : Z :=
  Z.of_nat (List.length (filter (fun t => r_skipped t && str_eqb (r_reason t) r) l)).
(** A number and a reason, in a line. *)
Definition line_of (n : Z) (r line : str) : Prop :=
  exists t, plain_number t n /\ line = codes "  " ++ (if n <? 10 then codes " " else []) ++ t ++ codes "x " ++ r ++ [10].
(** The order of texts as lists of bytes. *)
Inductive before : str -> str -> Prop :=
| before_nil x b : before [] (x :: b)
| before_head x y a b : x < y -> before (x :: a) (y :: b)
| before_tail x a b : before a b -> before (x :: a) (x :: b).
Definition listed_before (p q : Z * str) : Prop := fst p < fst q \/ fst p = fst q /\ before (snd p) (snd q).
(** The head of a section, after others or not. *)
Definition section_head (bright : str -> str) (title : string) (later : bool) : str :=
  if later then [10] else [10] ++ codes " * " ++ bright (codes title) ++ [10; 10].

(** ** Sorting of pairs *)
Lemma str_ltb_before a : forall b, str_ltb a b = true <-> before a b.
Proof.
  induction a as [|x a IH]; intros [|y b]; cbn.
  - split; [discriminate|intros H; inversion H].
  - split; [constructor|reflexivity].
  - split; [discriminate|intros H; inversion H].
  - destruct (x <? y) eqn:L; [split; [intros _; constructor; lia|reflexivity]|]. destruct (y <? x) eqn:M.
    + split; [discriminate|]. intros H. inversion H; subst; lia.
    + assert (x = y) by lia. subst y. rewrite IH. split; [now constructor|]. intros H. inversion H; subst; [lia|assumption].
Qed.
Lemma before_total a : forall b, before a b \/ a = b \/ before b a.
Proof.
  induction a as [|x a IH]; intros [|y b]; [tauto|left; constructor|right; right; constructor|].
  destruct (Z.lt_trichotomy x y) as [L|[->|L]]; [left; now constructor| |right; right; now constructor].
  destruct (IH b) as [H|[->|H]]; [left; now constructor|tauto|right; right; now constructor].
Qed.
Lemma before_trans a : forall b c, before a b -> before b c -> before a c.
Proof.
  induction a as [|x a IH]; intros b c H K.
  - inversion H; subst; inversion K; subst; constructor.
  - inversion H; subst; inversion K; subst; try (constructor; lia); try (constructor; assumption). apply before_tail. eapply IH; eassumption.
Qed.
Lemma pair_ltb_spec p q : pair_ltb p q = true <-> listed_before p q.
Proof.
  unfold pair_ltb, listed_before. destruct (fst p <? fst q) eqn:L; [split; [lia|reflexivity]|]. destruct (fst q <? fst p) eqn:M; [split; [discriminate|lia]|].
  rewrite str_ltb_before. split; [intros H; right; split; [lia|exact H]|intros [H|[_ H]]; [lia|exact H]].
Qed.
Lemma listed_total p q : snd p <> snd q -> ~ listed_before p q -> listed_before q p.
Proof.
  unfold listed_before. intros N H. destruct (Z.lt_trichotomy (fst p) (fst q)) as [L|[E|L]]; [tauto| |tauto].
  destruct (before_total (snd p) (snd q)) as [B|[B|B]]; [tauto|contradiction|]. right. auto.
Qed.
Lemma listed_trans p q r : listed_before p q -> listed_before q r -> listed_before p r.
Proof.
  unfold listed_before. intros [A|[A A']] [B|[B B']]; [left; lia|left; lia|left; lia|right]. split; [lia|]. eapply before_trans; eassumption.
Qed.
Lemma insert_perm p l : Permutation (insert p l) (p :: l).
Proof. induction l as [|q l IH]; cbn; [reflexivity|]. destruct (pair_ltb p q); [reflexivity|]. rewrite IH. apply perm_swap. Qed.
Lemma sort_perm l : Permutation (sort_pairs l) l.
Proof. induction l as [|p l IH]; cbn; [reflexivity|]. rewrite insert_perm. now constructor. Qed.
Lemma insert_sorted p l : ~ In (snd p) (map snd l) -> StronglySorted listed_before l -> StronglySorted listed_before (insert p l).
Proof.
  intros N S. induction S as [|q l S IH F]; cbn; [repeat constructor|]. cbn in N. destruct (pair_ltb p q) eqn:E.
  - apply pair_ltb_spec in E. constructor; [constructor; assumption|]. constructor; [exact E|]. eapply Forall_impl; [|exact F]. intros r. now apply listed_trans.
  - assert (listed_before q p) by (apply listed_total; [intros X; apply N; left; congruence|rewrite <- pair_ltb_spec; congruence]). constructor; [apply IH; tauto|].
    rewrite insert_perm. now constructor.
Qed.
Lemma sort_sorted l : NoDup (map snd l) -> StronglySorted listed_before (sort_pairs l).
Proof.
  induction l as [|p l IH]; cbn; intros H; [constructor|]. inversion H; subst. apply insert_sorted; [|auto]. now rewrite sort_perm.
Qed.

(** ** Counting reasons *)
Definition lookup (r : str) (m : list (Z * str)) : Z := match List.find (fun p => str_eqb (snd p) r) m with Some p => fst p | None => 0 end.
Lemma eqb_refl_s s : str_eqb s s = true.
Proof. destruct (str_eqb_spec s s); [reflexivity|congruence]. Qed.
Lemma add_reason_keys r m x : In x (map snd (add_reason r m)) <-> x = r \/ In x (map snd m).
Proof.
  induction m as [|[n k] m IH]; cbn; [split; intros [H|H]; auto; contradiction|]. destruct (str_eqb_spec k r) as [->|N]; cbn.
  - split; [tauto|]. intros [->|H]; auto.
  - rewrite IH. tauto.
Qed.
Lemma add_reason_nodup r m : NoDup (map snd m) -> NoDup (map snd (add_reason r m)).
Proof.
  induction m as [|[n k] m IH]; cbn; intros H; [repeat constructor; tauto|]. inversion H; subst. destruct (str_eqb_spec k r) as [->|N]; cbn; [assumption|].
  constructor; [rewrite add_reason_keys; intros [->|I]; [congruence|contradiction]|auto].
Qed.
Lemma lookup_add r m x : lookup x (add_reason r m) = if str_eqb x r then (if existsb (fun p => str_eqb (snd p) r) m then u32_inc (lookup r m) else 1) else lookup x m.
Proof.
  unfold lookup. induction m as [|[n k] m IH]; cbn [add_reason List.find existsb fst snd].
  - destruct (str_eqb_spec r x) as [->|N]; [now rewrite eqb_refl_s|]. destruct (str_eqb_spec x r); [congruence|reflexivity].
  - destruct (str_eqb_spec k r) as [->|N]; cbn [List.find existsb fst snd orb].
    + destruct (str_eqb_spec r x) as [->|N]; [now rewrite eqb_refl_s|]. destruct (str_eqb_spec x r); [congruence|reflexivity].
    + destruct (str_eqb_spec k x) as [->|M]; [destruct (str_eqb_spec x r); [congruence|reflexivity]|exact IH].
Qed.
Definition rs_ok (l : list mres) (s : list (Z * str) * Z) : Prop :=
  NoDup (map snd (fst s)) /\ (forall n r, In (n, r) (fst s) <-> r <> [] /\ 0 < n /\ n = skipped_for r l) /\ snd s = skipped_for [] l.
Lemma find_in r (m : list (Z * str)) : NoDup (map snd m) -> forall n, In (n, r) m -> List.find (fun p => str_eqb (snd p) r) m = Some (n, r).
Proof.
  induction m as [|[k s] m IH]; cbn; intros H n; [tauto|]. inversion H; subst. intros [E|I].
  - injection E as -> ->. now rewrite eqb_refl_s.
  - destruct (str_eqb_spec s r) as [->|N]; [exfalso; apply H2; apply in_map_iff; now exists (n, r)|auto].
Qed.
Lemma in_add r m n x : NoDup (map snd m) -> In (n, x) (add_reason r m) <-> (x = r /\ n = (if existsb (fun p => str_eqb (snd p) r) m then u32_inc (lookup r m) else 1)) \/ (x <> r /\ In (n, x) m).
Proof.
  intros ND. pose proof (add_reason_nodup r m ND) as ND'. pose proof (lookup_add r m x) as L. split.
  - intros I. unfold lookup at 1 in L. rewrite (find_in x _ ND' n I) in L. cbn in L. destruct (str_eqb_spec x r) as [->|N]; [left; auto|right]. split; [exact N|].
    assert (K : In x (map snd m)). { assert (In x (map snd (add_reason r m))) as K by (apply in_map_iff; now exists (n, x)). apply add_reason_keys in K. tauto. }
    apply in_map_iff in K as ([n' x'] & E & J). cbn in E. subst x'. unfold lookup in L. rewrite (find_in x m ND n' J) in L. cbn in L. now subst n'.
  - intros [[-> ->]|[N I]].
    + assert (K : In r (map snd (add_reason r m))) by (apply add_reason_keys; now left). apply in_map_iff in K as ([n' x'] & E & J). cbn in E. subst x'.
      unfold lookup at 1 in L. rewrite (find_in r _ ND' n' J), eqb_refl_s in L. cbn in L. now rewrite <- L.
    + assert (K : In x (map snd (add_reason r m))) by (apply add_reason_keys; right; apply in_map_iff; now exists (n, x)). apply in_map_iff in K as ([n' x'] & E & J). cbn in E. subst x'.
      unfold lookup at 1 in L. rewrite (find_in x _ ND' n' J) in L. cbn in L. destruct (str_eqb_spec x r); [contradiction|]. unfold lookup in L. rewrite (find_in x m ND n I) in L. cbn in L. now subst n'.
Qed.
Lemma skipped_app r a b : skipped_for r (a ++ b) = skipped_for r a + skipped_for r b.
Proof. unfold skipped_for. rewrite filter_app, app_length. lia. Qed.
Lemma skipped_le r l : 0 <= skipped_for r l <= Z.of_nat (List.length l).
Proof. unfold skipped_for. pose proof (num_le (fun t => r_skipped t && str_eqb (r_reason t) r) l). lia. Qed.
Lemma count_step l s t : rs_ok l s -> Z.of_nat (List.length l) + 1 < 2 ^ 32 -> rs_ok (l ++ [t]) (count_skipped s t).
Proof.
  intros (ND & I & Z0) B. unfold count_skipped. assert (SK : forall r, skipped_for r (l ++ [t]) = skipped_for r l + (if r_skipped t && str_eqb (r_reason t) r then 1 else 0)).
  { intros r. rewrite skipped_app. f_equal. unfold skipped_for. cbn. destruct (r_skipped t && str_eqb (r_reason t) r); reflexivity. }
  pose proof (fun r => skipped_le r l) as LE.
  destruct (r_skipped t) eqn:S; cbn [andb] in SK.
  2: { split; [exact ND|]. split; [|rewrite SK; lia]. intros n r. rewrite I, SK. now rewrite Z.add_0_r. }
  destruct (r_reason t) as [|c w] eqn:W; cbn [is_empty].
  - split; [exact ND|]. split.
    + cbn [fst]. intros n r. rewrite I, SK. destruct (str_eqb_spec [] r) as [<-|N]; [tauto|now rewrite Z.add_0_r].
    + cbn [snd]. rewrite SK, eqb_refl_s, Z0. unfold u32_inc. apply Z.mod_small. pose proof (LE []). lia.
  - rewrite <- W in *. assert (r_reason t <> []) as NE by (rewrite W; discriminate). clear W. split; [cbn [fst]; now apply add_reason_nodup|]. split.
    + cbn [fst]. intros n r. rewrite in_add by exact ND. rewrite I, SK. destruct (str_eqb_spec (r_reason t) r) as [<-|N].
      * assert (E : (if existsb (fun p => str_eqb (snd p) (r_reason t)) (fst s) then u32_inc (lookup (r_reason t) (fst s)) else 1) = skipped_for (r_reason t) l + 1).
        { destruct (existsb _ _) eqn:X.
          - apply existsb_exists in X as ([m x] & J & E). cbn in E. destruct (str_eqb_spec x (r_reason t)) as [->|]; [|discriminate]. unfold lookup. rewrite (find_in _ _ ND m J). cbn. apply I in J as (_ & P & ->). unfold u32_inc. apply Z.mod_small. pose proof (LE (r_reason t)). lia.
          - assert (skipped_for (r_reason t) l = 0); [|lia]. destruct (Z.eq_dec (skipped_for (r_reason t) l) 0) as [|NZ]; [assumption|exfalso].
            assert (J : In (skipped_for (r_reason t) l, r_reason t) (fst s)) by (apply I; pose proof (LE (r_reason t)); split; [exact NE|split; [lia|reflexivity]]).
            rewrite <- not_true_iff_false in X. apply X. apply existsb_exists. eexists. split; [exact J|apply eqb_refl_s]. }
        rewrite E. pose proof (LE (r_reason t)). split; [intros [[_ ->]|[F _]]; [|congruence]; split; [exact NE|split; [lia|reflexivity]]|]. intros (_ & _ & ->). left. auto.
      * rewrite Z.add_0_r. split; [intros [[-> _]|[_ H]]; [congruence|exact H]|]. intros H. right. split; [congruence|exact H].
    + cbn [snd]. rewrite SK. destruct (str_eqb_spec (r_reason t) []); [congruence|]. lia.
Qed.
Lemma count_reasons l : forall l0 s, rs_ok l0 s -> Z.of_nat (List.length (l0 ++ l)) < 2 ^ 32 -> rs_ok (l0 ++ l) (fold_left count_skipped l s).
Proof.
  induction l as [|t l IH]; intros l0 s H B; cbn [fold_left]; [now rewrite app_nil_r|].
  replace (l0 ++ t :: l) with ((l0 ++ [t]) ++ l) in * by now rewrite <- app_assoc. apply IH; [|exact B]. apply count_step; [exact H|]. rewrite !app_length in B. cbn in B. lia.
Qed.
Lemma reasons_ok l : Z.of_nat (List.length l) < 2 ^ 32 -> rs_ok l (fold_left count_skipped l ([], 0)).
Proof.
  intros B. apply (count_reasons l [] ([], 0)); [|exact B]. split; [constructor|]. split; [|reflexivity]. intros n r. cbn. split; [tauto|]. intros (_ & P & ->). cbn in P. lia.
Qed.
Lemma fst_combine {A B} (a : list A) : forall b : list B, List.length b = List.length a -> map fst (combine a b) = a.
Proof. induction a as [|x a IH]; intros [|y b] H; cbn in *; try discriminate; [reflexivity|]. now rewrite IH by lia. Qed.
Lemma tests_all l : has_times l -> map fst (flat_map tests_of l) = all_tests l.
Proof.
  induction 1 as [|c l H _ IH]; [reflexivity|]. cbn. rewrite map_app, IH. unfold tests_of. now rewrite fst_combine.
Qed.
Lemma pad2_line n r : 0 <= n < 2 ^ 32 -> line_of n r (reason_line (n, r)).
Proof.
  intros H. exists (print n). split; [apply print_plain; lia|]. unfold reason_line, pad2. cbn [fst snd]. destruct (n <? 10); reflexivity.
Qed.

Section Stats.
Variables bright red green : str -> str.
Variable secs : Z -> str.
Variable sort_cases : list timed -> list timed.
Variable sort_tests : list (str * (mres * Z)) -> list (str * (mres * Z)).
Let stats := print_stats bright secs sort_cases sort_tests.
Definition T := "Test run statistics".

(** C208: with at least one skipped test that has a reason, the statistics begin with each
    reason once, with the number of tests skipped for it, the rarest first, and with the
    number of tests skipped without a reason. *)
Theorem C208_reasons_partial l : has_times l -> Z.of_nat (List.length (all_tests l)) < 2 ^ 32 ->
  (exists t, In t (all_tests l) /\ r_skipped t = true /\ r_reason t <> []) ->
  exists rows lines last rest,
    stats l = section_head bright T false ++ codes "Number of tests skipped, by reason:" ++ [10; 10] ++ List.concat lines ++ last ++ rest /\
    Forall2 (fun p x => line_of (fst p) (snd p) x) rows lines /\ StronglySorted listed_before rows /\ NoDup (map snd rows) /\
    (forall n r, In (n, r) rows <-> r <> [] /\ 0 < n /\ n = skipped_for r (all_tests l)) /\
    (if skipped_for [] (all_tests l) =? 0 then last = [] else line_of (skipped_for [] (all_tests l)) (codes "(no reason given)") last).
Proof.
  intros HT B (t & I & S & R). unfold stats, print_stats. rewrite tests_all by exact HT. pose proof (reasons_ok _ B) as K. destruct (fold_left count_skipped (all_tests l) ([], 0)) as [by_r no_r]. destruct K as (ND & IN & Z0). cbn [fst snd] in *.
  assert (NE : by_r <> []).
  { intros ->. assert (J : In (skipped_for (r_reason t) (all_tests l), r_reason t) []); [|exact J]. apply IN. split; [exact R|]. split; [|reflexivity]. pose proof (skipped_le (r_reason t) (all_tests l)).
    assert (skipped_for (r_reason t) (all_tests l) <> 0); [|lia]. unfold skipped_for. apply (proj2 (filter_some _ _)). exists t. split; [exact I|]. now rewrite S, eqb_refl_s. }
  replace (List.length by_r =? 0)%nat with false by (destruct by_r; [contradiction|reflexivity]). cbn [negb].
  exists (sort_pairs by_r), (map reason_line (sort_pairs by_r)), (if no_r =? 0 then [] else reason_line (no_r, codes "(no reason given)")). eexists. split.
  { unfold or_separator, maybe_print, section_head. rewrite <- !app_assoc, flat_map_concat_map. reflexivity. }
  assert (IN' : forall n r, In (n, r) (sort_pairs by_r) <-> r <> [] /\ 0 < n /\ n = skipped_for r (all_tests l)) by (intros n r; rewrite <- IN; split; apply Permutation_in; [|symmetry]; apply sort_perm).
  split.
  { assert (F : Forall (fun p => 0 <= fst p < 2 ^ 32) (sort_pairs by_r)).
    { apply Forall_forall. intros [n r] J. apply IN' in J as (_ & P & ->). cbn. pose proof (skipped_le r (all_tests l)). lia. }
    clear -F. induction F as [|[n r] m H _ IH]; cbn; constructor; [apply pad2_line; exact H|exact IH]. }
  split; [now apply sort_sorted|]. split; [eapply Permutation_NoDup; [|exact ND]; apply Permutation_map; symmetry; apply sort_perm|]. split; [exact IN'|].
  rewrite Z0. destruct (skipped_for [] (all_tests l) =? 0) eqn:E; [reflexivity|]. apply pad2_line. pose proof (skipped_le [] (all_tests l)). lia.
Qed.

(** But when no skipped test has a reason, nothing is said of any of them: without slow
    tests the statistics are empty. *)
Theorem C208_refuted_no_reason l : has_times l -> (forall t, In t (all_tests l) -> r_skipped t = true -> r_reason t = []) ->
  (forall c, In c l -> case_ns c <= 100000000 /\ Forall (fun ns => ns <= 100000000) (snd c)) -> stats l = [].
Proof.
  intros HT NR F. unfold stats, print_stats. rewrite tests_all by exact HT.
  assert (E : forall ts s, (forall t, In t ts -> r_skipped t = true -> r_reason t = []) -> fst (fold_left count_skipped ts s) = fst s).
  { induction ts as [|t ts IH]; intros s H; [reflexivity|]. cbn [fold_left]. rewrite IH by (intros; apply H; [now right|assumption]). unfold count_skipped. destruct (r_skipped t) eqn:S; [|reflexivity]. rewrite (H t (or_introl eq_refl) S). reflexivity. }
  specialize (E (all_tests l) ([], 0) NR). destruct (fold_left count_skipped (all_tests l) ([], 0)) as [b n]. cbn in E. subst b. cbn [List.length Nat.eqb negb].
  replace (filter (fun c => slow_threshold <? case_ns c) l) with (@nil timed).
  2: { symmetry. clear -F. induction l as [|c l IH]; [reflexivity|]. cbn. destruct (F c) as [A _]; [now left|]. unfold slow_threshold at 1. replace (100000000 <? case_ns c) with false by lia. apply IH. intros d D. apply F. now right. }
  cbn [List.length Nat.eqb negb].
  match goal with |- context [flat_map ?f l] => replace (flat_map f l) with (@nil (str * (mres * Z))) end; [reflexivity|].
  symmetry. clear -F. induction l as [|c l IH]; [reflexivity|]. cbn. rewrite IH by (intros d D; apply F; now right). destruct (F c) as [_ A]; [now left|]. rewrite app_nil_r.
  replace (filter (fun t : mres * Z => slow_threshold <? snd t) (tests_of c)) with (@nil (mres * Z)); [reflexivity|]. symmetry. unfold tests_of. revert A. generalize (snd c) as b. induction (k_methods (fst c)) as [|x a IHa]; intros [|y b] A; try reflexivity.
  cbn. inversion A; subst. unfold slow_threshold at 1. replace (100000000 <? y) with false by lia. now apply IHa.
Qed.

(** ** C209: the slowest tests *)
(** std::sort with the comparison of times gives the same elements, the longest first. *)
Definition sorts {A} (ns : A -> Z) (sort : list A -> list A) : Prop := forall l, Permutation (sort l) l /\ StronglySorted (fun a b => ns b <= ns a) (sort l).
(** [top] are ten of [l], or all, that took longest, in order. *)
Definition slowest {A} (ns : A -> Z) (l top : list A) : Prop :=
  List.length top = Nat.min 10 (List.length l) /\ StronglySorted (fun a b => ns b <= ns a) top /\
  exists others, Permutation (top ++ others) l /\ forall a b, In a top -> In b others -> ns b <= ns a.
Lemma sorted_app {A} (R : A -> A -> Prop) a : forall b, StronglySorted R (a ++ b) -> StronglySorted R a /\ (forall x y, In x a -> In y b -> R x y).
Proof.
  induction a as [|x a IH]; cbn; intros b H; [split; [constructor|intros x y []]|]. inversion H; subst. apply IH in H2 as [S D]. apply Forall_app in H3 as [F G]. split; [now constructor|].
  intros u v [<-|I] J; [rewrite Forall_forall in G; auto|auto].
Qed.
Lemma slowest_first {A} (ns : A -> Z) sort l : sorts ns sort -> slowest ns l (firstn (Nat.min 10 (List.length l)) (sort l)).
Proof.
  intros H. destruct (H l) as [P S]. set (n := Nat.min 10 (List.length l)). rewrite <- (firstn_skipn n (sort l)) in S. apply sorted_app in S as [S D]. split; [|split; [exact S|]].
  - rewrite firstn_length, (Permutation_length P). unfold n. lia.
  - exists (skipn n (sort l)). split; [now rewrite firstn_skipn|exact D].
Qed.
(** The time of a test or test case in words. *)
Definition time_text (ns : Z) (x : str) : Prop :=
  exists t unit v, x = t ++ codes unit /\ plain_number t v /\ v <= 999 /\ (0 < ns -> 1 <= v) /\
    (unit = "ns" /\ v = ns \/ unit = String (Ascii.ascii_of_nat 194) (String (Ascii.ascii_of_nat 181) "s") /\ v * 1000 <= ns < (v + 1) * 1000 \/ unit = "ms" /\ v * 1000000 <= ns < (v + 1) * 1000000).
Theorem C209_elapsed ns : 0 <= ns < 1000000000 -> time_text ns (format_elapsed secs ns).
Proof.
  intros H. unfold format_elapsed. destruct (ns <? 1000) eqn:A; [|destruct (ns <? 1000000) eqn:B; [|replace (ns <? 1000000000) with true by lia]].
  - exists (print ns), "ns", ns. split; [reflexivity|]. split; [apply print_plain; lia|]. split; [lia|]. split; [lia|]. left. auto.
  - exists (print (ns / 1000)), (String (Ascii.ascii_of_nat 194) (String (Ascii.ascii_of_nat 181) "s")), (ns / 1000). split; [reflexivity|]. split; [apply print_plain; lia|]. split; [lia|]. split; [lia|]. right. left. split; [reflexivity|lia].
  - exists (print (ns / 1000000)), "ms", (ns / 1000000). split; [reflexivity|]. split; [apply print_plain; lia|]. split; [lia|]. split; [lia|]. right. right. split; [reflexivity|lia].
Qed.
(** The time of a test case is the sum of those of its tests. *)
Fixpoint total (l : list Z) : Z := match l with [] => 0 | x :: l' => x + total l' end.
Lemma total_pos l : Forall (fun x => 0 <= x) l -> 0 <= total l.
Proof. clear. induction 1; cbn; lia. Qed.
Theorem C209_case_time (c : timed) : List.length (snd c) = List.length (k_methods (fst c)) ->
  Forall (fun x => 0 <= x) (snd c) -> total (snd c) < 2 ^ 64 -> case_ns c = total (snd c).
Proof.
  unfold case_ns, tests_of. generalize (k_methods (fst c)) (snd c). intros ms ts.
  assert (G : forall ts ms s, List.length ts = List.length ms -> Forall (fun x => 0 <= x) ts -> 0 <= s -> s + total ts < 2 ^ 64 ->
    fold_left (fun s (t : mres * Z) => (s + snd t) mod 2 ^ 64) (combine ms ts) s = s + total ts).
  { clear. induction ts as [|t ts IH]; intros [|m ms] s L F P B; try discriminate; cbn [combine fold_left total snd] in *; [lia|].
    inversion F; subst. pose proof (total_pos ts H2). rewrite Z.mod_small by lia. rewrite IH; [lia|now injection L|assumption|lia|lia]. }
  intros L F B. rewrite G; [reflexivity|assumption|assumption|lia|lia].
Qed.
(** The part about slow test cases and the one about slow tests: each is there exactly when
    there is one that took more than a tenth of a second, and lists the slowest. *)
Definition section_text {A} (head : str) (what : string) (line : A -> str) (ns : A -> Z) (l : list A) (later : bool) (text : str) : Prop :=
  (l = [] /\ text = []) \/
  (l <> [] /\ exists top t, slowest ns l top /\ plain_number t (Z.of_nat (List.length top)) /\
     text = (if later then [10] else head) ++ t ++ codes " slowest " ++ codes what ++ codes ":" ++ [10; 10] ++ flat_map line top).
Definition case_line (c : timed) : str := codes "  " ++ k_name (fst c) ++ codes ": " ++ format_elapsed secs (case_ns c) ++ [10].
Definition test_line (t : str * (mres * Z)) : str := codes "  " ++ fst t ++ codes "." ++ r_name (fst (snd t)) ++ codes ": " ++ format_elapsed secs (snd (snd t)) ++ [10].
Lemma section_ok {A} head what (line : A -> str) ns sort l later : sorts ns sort ->
  section_text head what line ns l later
    (if negb (List.length l =? 0)%nat then let n := Nat.min 10 (List.length l) in (if later then [10] else head) ++ print (Z.of_nat n) ++ (codes " slowest " ++ codes what ++ codes ":") ++ [10; 10] ++ flat_map line (firstn n (sort l)) else []).
Proof.
  intros H. destruct l as [|a l]; [left; auto|]. right. split; [discriminate|]. cbn [List.length Nat.eqb negb]. pose proof (slowest_first ns sort (a :: l) H) as S. exists (firstn (Nat.min 10 (List.length (a :: l))) (sort (a :: l))), (print (Z.of_nat (Nat.min 10 (List.length (a :: l))))).
  split; [exact S|]. split; [destruct S as (-> & _); apply print_plain; lia|]. cbv zeta. rewrite <- !app_assoc. reflexivity.
Qed.
Theorem C209_slowest l : sorts case_ns sort_cases -> sorts (fun t => snd (snd t)) sort_tests ->
  let slow_cases := filter (fun c => 100000000 <? case_ns c) l in
  let slow_tests := flat_map (fun c => map (fun t => (k_name (fst c), t)) (filter (fun t => 100000000 <? snd t) (tests_of c))) l in
  exists first cases tests, stats l = first ++ cases ++ tests /\
    section_text (section_head bright T false) "test cases" case_line case_ns slow_cases (match first with [] => false | _ => true end) cases /\
    section_text (section_head bright T false) "test methods" test_line (fun t => snd (snd t)) slow_tests (match first ++ cases with [] => false | _ => true end) tests.
Proof.
  intros HC HT sc st. unfold stats, print_stats. destruct (fold_left count_skipped _ _) as [b n]. do 3 eexists. split; [reflexivity|]. fold slow_threshold in sc, st. change 100000000 with slow_threshold in *. fold sc. fold st.
  assert (P1 : forall s : str, match (if negb (List.length b =? 0)%nat then or_separator bright T false ++ s else []) with [] => false | _ => true end = negb (List.length b =? 0)%nat) by (intros s; destruct (negb _); reflexivity).
  assert (OS : forall p, or_separator bright "Test run statistics" p = if p then [10] else section_head bright T false) by (intros []; reflexivity).
  split.
  - rewrite P1, OS. exact (section_ok (section_head bright T false) "test cases" case_line case_ns sort_cases sc _ HC).
  - match goal with |- section_text _ _ _ _ _ ?x _ => replace x with (negb (List.length b =? 0)%nat || negb (List.length sc =? 0)%nat) end.
    + rewrite OS. exact (section_ok (section_head bright T false) "test methods" test_line (fun t => snd (snd t)) sort_tests st _ HT).
    + destruct (negb (List.length b =? 0)%nat); [reflexivity|]. destruct (negb (List.length sc =? 0)%nat); reflexivity.
Qed.

(** ** C210: the summary *)
(** The numbers of tests that passed, that failed and that were skipped, of the test cases
    whose set up worked. *)
Definition told (rs : list cres) : list mres := flat_map (fun r => match k_setup r with [] => k_methods r | _ => [] end) rs.
Definition passed (rs : list cres) : Z := Z.of_nat (List.length (filter (fun t => negb (r_skipped t) && match r_error t with [] => true | _ => false end) (told rs))).
Definition failing (rs : list cres) : Z := Z.of_nat (List.length (filter (fun t => negb (r_skipped t) && match r_error t with [] => false | _ => true end) (told rs))).
Definition left_out (rs : list cres) : Z := Z.of_nat (List.length (filter r_skipped (told rs))).
Definition broken (rs : list cres) : Z := Z.of_nat (List.length (filter (fun r => match k_setup r, k_teardown r with [], [] => false | _, _ => true end) rs)).
(** A line that begins with a number, or with two. *)
Definition counts (n : Z) (rest line : str) : Prop := exists t, plain_number t n /\ line = t ++ rest ++ [10].
Definition counts_of (n m : Z) (rest line : str) : Prop := exists t u, plain_number t n /\ plain_number u m /\ line = t ++ codes "/" ++ u ++ rest ++ [10].
Definition if_any (n : Z) (P : str -> Prop) (line : str) : Prop := if n =? 0 then line = [] else P line.

Local Notation num p l := (Z.of_nat (List.length (filter p l))).
Lemma methods_skipped l : forall s, 0 <= s_skipped s < 2 ^ 32 -> s_skipped (fold_left count_method l s) = (s_skipped s + num r_skipped l) mod 2 ^ 32 /\ s_cases_ok (fold_left count_method l s) = s_cases_ok s.
Proof.
  induction l as [|r l IH]; intros s A; cbn [fold_left filter List.length]; [rewrite Z.add_0_r, Z.mod_small by exact A; auto|].
  assert (P : 0 < 2 ^ 32) by reflexivity. unfold count_method at 2 4. destruct (r_skipped r) eqn:S.
  - match goal with |- context [fold_left count_method l ?s0] => destruct (IH s0) as [E F] end; [cbn; unfold u32_inc; apply Z.mod_pos_bound; exact P|]. rewrite E, F. cbn [s_skipped s_cases_ok List.length]. unfold u32_inc. rewrite Zplus_mod_idemp_l. split; [f_equal; lia|reflexivity].
  - destruct (m_success r); match goal with |- context [fold_left count_method l ?s0] => destruct (IH s0) as [E F] end; try exact A; rewrite E, F; auto.
Qed.
Definition fine_case (r : cres) : bool := match k_setup r, k_teardown r with [], [] => true | _, _ => false end.
Lemma cases_skipped l : forall s, 0 <= s_skipped s < 2 ^ 32 -> 0 <= s_cases_ok s < 2 ^ 32 ->
  s_skipped (fold_left count_case l s) = (s_skipped s + num r_skipped (told l)) mod 2 ^ 32 /\ s_cases_ok (fold_left count_case l s) = (s_cases_ok s + num fine_case l) mod 2 ^ 32.
Proof.
  assert (P : 0 < 2 ^ 32) by reflexivity. assert (M : forall z, 0 <= z mod 2 ^ 32 < 2 ^ 32) by (intros z; apply Z.mod_pos_bound; exact P).
  induction l as [|r l IH]; intros s A B.
  - cbn [fold_left told flat_map filter List.length]. rewrite !Z.add_0_r, !Z.mod_small by assumption. auto.
  - cbn [fold_left told flat_map filter]. fold (told l). rewrite filter_app, app_length. unfold count_case at 2 4. unfold fine_case at 1. destruct (k_setup r) as [|x y]; cbn [is_empty negb].
    + match goal with |- context [fold_left count_method (k_methods r) ?s0] => destruct (methods_skipped (k_methods r) s0) as (E1 & E2); [destruct (k_teardown r); cbn; assumption|]; destruct (IH (fold_left count_method (k_methods r) s0)) as (F1 & F2); [rewrite E1; apply M|rewrite E2; destruct (k_teardown r); cbn; [apply M|assumption]|] end.
      rewrite F1, F2, E1, E2, Zplus_mod_idemp_l. destruct (k_teardown r); cbn [is_empty negb s_skipped s_cases_ok List.length]; (split; [f_equal; lia|]); [|reflexivity]. unfold u32_inc. rewrite Zplus_mod_idemp_l. f_equal. lia.
    + match goal with |- context [fold_left count_case l ?s0] => destruct (IH s0) as (F1 & F2); [cbn; assumption..|] end. rewrite F1, F2. cbn [s_skipped s_cases_ok List.length filter]. split; f_equal; lia.
Qed.
Lemma told_counted rs : told rs = counted rs.
Proof. unfold told, counted. apply flat_map_ext. intros r. destruct (k_setup r); reflexivity. Qed.
Lemma num_ext {A} (p q : A -> bool) l : (forall x, p x = q x) -> num p l = num q l.
Proof. intros H. now rewrite (filter_ext p q H l). Qed.
Lemma split_num {A} (p q : A -> bool) l : (forall x, p x = negb (q x)) -> num p l + num q l = Z.of_nat (List.length l).
Proof. intros H. induction l as [|a l IH]; [reflexivity|]. cbn [filter]. rewrite (H a). destruct (q a); cbn [negb List.length]; lia. Qed.
Lemma three_num rs : passed rs + failing rs + left_out rs = Z.of_nat (List.length (told rs)).
Proof.
  unfold passed, failing, left_out. induction (told rs) as [|t l IH]; [reflexivity|]. cbn [filter]. destruct (r_skipped t); cbn [negb andb List.length]; [lia|]. destruct (r_error t); cbn [List.length]; lia.
Qed.
Lemma numbers rs : Z.of_nat (List.length (told rs)) < 2 ^ 32 -> Z.of_nat (List.length rs) < 2 ^ 32 ->
  count_all rs = mk_stats (passed rs) (failing rs) (left_out rs) (Z.of_nat (List.length rs) - broken rs) (broken rs).
Proof.
  intros A B. unfold count_all. destruct (count_cases rs (mk_stats 0 0 0 0 0)) as (E1 & E2 & E3); [cbn; lia..|]. destruct (cases_skipped rs (mk_stats 0 0 0 0 0)) as (E4 & E5); [cbn; lia..|].
  destruct (fold_left count_case rs _) as [a b c d e]. cbn [s_ok s_failed s_skipped s_cases_ok s_cases_failed] in *. rewrite Z.add_0_l in *. rewrite <- told_counted in *.
  assert (G1 : num good (told rs) = passed rs) by (apply num_ext; intros t; reflexivity).
  assert (G2 : num bad (told rs) = failing rs) by (apply num_ext; intros t; unfold bad, m_success; destruct (r_skipped t), (r_error t); reflexivity).
  assert (G3 : num bad_case rs = broken rs) by (apply num_ext; intros t; unfold bad_case; destruct (k_setup t), (k_teardown t); reflexivity).
  assert (G4 : num fine_case rs + broken rs = Z.of_nat (List.length rs)) by (apply split_num; intros t; unfold fine_case; destruct (k_setup t), (k_teardown t); reflexivity).
  pose proof (three_num rs). fold (left_out rs) in E4. unfold passed, failing, left_out, broken in *.
  rewrite G1 in E1. rewrite G2 in E2. rewrite G3 in E3. rewrite Z.mod_small in E1, E2, E3, E4, E5 by lia. subst. f_equal; lia.
Qed.
(** The summary has a line for each number that is not zero, and always one about the tests
    that passed; with those that failed and those skipped they make up the tests of the
    test cases whose set up worked. *)
Theorem C210_summary_partial rs : Z.of_nat (List.length (told rs)) < 2 ^ 32 -> Z.of_nat (List.length rs) < 2 ^ 32 ->
  exists l1 l2 l3 l4, print_summary bright red green (count_all rs) = section_head bright "Result summary" false ++ l1 ++ l2 ++ l3 ++ l4 /\
    if_any (broken rs) (counts_of (broken rs) (Z.of_nat (List.length rs)) (codes " test cases had issues initializing or cleaning up")) l1 /\
    if_any (failing rs) (counts_of (failing rs) (passed rs + failing rs) (codes " tests " ++ red (codes "failed"))) l2 /\
    if_any (left_out rs) (counts (left_out rs) (codes " tests skipped")) l3 /\
    (if passed rs =? 0 then l4 = red (codes "no") ++ codes " tests succeeded" ++ [10] else counts (passed rs) (codes " tests " ++ green (codes "succeeded")) l4) /\
    passed rs + failing rs + left_out rs = Z.of_nat (List.length (told rs)).
Proof.
  intros A B. rewrite numbers by assumption. pose proof (three_num rs) as S. assert (BB : 0 <= broken rs <= Z.of_nat (List.length rs)) by (unfold broken; pose proof (num_le (fun r : cres => match k_setup r, k_teardown r with [], [] => false | _, _ => true end) rs); lia).
  assert (0 <= passed rs) by (unfold passed; lia). assert (0 <= failing rs) by (unfold failing; lia). assert (0 <= left_out rs) by (unfold left_out; lia).
  unfold print_summary. cbn [s_ok s_failed s_skipped s_cases_ok s_cases_failed].
  rewrite (Z.mod_small (Z.of_nat (List.length rs) - broken rs + broken rs)) by lia. rewrite (Z.mod_small (passed rs + failing rs)) by lia. replace (Z.of_nat (List.length rs) - broken rs + broken rs) with (Z.of_nat (List.length rs)) by lia.
  exists (if broken rs =? 0 then [] else print (broken rs) ++ codes "/" ++ print (Z.of_nat (List.length rs)) ++ codes " test cases had issues initializing or cleaning up" ++ [10]).
  exists (if failing rs =? 0 then [] else print (failing rs) ++ codes "/" ++ print (passed rs + failing rs) ++ (codes " tests " ++ red (codes "failed")) ++ [10]).
  exists (if left_out rs =? 0 then [] else print (left_out rs) ++ codes " tests skipped" ++ [10]).
  exists (if passed rs =? 0 then red (codes "no") ++ codes " tests succeeded" ++ [10] else print (passed rs) ++ (codes " tests " ++ green (codes "succeeded")) ++ [10]).
  split.
  { unfold maybe_print, section_head. destruct (broken rs =? 0), (failing rs =? 0), (left_out rs =? 0), (passed rs =? 0); cbn [negb orb]; rewrite <- ?app_assoc, ?app_nil_l; reflexivity. }
  split; [|split; [|split; [|split]]].
  - unfold if_any. destruct (broken rs =? 0); [reflexivity|]. do 2 eexists. split; [apply print_plain; lia|]. split; [apply print_plain; lia|reflexivity].
  - unfold if_any. destruct (failing rs =? 0); [reflexivity|]. do 2 eexists. split; [apply print_plain; lia|]. split; [apply print_plain; lia|reflexivity].
  - unfold if_any. destruct (left_out rs =? 0); [reflexivity|]. eexists. split; [apply print_plain; lia|reflexivity].
  - destruct (passed rs =? 0); [reflexivity|]. eexists. split; [apply print_plain; lia|reflexivity].
  - exact S.
Qed.
(** The tests of a test case whose set up fails are in none of the numbers, nor are those
    of a test case of which the patterns pick none. *)
Theorem C210_refuted_setup fnmatch allow block l c ms rs e : c_setup c = Some e -> ~ skips e -> started fnmatch allow block c ->
  started fnmatch allow block (mk_tcase (c_name c) (c_setup c) ms (c_teardown c)) ->
  snd (run_all fnmatch allow block (c :: l)) = Ok rs ->
  snd (run_all fnmatch allow block (mk_tcase (c_name c) (c_setup c) ms (c_teardown c) :: l)) = Ok rs.
Proof.
  intros S NS ST ST' R. cbn [run_all] in *. unfold run_case in *. cbn [c_name c_setup c_methods c_teardown].
  assert (Q : forall d, started fnmatch allow block d -> case_should_run fnmatch allow block d = true).
  { clear. intros d (m & I & P1 & P2). unfold case_should_run. apply existsb_exists. exists m. split; [exact I|]. unfold should_run, full_name.
    assert (X : negb (is_empty allow) && (fnmatch allow (c_name d ++ [46] ++ t_name m) =? 1) = false).
    { destruct P1 as [->|P1]; [reflexivity|]. change (c_name d ++ codes "." ++ t_name m) with (c_name d ++ [46] ++ t_name m) in P1. replace (fnmatch _ _ =? 1) with false by lia. apply andb_false_r. }
    assert (Y : negb (is_empty block) && negb (fnmatch block (c_name d ++ [46] ++ t_name m) =? 1) = false).
    { destruct P2 as [->|P2]; [reflexivity|]. change (c_name d ++ codes "." ++ t_name m) with (c_name d ++ [46] ++ t_name m) in P2. rewrite P2. apply andb_false_r. }
    rewrite X, Y. reflexivity. }
  rewrite (Q c ST) in R. rewrite (Q _ ST'). cbn [negb] in *. rewrite S in *. destruct e; try exact R. exfalso. apply NS. now exists reason.
Qed.
Theorem C210_refuted_unpicked fnmatch allow block c : ~ started fnmatch allow block c -> exists r, snd (run_case fnmatch allow block c) = Ok r /\ k_methods r = [].
Proof.
  intros N. unfold run_case. destruct (case_should_run fnmatch allow block c) eqn:E; [|eexists; split; reflexivity].
  exfalso. apply N. unfold case_should_run in E. apply existsb_exists in E as (m & I & H). exists m. split; [exact I|]. unfold should_run, full_name in H. unfold picked. change (codes ".") with [46].
  destruct (negb (is_empty allow) && (fnmatch allow (c_name c ++ [46] ++ t_name m) =? 1)) eqn:X; [discriminate|]. destruct (negb (is_empty block) && negb (fnmatch block (c_name c ++ [46] ++ t_name m) =? 1)) eqn:Y; [discriminate|].
  split.
  - destruct allow; [left; reflexivity|right]. cbn [is_empty negb andb] in X. lia.
  - destruct block; [left; reflexivity|right]. cbn [is_empty negb andb] in Y. lia.
Qed.
End Stats.

(** ** Cases *)
Definition ex_skip (n why : string) : mres := mk_mres (codes n) [] [] [] true (codes why).
Definition ex_run (n err : string) : mres := mk_mres (codes n) (codes err) [] [] false [].
Definition ex_cases : list timed :=
  [(mk_cres (codes "a") [ex_skip "x" "no net"; ex_skip "y" "no net"; ex_run "z" ""] [] [] false, [0; 0; 250000000]);
   (mk_cres (codes "b") [ex_skip "x" "late"; ex_skip "y" ""; ex_run "z" "wrong"] [] [] false, [0; 0; 50])].
Example C208_case : print_stats (fun s => s) print (fun l => l) (fun l => l) ex_cases =
  [10] ++ codes " * Test run statistics" ++ [10; 10] ++ codes "Number of tests skipped, by reason:" ++ [10; 10] ++
  codes "   1x late" ++ [10] ++ codes "   2x no net" ++ [10] ++ codes "   1x (no reason given)" ++ [10] ++ [10] ++
  codes "1 slowest test cases:" ++ [10; 10] ++ codes "  a: 250ms" ++ [10] ++ [10] ++
  codes "1 slowest test methods:" ++ [10; 10] ++ codes "  a.z: 250ms" ++ [10] /\ has_times ex_cases.
Proof. split; [reflexivity|repeat constructor]. Qed.
Example C208_none : print_stats (fun s => s) print (fun l => l) (fun l => l) [(mk_cres (codes "a") [ex_skip "x" ""] [] [] false, [0])] = [].
Proof. reflexivity. Qed.
(** Sorting by insertion sorts by times. *)
Fixpoint ins_by {A} (ns : A -> Z) (a : A) (l : list A) : list A := match l with [] => [a] | b :: l' => if ns b <=? ns a then a :: b :: l' else b :: ins_by ns a l' end.
Definition sort_by {A} (ns : A -> Z) (l : list A) : list A := fold_right (ins_by ns) [] l.
Example C209_sorts {A} (ns : A -> Z) : sorts ns (sort_by ns).
Proof.
  assert (IP : forall a l, Permutation (ins_by ns a l) (a :: l)).
  { intros a l. induction l as [|b l IH]; cbn; [reflexivity|]. destruct (ns b <=? ns a); [reflexivity|]. rewrite IH. apply perm_swap. }
  intros l. induction l as [|a l [P S]]; cbn; [split; constructor|]. split; [rewrite IP; now constructor|]. clear P. unfold sort_by in S. revert S. generalize (fold_right (ins_by ns) [] l) as m0. intros m0 S. induction S as [|b m S IH F]; cbn; [repeat constructor|]. destruct (ns b <=? ns a) eqn:E.
  - constructor; [now constructor|]. constructor; [lia|]. eapply Forall_impl; [|exact F]. cbn. lia.
  - constructor; [exact IH|]. rewrite IP. constructor; [lia|exact F].
Qed.
Example C210_case : print_summary (fun s => s) (fun s => s) (fun s => s) (count_all (map fst ex_cases)) =
  [10] ++ codes " * Result summary" ++ [10; 10] ++ codes "1/2 tests failed" ++ [10] ++ codes "4 tests skipped" ++ [10] ++ codes "1 tests succeeded" ++ [10].
Proof. reflexivity. Qed.
Example C210_setup : let c := mk_tcase (codes "c") (Some (XStd (codes "e") (codes "no"))) [mk_method (codes "t") None (Some None) None] None in
  started (fun _ _ => 0) [] [] c /\ exists rs, snd (run_all (fun _ _ => 0) [] [] [c]) = Ok rs /\ told rs = [] /\ broken rs = 1.
Proof.
  split; [exists (mk_method (codes "t") None (Some None) None); split; [now left|split; now left]|]. eexists. split; [reflexivity|split; reflexivity].
Qed.
Print Assumptions C208_reasons_partial.
Print Assumptions C208_refuted_no_reason.
Print Assumptions C209_elapsed.
Print Assumptions C209_slowest.
Print Assumptions C209_case_time.
Print Assumptions C210_summary_partial.
Print Assumptions C210_refuted_setup.
Print Assumptions C210_refuted_unpicked.
