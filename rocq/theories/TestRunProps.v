(** C187-C190: running unit tests. *)
From Verif Require Import Base BaseFacts IniModel IniProofs StringModel TestRunModel.
Open Scope list_scope.

(** ** What is asked for *)
Section Spec.
Variable fnmatch : str -> str -> Z.
Variables allow block : str.
(** A test is picked when its name matches the first pattern and not the second one; an
    empty pattern is none. *)
Definition picked (c : tcase) (m : method) : Prop :=
  let name := c_name c ++ codes "." ++ t_name m in (allow = [] \/ fnmatch allow name <> 1) /\ (block = [] \/ fnmatch block name = 1).
Definition started (c : tcase) : Prop := exists m, In m (c_methods c) /\ picked c m.
End Spec.
Definition skips (e : exn) : Prop := exists why, e = XSkip why.
(** A test that runs to its end, and one in which something goes wrong. *)
Definition passes (m : method) : Prop := t_setup m = None /\ t_body m = Some None /\ t_teardown m = None.
Definition goes_wrong (m : method) : Prop :=
  t_body m <> None /\
  ((exists e, t_setup m = Some e /\ ~ skips e) \/
   (t_setup m = None /\ ((exists e, t_body m = Some (Some e) /\ ~ skips e) \/ t_teardown m <> None))).
(** Hooks throw nothing but exceptions of the standard library. *)
Definition usual (x : option exn) : Prop := x <> Some XOther.
Definition usual_hooks (c : tcase) : Prop := usual (c_setup c) /\ usual (c_teardown c) /\ Forall (fun m => usual (t_setup m) /\ usual (t_teardown m)) (c_methods c).

(** ** Counting *)
Lemma nil_length {A} (l : list A) : (l = [] <-> List.length l = 0%nat).
Proof. destruct l; cbn; split; intros; try reflexivity; discriminate. Qed.
Definition good (r : mres) : bool := negb (r_skipped r) && m_success r.
Definition bad (r : mres) : bool := negb (r_skipped r) && negb (m_success r).
Local Notation num p l := (Z.of_nat (List.length (filter p l))).
Lemma inc_mod a n : 0 <= n -> u32_inc ((a + n) mod 2 ^ 32) = (a + (n + 1)) mod 2 ^ 32.
Proof. intros _. unfold u32_inc. rewrite Zplus_mod_idemp_l. f_equal. lia. Qed.
Lemma count_methods l : forall s, 0 <= s_ok s < 2 ^ 32 -> 0 <= s_failed s < 2 ^ 32 -> let s' := fold_left count_method l s in
  s_ok s' = (s_ok s + num good l) mod 2 ^ 32 /\ s_failed s' = (s_failed s + num bad l) mod 2 ^ 32 /\ s_cases_failed s' = s_cases_failed s.
Proof.
  induction l as [|r l IH]; intros s A B; cbn [fold_left filter List.length].
  - rewrite !Z.add_0_r, !Z.mod_small by assumption. auto.
  - unfold good at 1, bad at 1. unfold count_method at 2 4 6. destruct (r_skipped r); cbn [negb andb]; [match goal with |- context [fold_left count_method l ?s0] => exact (IH s0 A B) end|].
    assert (P : 0 < 2 ^ 32) by reflexivity.
    destruct (m_success r); cbn [negb andb List.length]; (match goal with |- context [fold_left count_method l ?s0] => destruct (IH s0) as (E1 & E2 & E3) end; [cbn; try assumption; unfold u32_inc; apply Z.mod_pos_bound; exact P|cbn; try assumption; unfold u32_inc; apply Z.mod_pos_bound; exact P|]);
      cbn [s_ok s_failed s_cases_failed] in *; rewrite E1, E2, E3; unfold u32_inc; rewrite ?Zplus_mod_idemp_l; (split; [f_equal; lia|split; [f_equal; lia|reflexivity]]).
Qed.
Definition counted (rs : list cres) : list mres := flat_map (fun r => if is_empty (k_setup r) then k_methods r else []) rs.
Definition bad_case (r : cres) : bool := negb (is_empty (k_setup r)) || negb (is_empty (k_teardown r)).
Lemma num_app {A} (p : A -> bool) l l' : num p (l ++ l') = num p l + num p l'.
Proof. rewrite filter_app, app_length. lia. Qed.
Lemma count_cases l : forall s, 0 <= s_ok s < 2 ^ 32 -> 0 <= s_failed s < 2 ^ 32 -> 0 <= s_cases_failed s < 2 ^ 32 -> let s' := fold_left count_case l s in
  s_ok s' = (s_ok s + num good (counted l)) mod 2 ^ 32 /\ s_failed s' = (s_failed s + num bad (counted l)) mod 2 ^ 32 /\ s_cases_failed s' = (s_cases_failed s + num bad_case l) mod 2 ^ 32.
Proof.
  assert (P : 0 < 2 ^ 32) by reflexivity. assert (M : forall z, 0 <= z mod 2 ^ 32 < 2 ^ 32) by (intros z; apply Z.mod_pos_bound; exact P).
  induction l as [|r l IH]; intros s A B C.
  - cbn [fold_left counted flat_map filter List.length]. rewrite !Z.add_0_r, !Z.mod_small by assumption. auto.
  - cbn [fold_left counted flat_map filter]. fold (counted l). rewrite !num_app. unfold count_case at 2 4 6, bad_case at 1. destruct (is_empty (k_setup r)); cbn [negb orb].
    + match goal with |- context [fold_left count_method (k_methods r) ?s0] => destruct (count_methods (k_methods r) s0) as (E1 & E2 & E3); [destruct (is_empty (k_teardown r)); cbn; assumption..|]; destruct (IH (fold_left count_method (k_methods r) s0)) as (F1 & F2 & F3); [rewrite E1; apply M|rewrite E2; apply M|rewrite E3; destruct (is_empty (k_teardown r)); cbn; [assumption|apply M]|] end.
      rewrite F1, F2, F3, E1, E2, E3. rewrite !Zplus_mod_idemp_l. destruct (is_empty (k_teardown r)); cbn [negb s_ok s_failed s_cases_failed List.length]; (split; [f_equal; lia|split; [f_equal; lia|]]); [reflexivity|]. unfold u32_inc. rewrite Zplus_mod_idemp_l. f_equal. lia.
    + match goal with |- context [fold_left count_case l ?s0] => destruct (IH s0) as (F1 & F2 & F3); [cbn; assumption..|cbn; apply M|] end. rewrite F1, F2, F3. cbn [s_ok s_failed s_cases_failed List.length filter]. unfold u32_inc. rewrite Zplus_mod_idemp_l. repeat split; f_equal; lia.
Qed.
Lemma filter_none {A} (p : A -> bool) l : num p l = 0 <-> forall x, In x l -> p x = false.
Proof.
  induction l as [|a l IH]; cbn; [split; [intros _ x []|reflexivity]|]. destruct (p a) eqn:E; cbn [List.length].
  - split; [lia|]. intros H. rewrite (H a) in E by now left. discriminate.
  - rewrite IH. split; [intros H x [<-|I]; auto|intros H x I; apply H; now right].
Qed.
Lemma filter_some {A} (p : A -> bool) l : num p l <> 0 <-> exists x, In x l /\ p x = true.
Proof.
  rewrite filter_none. split.
  - intros H. induction l as [|a l IH]; [exfalso; apply H; intros x []|]. destruct (p a) eqn:E; [exists a; split; [now left|exact E]|]. destruct IH as (x & I & X); [intros Y; apply H; intros x [<-|I]; auto|]. exists x. split; [now right|exact X].
  - intros (x & I & X) H. rewrite (H x I) in X. discriminate.
Qed.
Lemma num_le {A} (p : A -> bool) l : 0 <= num p l <= Z.of_nat (List.length l).
Proof. induction l as [|a l IH]; cbn; [lia|]. destruct (p a); cbn [List.length]; lia. Qed.
Lemma success_spec rs : Z.of_nat (List.length (counted rs)) < 2 ^ 32 -> Z.of_nat (List.length rs) < 2 ^ 32 ->
  success (count_all rs) = true <-> (exists r, In r (counted rs) /\ good r = true) /\ (forall r, In r (counted rs) -> bad r = false) /\ (forall r, In r rs -> bad_case r = false).
Proof.
  intros A B. unfold success, count_all. destruct (count_cases rs (mk_stats 0 0 0 0 0)) as (E1 & E2 & E3); [cbn; lia..|]. cbn [s_ok s_failed s_cases_failed] in E1, E2, E3. rewrite E1, E2, E3, !Z.add_0_l.
  pose proof (num_le good (counted rs)). pose proof (num_le bad (counted rs)). pose proof (num_le bad_case rs). rewrite !Z.mod_small by lia.
  rewrite <- filter_some, <- !filter_none. lia.
Qed.

(** ** Facts about the model *)
Section Run.
Variable fnmatch : str -> str -> Z.
Variables allow block : str.
Notation should_run := (should_run fnmatch allow block).
Notation run_test := (run_test fnmatch allow block).
Notation run_methods := (run_methods fnmatch allow block).
Notation run_case := (run_case fnmatch allow block).
Notation run_all := (run_all fnmatch allow block).
Notation case_should_run := (case_should_run fnmatch allow block).
Lemma should_run_picked c m : should_run (full_name (c_name c) (t_name m)) = true <-> picked fnmatch allow block c m.
Proof.
  unfold TestRunModel.should_run, picked, full_name. change (codes ".") with [46]. set (n := c_name c ++ [46] ++ t_name m).
  destruct allow as [|a0 al], block as [|b0 bl]; cbn [is_empty negb andb]; repeat (match goal with |- context [(?x =? 1)] => destruct (Z.eqb_spec x 1) end; cbn [negb]); split; intros H; try discriminate; try reflexivity; try tauto;
    try (split; [tauto||(right; assumption)|tauto||(right; assumption)]); exfalso; destruct H as [[?|?] [?|?]]; try discriminate; contradiction.
Qed.
Lemma case_should_run_started c : case_should_run c = true <-> started fnmatch allow block c.
Proof. unfold TestRunModel.case_should_run, started. rewrite existsb_exists. split; intros (m & I & H); exists m; (split; [exact I|]); now apply should_run_picked. Qed.

(** The result of a test, when its hooks are usual. *)
Definition mr (c : str) (m : method) : mres := match snd (run_test c m) with Ok r => r | _ => new_mres [] end.
Lemma run_test_ok c m : usual (t_setup m) -> usual (t_teardown m) -> snd (run_test c m) = Ok (mr c m).
Proof.
  unfold mr, usual. intros S T. unfold TestRunModel.run_test. destruct (negb _); [reflexivity|]. destruct (t_body m) as [b|]; [|reflexivity].
  destruct (t_setup m) as [[w|s st|ty s|]|]; try reflexivity; try (now destruct S); destruct (t_teardown m) as [[]|]; try reflexivity; now destruct T.
Qed.
Lemma run_methods_ok c l : Forall (fun m => usual (t_setup m) /\ usual (t_teardown m)) l -> run_methods c l = (flat_map (fun m => fst (run_test c m)) l, Ok (map (mr c) l)).
Proof.
  induction 1 as [|m l [S T] _ IH]; [reflexivity|]. cbn [TestRunModel.run_methods flat_map map]. rewrite IH. pose proof (run_test_ok c m S T) as R. destruct (run_test c m) as [ev x]. cbn [fst snd] in *. subst x. reflexivity.
Qed.
Definition cr (c : tcase) : cres := match snd (run_case c) with Ok r => r | _ => mk_cres [] [] [] [] false end.
Lemma run_case_ok c : usual_hooks c -> snd (run_case c) = Ok (cr c).
Proof.
  unfold cr. intros (S & T & F). unfold TestRunModel.run_case. destruct (negb _); [reflexivity|]. rewrite (run_methods_ok _ _ F). unfold skip_methods, finish, usual in *.
  destruct (c_setup c) as [[w|s st|ty s|]|]; try reflexivity; try (now destruct S); destruct (c_teardown c) as [[]|]; try reflexivity; now destruct T.
Qed.
Lemma run_all_ok l : Forall usual_hooks l -> run_all l = (flat_map (fun c => fst (run_case c)) l, Ok (map cr l)).
Proof.
  induction 1 as [|c l H _ IH]; [reflexivity|]. cbn [TestRunModel.run_all flat_map map]. rewrite IH. pose proof (run_case_ok c H) as R. destruct (run_case c) as [ev x]. cbn [fst snd] in *. subst x. reflexivity.
Qed.
(** What the result of a test says. *)
Lemma app_not_nil (a : Z) l l' : ((a :: l) ++ l') <> [].
Proof. discriminate. Qed.
Lemma mr_cases c m : usual (t_setup m) -> usual (t_teardown m) -> should_run (full_name c (t_name m)) = true ->
  let r := mr c m in
  (passes m -> r_skipped r = false /\ r_error r = []) /\
  (goes_wrong m -> (forall why, t_body m <> Some (Some (XSkip why))) \/ t_teardown m = None \/ t_setup m <> None -> r_skipped r = false /\ r_error r <> []) /\
  (~ passes m -> ~ goes_wrong m -> r_skipped r = true).
Proof.
  intros S T R. unfold mr, TestRunModel.run_test. rewrite R. cbn [negb]. unfold passes, goes_wrong, usual in *.
  assert (SK : forall w, skips (XSkip w)) by (intros w; now exists w). assert (NS : forall e, ~ skips e \/ exists w, e = XSkip w) by (intros e; destruct e; [right; eauto|left; intros (w & E); discriminate..]).
  destruct (t_body m) as [b|] eqn:B.
  2: { cbn. split; [intros (_ & E & _); discriminate|]. split; [intros (N & _); now destruct N|reflexivity]. }
  destruct (t_setup m) as [e|] eqn:SE.
  - destruct (NS e) as [N|(w & ->)].
    + assert (X : exists r, snd (match e with
                | XSkip why => ([Begin c (t_name m); Setup c (t_name m); End c (t_name m)], Ok (set_skipped why (new_mres (t_name m))))
                | XOther => ([Begin c (t_name m); Setup c (t_name m)], Terminate)
                | _ => match run_teardown (t_teardown m) (set_setup_exception e (new_mres (t_name m))) with
                  | Ok r' => ([Begin c (t_name m); Setup c (t_name m); Teardown c (t_name m); End c (t_name m)], Ok r')
                  | x => ([Begin c (t_name m); Setup c (t_name m); Teardown c (t_name m)], x) end end) = Ok r /\ r_skipped r = false /\ r_error r <> []).
      { destruct e as [w|s st|ty s|]; [exfalso; apply N; now exists w| | |now destruct S]; (destruct (t_teardown m) as [[]|]; try (now destruct T); cbn; eexists; (split; [reflexivity|]); split; try reflexivity; cbn; discriminate). }
      destruct X as (r & X1 & X2 & X3).
      assert (Y : match snd (match e with
                | XSkip why => ([Begin c (t_name m); Setup c (t_name m); End c (t_name m)], Ok (set_skipped why (new_mres (t_name m))))
                | XOther => ([Begin c (t_name m); Setup c (t_name m)], Terminate)
                | _ => match run_teardown (t_teardown m) (set_setup_exception e (new_mres (t_name m))) with
                  | Ok r' => ([Begin c (t_name m); Setup c (t_name m); Teardown c (t_name m); End c (t_name m)], Ok r')
                  | x => ([Begin c (t_name m); Setup c (t_name m); Teardown c (t_name m)], x) end end) with Ok r => r | _ => new_mres [] end = r) by now rewrite X1.
      clear X1. destruct e as [w|s st|ty s|]; cbn [snd] in *; try (exfalso; apply N; now exists w); rewrite Y; (split; [intros (E & _); discriminate|]); (split; [auto|]); intros _ NG; exfalso; apply NG; (split; [discriminate|]); left; eexists; (split; [reflexivity|exact N]).
    + cbn. split; [intros (E & _); discriminate|]. split; [|reflexivity]. intros (_ & [(e & E & N)|(E & _)]); [injection E as <-; exfalso; apply N; now exists w|discriminate].
  - destruct b as [e|].
    + destruct (NS e) as [N|(w & ->)].
      * assert (X : r_skipped (run_body (Some e) (new_mres (t_name m))) = false /\ r_error (run_body (Some e) (new_mres (t_name m))) <> []).
        { destruct e as [w|s st|ty s|]; [exfalso; apply N; now exists w| | |]; cbn; (split; [reflexivity|]); try destruct s; cbn; discriminate. }
        destruct X as (X1 & X2). set (r0 := run_body _ _) in *. split; [intros (_ & E & _); discriminate|]. split; [|intros _ NG; exfalso; apply NG; split; [discriminate|]; right; split; [reflexivity|]; left; exists e; split; [reflexivity|exact N]].
        intros _ _. destruct (t_teardown m) as [[]|]; try (now destruct T); cbn; auto; (split; [exact X1|discriminate]).
      * split; [intros (_ & E & _); discriminate|]. split.
        -- intros (_ & [(e & E & _)|(_ & [(e & E & N)|E])]) [H|[H|H]]; try discriminate; try (now destruct (H w)); try (now destruct H); try contradiction. injection E as <-. exfalso. apply N. now exists w.
        -- destruct (t_teardown m) as [[]|]; try (now destruct T); reflexivity.
    + destruct (t_teardown m) as [e|] eqn:TE.
      * split; [intros (_ & _ & E); discriminate|]. split; [|intros _ NG; exfalso; apply NG; split; [discriminate|]; right; split; [reflexivity|]; right; discriminate].
        intros _ _. destruct e; try (now destruct T); cbn; (split; [reflexivity|discriminate]).
      * cbn. split; [auto|]. split; [intros (_ & [(e & E & _)|(_ & [(e & E & _)|E])]); [discriminate|discriminate|now destruct E]|intros NP; exfalso; now apply NP].
Qed.

(** The result of a test case. *)
Definition td (c : tcase) : str := match c_teardown c with None => [] | Some e => teardown_text e end.
Lemma cr_cases c : usual_hooks c ->
  (~ started fnmatch allow block c /\ cr c = mk_cres (c_name c) [] [] [] true) \/
  (started fnmatch allow block c /\ c_setup c = None /\ cr c = mk_cres (c_name c) (map (mr (c_name c)) (c_methods c)) [] (td c) false) \/
  (started fnmatch allow block c /\ (exists why, c_setup c = Some (XSkip why) /\ cr c = mk_cres (c_name c) (map (fun m => set_skipped why (new_mres (t_name m))) (c_methods c)) [] (td c) false)) \/
  (started fnmatch allow block c /\ (exists e, c_setup c = Some e /\ ~ skips e /\ cr c = mk_cres (c_name c) [] (setup_text e) [] false)).
Proof.
  intros (S & T & F). unfold cr, TestRunModel.run_case. destruct (case_should_run c) eqn:R; cbn [negb].
  2: { left. split; [|reflexivity]. intros X. apply case_should_run_started in X. congruence. }
  apply case_should_run_started in R. right. rewrite (run_methods_ok _ _ F). unfold skip_methods, finish, td, usual in *.
  destruct (c_setup c) as [[w|s st|ty s|]|].
  - right. left. split; [exact R|]. exists w. split; [reflexivity|]. destruct (c_teardown c) as [[]|]; try reflexivity. now destruct T.
  - right. right. split; [exact R|]. eexists. split; [reflexivity|]. split; [intros (w & E); discriminate|reflexivity].
  - right. right. split; [exact R|]. eexists. split; [reflexivity|]. split; [intros (w & E); discriminate|reflexivity].
  - now destruct S.
  - left. split; [exact R|]. split; [reflexivity|]. destruct (c_teardown c) as [[]|]; try reflexivity. now destruct T.
Qed.
(** Tests that are skipped and then fail to clean up. *)
Definition dirty_skip (m : method) : Prop := t_setup m = None /\ (exists why, t_body m = Some (Some (XSkip why))) /\ t_teardown m <> None.
Lemma mr_not_picked c m : ~ picked fnmatch allow block c m -> r_skipped (mr (c_name c) m) = true.
Proof. intros H. unfold mr, TestRunModel.run_test. destruct (should_run (full_name (c_name c) (t_name m))) eqn:R; [exfalso; apply H; now apply should_run_picked|reflexivity]. Qed.
Lemma passes_dec m : {passes m} + {~ passes m}.
Proof. unfold passes. destruct (t_setup m), (t_body m) as [[]|], (t_teardown m); ((left; now auto) || (right; intros (?&?&?); discriminate)). Qed.
Lemma goes_wrong_dec m : {goes_wrong m} + {~ goes_wrong m}.
Proof.
  unfold goes_wrong. destruct (t_body m) as [b|]; [|right; intros (N & _); now apply N].
  assert (D : forall e, {~ skips e} + {skips e}) by (intros []; [right; eexists; reflexivity|left; intros (w & E); discriminate..]).
  destruct (t_setup m) as [e|].
  - destruct (D e) as [N|K]; [left; split; [discriminate|left; eauto]|right]. intros (_ & [(e' & E & N)|(E & _)]); [injection E as <-; contradiction|discriminate].
  - destruct (t_teardown m) as [x|]; [left; split; [discriminate|]; right; split; [reflexivity|right; discriminate]|]. destruct b as [e|].
    + destruct (D e) as [N|K]; [left; split; [discriminate|]; right; split; [reflexivity|left; eauto]|right]. intros (_ & [(e' & E & _)|(_ & [(e' & E & N)|E])]); [discriminate|injection E as <-; contradiction|now apply E].
    + right. intros (_ & [(e' & E & _)|(_ & [(e' & E & N)|E])]); [discriminate|discriminate|now apply E].
Qed.
Lemma picked_dec c m : {picked fnmatch allow block c m} + {~ picked fnmatch allow block c m}.
Proof. destruct (should_run (full_name (c_name c) (t_name m))) eqn:R; [left; now apply should_run_picked|right; intros X; apply should_run_picked in X; congruence]. Qed.
Lemma m_success_nil r : m_success r = true <-> r_error r = [].
Proof. unfold m_success. destruct (r_error r); cbn; split; congruence. Qed.
Lemma good_mr c m : usual (t_setup m) -> usual (t_teardown m) -> ~ (picked fnmatch allow block c m /\ dirty_skip m) ->
  (good (mr (c_name c) m) = true <-> picked fnmatch allow block c m /\ passes m) /\ (bad (mr (c_name c) m) = true <-> picked fnmatch allow block c m /\ goes_wrong m).
Proof.
  intros S T D. unfold good, bad. destruct (picked_dec c m) as [P|P].
  2: { rewrite (mr_not_picked _ _ P). cbn. split; split; try discriminate; tauto. }
  destruct (mr_cases (c_name c) m S T) as (A & B & C); [now apply should_run_picked|].
  assert (X : passes m -> goes_wrong m -> False). { intros (S1 & B1 & T1) (_ & [(e & E & _)|(_ & [(e & E & _)|E])]); congruence. }
  destruct (passes_dec m) as [Y|Y].
  - destruct (A Y) as (-> & E). apply m_success_nil in E. rewrite E. cbn. split; split; try tauto; discriminate.
  - destruct (goes_wrong_dec m) as [G|G].
    + destruct B as (-> & E); [exact G| |]. { destruct (t_teardown m) as [x|] eqn:TE; [|auto]. destruct (t_setup m) as [x'|] eqn:SE; [right; right; discriminate|]. left. intros why BE. apply D. split; [exact P|]. split; [exact SE|]. split; [eauto|rewrite TE; discriminate]. }
      assert (E' : m_success (mr (c_name c) m) = false) by (destruct (m_success _) eqn:M; [apply m_success_nil in M; contradiction|reflexivity]). rewrite E'. cbn. split; split; try tauto; try discriminate.
    + rewrite (C Y G). cbn. split; split; try discriminate; tauto.
Qed.
Lemma bad_mr c m : usual (t_setup m) -> usual (t_teardown m) -> ~ (picked fnmatch allow block c m /\ dirty_skip m) -> ~ (picked fnmatch allow block c m /\ goes_wrong m) -> bad (mr (c_name c) m) = false.
Proof. intros S T D N. destruct (bad _) eqn:E; [exfalso; apply N, good_mr; assumption|reflexivity]. Qed.
Lemma counted_le l : Forall usual_hooks l -> (List.length (counted (map cr l)) <= List.length (flat_map c_methods l))%nat.
Proof.
  induction 1 as [|c l H _ IH]; [reflexivity|]. cbn [map counted flat_map]. fold (counted (map cr l)). rewrite !app_length.
  assert (List.length (if is_empty (k_setup (cr c)) then k_methods (cr c) else []) <= List.length (c_methods c))%nat; [|lia].
  destruct (cr_cases c H) as [(_ & ->)|[(_ & _ & ->)|[(_ & w & _ & ->)|(_ & e & _ & _ & ->)]]]; cbn; rewrite ?map_length; lia.
Qed.
Lemma in_counted l r : Forall usual_hooks l -> In r (counted (map cr l)) -> exists c m, In c l /\ In m (c_methods c) /\ started fnmatch allow block c /\ ((c_setup c = None /\ r = mr (c_name c) m) \/ r_skipped r = true).
Proof.
  intros F I. unfold counted in I. apply in_flat_map in I as (k & K & I). apply in_map_iff in K as (c & <- & C). rewrite Forall_forall in F.
  destruct (cr_cases c (F c C)) as [(_ & E)|[(ST & SE & E)|[(ST & w & SE & E)|(ST & e & SE & N & E)]]]; rewrite E in I; cbn in I; try contradiction; apply in_map_iff in I as (m & <- & M); exists c, m; (split; [exact C|]); (split; [exact M|]); (split; [exact ST|]); [left; auto|right; reflexivity].
Qed.
Lemma exit_spec l : Forall usual_hooks l -> (forall c m, In c l -> In m (c_methods c) -> ~ (picked fnmatch allow block c m /\ dirty_skip m)) ->
  Z.of_nat (List.length (flat_map c_methods l)) < 2 ^ 32 -> Z.of_nat (List.length l) < 2 ^ 32 ->
  success (count_all (map cr l)) = true <->
  (exists c m, In c l /\ In m (c_methods c) /\ c_setup c = None /\ picked fnmatch allow block c m /\ passes m) /\
  (forall c, In c l -> started fnmatch allow block c -> (forall e, c_setup c = Some e -> skips e) /\ c_teardown c = None /\ (c_setup c = None -> forall m, In m (c_methods c) -> picked fnmatch allow block c m -> ~ goes_wrong m)).
Proof.
  intros F D N1 N2. pose proof (counted_le l F) as CL. rewrite success_spec by (rewrite ?map_length; lia). pose proof F as F'. rewrite Forall_forall in F'.
  assert (UM : forall c m, In c l -> In m (c_methods c) -> usual (t_setup m) /\ usual (t_teardown m)). { intros c m C M. destruct (F' c C) as (_ & _ & X). rewrite Forall_forall in X. now apply X. }
  split.
  - intros ((r & R & G) & BD & BC). split.
    + destruct (in_counted l r F R) as (c & m & C & M & ST & [(SE & ->)|K]); [|unfold good in G; rewrite K in G; discriminate]. destruct (UM c m C M) as (U1 & U2). apply good_mr in G; auto. exists c, m. tauto.
    + intros c C ST. specialize (BC (cr c) (in_map cr l c C)). unfold bad_case in BC.
      destruct (cr_cases c (F' c C)) as [(NS & _)|[(_ & SE & E)|[(_ & w & SE & E)|(_ & e & SE & NK & E)]]]; [contradiction|..]; rewrite E in BC; cbn in BC.
      * assert (TD : c_teardown c = None) by (unfold td in BC; destruct (c_teardown c); [discriminate|reflexivity]). split; [intros e X; congruence|]. split; [exact TD|]. intros _ m M P W. destruct (UM c m C M) as (U1 & U2).
        assert (X : bad (mr (c_name c) m) = true) by (apply good_mr; auto). rewrite BD in X; [discriminate|]. unfold counted. apply in_flat_map. exists (cr c). split; [now apply in_map|]. rewrite E. cbn. now apply in_map.
      * assert (TD : c_teardown c = None) by (unfold td in BC; destruct (c_teardown c); [discriminate|reflexivity]). split; [intros e X; rewrite SE in X; injection X as <-; now exists w|]. split; [exact TD|]. congruence.
      * discriminate.
  - intros ((c & m & C & M & SE & P & PS) & ALL). split; [|split].
    + exists (mr (c_name c) m). destruct (UM c m C M) as (U1 & U2). split; [|apply good_mr; auto]. unfold counted. apply in_flat_map. exists (cr c). split; [now apply in_map|].
      destruct (cr_cases c (F' c C)) as [(NS & _)|[(_ & _ & E)|[(_ & w & SE' & E)|(_ & e & SE' & NK & E)]]]; [|rewrite E; cbn; now apply in_map|congruence..]. exfalso. apply NS. now exists m.
    + intros r R. destruct (in_counted l r F R) as (c' & m' & C' & M' & ST & [(SE' & ->)|K]); [|unfold bad; now rewrite K]. destruct (UM c' m' C' M') as (U1 & U2). apply bad_mr; auto. intros (P' & G'). now apply (proj2 (proj2 (ALL c' C' ST)) SE' m').
    + intros r R. apply in_map_iff in R as (c' & <- & C'). unfold bad_case. destruct (cr_cases c' (F' c' C')) as [(NS & ->)|[(ST & SE' & ->)|[(ST & w & SE' & ->)|(ST & e & SE' & NK & _)]]]; cbn; try reflexivity.
      * destruct (ALL c' C' ST) as (_ & TD & _). unfold td. now rewrite TD.
      * destruct (ALL c' C' ST) as (_ & TD & _). unfold td. now rewrite TD.
      * destruct (ALL c' C' ST) as (X & _ & _). now destruct NK; apply X.
Qed.
End Run.

(** ** C187 *)
(** The patterns in force: the new names of the variables come first. *)
Definition only (env : str -> option str) : str := match env (codes "TEST_ONLY"), env (codes "TEST_WHITELIST") with Some v, _ => v | None, Some v => v | None, None => [] end.
Definition except (env : str -> option str) : str := match env (codes "TEST_EXCEPT"), env (codes "TEST_BLACKLIST") with Some v, _ => v | None, Some v => v | None, None => [] end.
Lemma main_ok fnmatch env l : Forall usual_hooks l -> let rs := map (cr fnmatch (only env) (except env)) l in test_main fnmatch env l = Ok (if success (count_all rs) then 0 else 1, print_results rs).
Proof.
  intros F. unfold test_main. assert (O : pattern env "TEST_WHITELIST" "TEST_ONLY" = only env) by (unfold pattern, only; destruct (env _); reflexivity). assert (X : pattern env "TEST_BLACKLIST" "TEST_EXCEPT" = except env) by (unfold pattern, except; destruct (env _); reflexivity).
  rewrite O, X, (run_all_ok _ _ _ _ F). reflexivity.
Qed.
(** The program succeeds when some picked test passes and nothing goes wrong in the test
    cases that have a picked test. *)
Theorem C187_exit_partial fnmatch env l : let P := picked fnmatch (only env) (except env) in let S := started fnmatch (only env) (except env) in
  Forall usual_hooks l -> (forall c m, In c l -> In m (c_methods c) -> P c m -> t_setup m = None -> t_teardown m <> None -> forall why, t_body m <> Some (Some (XSkip why))) ->
  Z.of_nat (List.length (flat_map c_methods l)) < 2 ^ 32 -> Z.of_nat (List.length l) < 2 ^ 32 ->
  exists code said, test_main fnmatch env l = Ok (code, said) /\ (code = 0 \/ code = 1) /\
  (code = 0 <->
   (exists c m, In c l /\ In m (c_methods c) /\ c_setup c = None /\ P c m /\ passes m) /\
   (forall c, In c l -> S c -> (forall e, c_setup c = Some e -> skips e) /\ c_teardown c = None /\ (c_setup c = None -> forall m, In m (c_methods c) -> P c m -> ~ goes_wrong m))).
Proof.
  intros P S F D N1 N2. subst P S. eexists _, _. split; [exact (main_ok fnmatch env l F)|]. rewrite <- (exit_spec fnmatch (only env) (except env) l F); [|intros c m C M (P' & S' & (w & B) & T); now apply (D c m C M P' S' T w)|exact N1|exact N2].
  destruct (success _); split; [now left| |now right|]; split; intros; try reflexivity; discriminate.
Qed.
Print Assumptions C187_exit_partial.

Lemma success_same rs rs' : num good (counted rs) = num good (counted rs') -> num bad (counted rs) = num bad (counted rs') -> num bad_case rs = num bad_case rs' -> success (count_all rs) = success (count_all rs').
Proof.
  intros E1 E2 E3. unfold success, count_all. destruct (count_cases rs (mk_stats 0 0 0 0 0)) as (A1 & A2 & A3); [cbn; lia..|]. destruct (count_cases rs' (mk_stats 0 0 0 0 0)) as (B1 & B2 & B3); [cbn; lia..|]. cbn [s_ok s_failed s_cases_failed] in *. rewrite A1, A2, A3, B1, B2, B3, E1, E2, E3. reflexivity.
Qed.
Definition with_methods (c : tcase) (ms : list method) : tcase := mk_tcase (c_name c) (c_setup c) ms (c_teardown c).
(** A test that is skipped, added to a test case that is run, changes neither the exit status
    nor the report. *)
Definition skipped_test (m : method) : Prop := (exists why, t_body m <> None /\ t_setup m = Some (XSkip why)) \/ (t_setup m = None /\ exists why, t_body m = Some (Some (XSkip why))).
Lemma add_skipped fnmatch env l1 c l2 ms1 ms2 m : Forall usual_hooks (l1 ++ c :: l2) -> started fnmatch (only env) (except env) c -> c_methods c = ms1 ++ ms2 ->
  skipped_test m -> usual (t_teardown m) ->
  test_main fnmatch env (l1 ++ with_methods c (ms1 ++ m :: ms2) :: l2) = test_main fnmatch env (l1 ++ c :: l2).
Proof.
  intros F ST ME SM NO. set (c' := with_methods c (ms1 ++ m :: ms2)). apply Forall_app in F as (F1 & F2). inversion F2 as [|c0 l0 H F3]; subst c0 l0.
  assert (H' : usual_hooks c'). { destruct H as (U1 & U2 & U3). split; [exact U1|]. split; [exact U2|]. cbn [c' with_methods c_methods]. rewrite ME in U3. apply Forall_app in U3 as (X & Y). apply Forall_app. split; [exact X|]. constructor; [|exact Y]. split; [unfold usual; destruct SM as [(w & _ & ->)|(-> & _)]; discriminate|exact NO]. }
  assert (ST' : started fnmatch (only env) (except env) c'). { destruct ST as (x & I & P). exists x. split; [|exact P]. cbn [c' with_methods c_methods]. rewrite ME in I. apply in_app_or in I as [I|I]; apply in_or_app; [now left|right; now right]. }
  rewrite (main_ok fnmatch env (l1 ++ c :: l2)) by (apply Forall_app; auto). rewrite (main_ok fnmatch env (l1 ++ c' :: l2)) by (apply Forall_app; auto). rewrite !map_app. cbn [map].
  set (A := only env). set (B := except env). fold A B in ST, ST'. set (f := cr fnmatch A B).
  assert (SK : r_skipped (mr fnmatch A B (c_name c) m) = true). { unfold mr, run_test. destruct (negb _); [reflexivity|]. destruct SM as [(w & BE & SE)|(SE & w & BE)]; [destruct (t_body m) as [b|]; [rewrite SE; reflexivity|now destruct BE]|]. rewrite BE, SE. unfold usual in NO. destruct (t_teardown m) as [[]|]; try (now destruct NO); reflexivity. }
  assert (X : k_name (f c') = k_name (f c) /\ k_setup (f c') = k_setup (f c) /\ k_teardown (f c') = k_teardown (f c) /\ exists a b r, k_methods (f c') = a ++ r ++ b /\ k_methods (f c) = a ++ b /\ (r = [] \/ exists t, r = [t] /\ r_skipped t = true)).
  { destruct (cr_cases fnmatch A B c' H') as [(N & _)|[(_ & S1 & E1)|[(_ & w & S1 & E1)|(_ & x & S1 & K1 & E1)]]]; [contradiction|..]; (destruct (cr_cases fnmatch A B c H) as [(N & _)|[(_ & S2 & E2)|[(_ & w2 & S2 & E2)|(_ & x2 & S2 & K2 & E2)]]]; [contradiction|..]); change (c_setup c') with (c_setup c) in S1; try congruence;
      try (exfalso; rewrite S1 in S2; injection S2 as ->; apply K1; now exists w2); try (rewrite S1 in S2; injection S2 as <-); try (exfalso; apply K1; now exists w2); try (exfalso; apply K2; now exists w); unfold f; rewrite E1, E2; cbn [k_name k_setup k_teardown k_methods]; (repeat (split; [reflexivity|])); cbn [c' with_methods c_methods c_name].
    - rewrite ME, !map_app. cbn [map]. exists (map (mr fnmatch A B (c_name c)) ms1), (map (mr fnmatch A B (c_name c)) ms2), [mr fnmatch A B (c_name c) m]. split; [reflexivity|]. split; [reflexivity|]. right. eauto.
    - rewrite ME, !map_app. cbn [map]. exists (map (fun m => set_skipped w (new_mres (t_name m))) ms1), (map (fun m => set_skipped w (new_mres (t_name m))) ms2), [set_skipped w (new_mres (t_name m))]. split; [reflexivity|]. split; [reflexivity|]. right. eauto.
    - exists [], [], []. auto. }
  destruct X as (X1 & X2 & X3 & a & b & r & X4 & X5 & X6).
  assert (R0 : filter good r = [] /\ filter bad r = [] /\ forall n, flat_map (fun t => if r_skipped t || m_success t then [] else [OfTest n (r_name t) (r_type t) (r_error t) (r_stack t)]) r = []). { destruct X6 as [->|(t & -> & T)]; [auto|]. cbn. unfold good, bad. rewrite T. auto. }
  destruct R0 as (R1 & R2 & R3).
  assert (CO : forall p, filter p r = [] -> num p (counted (map f l1 ++ f c' :: map f l2)) = num p (counted (map f l1 ++ f c :: map f l2))).
  { intros p Z0. unfold counted. rewrite !flat_map_app. cbn [flat_map]. rewrite X2. rewrite !num_app. destruct (is_empty (k_setup (f c))); [|reflexivity]. rewrite X4, X5, !num_app, Z0. cbn [List.length]. lia. }
  f_equal. f_equal.
  - rewrite (success_same (map f l1 ++ f c' :: map f l2) (map f l1 ++ f c :: map f l2)); [reflexivity|now apply CO|now apply CO|]. rewrite !num_app. cbn [filter]. assert (BC : bad_case (f c') = bad_case (f c)) by (unfold bad_case; now rewrite X2, X3). rewrite BC. destruct (bad_case (f c)); reflexivity.
  - unfold print_results. rewrite !flat_map_app. cbn [flat_map]. f_equal. f_equal. unfold report_case. rewrite X1, X2, X3, X4, X5, !flat_map_app, R3. reflexivity.
Qed.
(** So a test that asks to be skipped and whose cleaning up fails is not noticed. *)
Theorem C187_refuted_skipped fnmatch env l1 c l2 ms1 ms2 m why e : Forall usual_hooks (l1 ++ c :: l2) -> started fnmatch (only env) (except env) c -> c_methods c = ms1 ++ ms2 ->
  t_setup m = None -> t_body m = Some (Some (XSkip why)) -> t_teardown m = Some e -> e <> XOther ->
  test_main fnmatch env (l1 ++ with_methods c (ms1 ++ m :: ms2) :: l2) = test_main fnmatch env (l1 ++ c :: l2).
Proof. intros F ST ME SE BE TE NO. apply add_skipped; try assumption; [right; eauto|]. unfold usual. rewrite TE. congruence. Qed.
Print Assumptions C187_refuted_skipped.
(** A test case whose setup throws something that is not a std::exception ends the whole
    program, without any report. *)
Theorem C187_refuted_unknown fnmatch env l1 c l2 : Forall usual_hooks l1 -> started fnmatch (only env) (except env) c -> c_setup c = Some XOther -> test_main fnmatch env (l1 ++ c :: l2) = Terminate.
Proof.
  intros F ST SE. unfold test_main. assert (O : pattern env "TEST_WHITELIST" "TEST_ONLY" = only env) by (unfold pattern, only; destruct (env _); reflexivity). assert (X : pattern env "TEST_BLACKLIST" "TEST_EXCEPT" = except env) by (unfold pattern, except; destruct (env _); reflexivity).
  rewrite O, X. set (A := only env) in *. set (B := except env) in *.
  assert (R : snd (run_all fnmatch A B (l1 ++ c :: l2)) = Terminate).
  { induction F as [|c1 l H _ IH]; cbn [app run_all].
    - unfold run_case. apply case_should_run_started in ST. rewrite ST, SE. reflexivity.
    - pose proof (run_case_ok fnmatch A B c1 H) as R. destruct (run_case fnmatch A B c1) as [ev x]. cbn [snd] in R. subst x. destruct (run_all fnmatch A B (l ++ c :: l2)) as [ev' y]. cbn [snd] in IH |- *. now rewrite IH. }
  rewrite R. reflexivity.
Qed.
Print Assumptions C187_refuted_unknown.
(** Two tests, one of which passes and one of which is not picked, in a test case. *)
Definition ok_test (n : string) : method := mk_method (codes n) None (Some None) None.
Example C187_case : let fn p n := if str_eqb p n then 0 else 1 in let env v := if str_eqb v (codes "TEST_EXCEPT") then Some (codes "c.b") else None in
  let bad := mk_method (codes "b") None (Some (Some (XFail (codes "no") []))) None in let c := mk_tcase (codes "c") None [ok_test "a"; bad] None in
  Forall usual_hooks [c] /\ started fn (only env) (except env) c /\ test_main fn env [c] = Ok (0, []) /\ test_main fn (fun _ => None) [c] = Ok (1, [OfTest (codes "c") (codes "b") [] (codes "no") []]) /\
  test_main fn env [mk_tcase (codes "c") (Some XOther) [ok_test "a"] None] = Terminate.
Proof.
  cbv zeta. split; [|split; [|split; [|split]]].
  - constructor; [|constructor]. split; [discriminate|]. split; [discriminate|]. repeat constructor; cbn; discriminate.
  - exists (ok_test "a"). split; [now left|]. split; [now left|]. right. reflexivity.
  - reflexivity.
  - reflexivity.
  - reflexivity.
Qed.

(** ** C188 *)
(** The events form nested pairs: a checker that keeps the test case and the test that are
    open. *)
Definition pair_eqb (a b : str * str) : bool := str_eqb (fst a) (fst b) && str_eqb (snd a) (snd b).
Definition is_open (o : option str) (c : str) : bool := match o with Some x => str_eqb x c | None => false end.
Definition is_open2 (o : option (str * str)) (c m : str) : bool := match o with Some x => pair_eqb x (c, m) | None => false end.
Definition none {A} (o : option A) : bool := match o with None => true | Some _ => false end.
Fixpoint nested (oc : option str) (om : option (str * str)) (l : list event) : bool :=
  match l with
  | [] => none oc && none om
  | CaseBegin c :: l => none oc && none om && nested (Some c) None l
  | CaseEnd c :: l => is_open oc c && none om && nested None None l
  | CaseSetup c :: l | CaseTeardown c :: l => is_open oc c && none om && nested oc om l
  | Begin c m :: l => is_open oc c && none om && nested oc (Some (c, m)) l
  | End c m :: l => is_open2 om c m && nested oc None l
  | Setup c m :: l | Body c m :: l | Teardown c m :: l => is_open2 om c m && nested oc om l
  end.
(** The tests whose function is called, in order. *)
Definition called (l : list event) : list (str * str) := flat_map (fun e => match e with Body c m => [(c, m)] | _ => [] end) l.
(** Those that should be. *)
Definition is_none {A} (o : option A) : bool := match o with None => true | Some _ => false end.
Definition to_call (P : tcase -> method -> bool) (l : list tcase) : list (str * str) :=
  flat_map (fun c => if is_none (c_setup c) then map (fun m => (c_name c, t_name m)) (filter (fun m => P c m && negb (is_none (t_body m)) && is_none (t_setup m)) (c_methods c)) else []) l.
Definition pickedb (fnmatch : str -> str -> Z) (allow block : str) (c : tcase) (m : method) : bool :=
  let name := c_name c ++ codes "." ++ t_name m in (is_empty allow || negb (fnmatch allow name =? 1)) && (is_empty block || (fnmatch block name =? 1)).
Lemma pickedb_should fnmatch allow block c m : pickedb fnmatch allow block c m = should_run fnmatch allow block (full_name (c_name c) (t_name m)).
Proof. unfold pickedb, should_run, full_name. change (codes ".") with [46]. destruct (is_empty allow), (is_empty block), (_ =? 1), (_ =? 1); reflexivity. Qed.
Lemma str_eqb_refl s : str_eqb s s = true.
Proof. destruct (str_eqb_spec s s); congruence. Qed.
Lemma open2_refl c m : is_open2 (Some (c, m)) c m = true.
Proof. unfold is_open2, pair_eqb. cbn. now rewrite !str_eqb_refl. Qed.
Ltac shut := repeat (cbn [fst app nested none andb is_open]; rewrite ?str_eqb_refl, ?open2_refl).
Section Trace.
Variable fnmatch : str -> str -> Z.
Variables allow block : str.
Lemma nested_test c m l : usual (t_setup m) -> usual (t_teardown m) -> nested (Some c) None (fst (run_test fnmatch allow block c m) ++ l) = nested (Some c) None l.
Proof.
  intros S T. unfold run_test. destruct (negb _); [shut; reflexivity|]. destruct (t_body m) as [b|]; [|shut; reflexivity]. unfold usual in *.
  destruct (t_setup m) as [[]|]; try (now destruct S); try (shut; reflexivity); (destruct (t_teardown m) as [[]|]; try (now destruct T); cbn [run_teardown fst]; shut; reflexivity).
Qed.
Lemma nested_tests c ms l : Forall (fun m => usual (t_setup m) /\ usual (t_teardown m)) ms -> nested (Some c) None (flat_map (fun m => fst (run_test fnmatch allow block c m)) ms ++ l) = nested (Some c) None l.
Proof. induction 1 as [|m ms [S T] _ IH]; [reflexivity|]. cbn [flat_map]. rewrite <- app_assoc, nested_test by assumption. exact IH. Qed.
Lemma nested_skips c ms l : nested (Some c) None (flat_map (fun m => [Begin c (t_name m); End c (t_name m)]) ms ++ l) = nested (Some c) None l.
Proof. induction ms as [|m ms IH]; [reflexivity|]. cbn [flat_map]. rewrite <- app_assoc. shut. exact IH. Qed.
Lemma case_trace c : usual_hooks c -> let n := c_name c in
  fst (run_case fnmatch allow block c) = [CaseBegin n; CaseEnd n] /\ ~ started fnmatch allow block c \/
  fst (run_case fnmatch allow block c) = [CaseBegin n; CaseSetup n] ++ flat_map (fun m => fst (run_test fnmatch allow block n m)) (c_methods c) ++ [CaseTeardown n; CaseEnd n] /\ c_setup c = None \/
  fst (run_case fnmatch allow block c) = [CaseBegin n; CaseSetup n] ++ flat_map (fun m => [Begin n (t_name m); End n (t_name m)]) (c_methods c) ++ [CaseTeardown n; CaseEnd n] /\ c_setup c <> None \/
  fst (run_case fnmatch allow block c) = [CaseBegin n; CaseSetup n; CaseEnd n] /\ c_setup c <> None.
Proof.
  intros (S & T & F) n. unfold run_case. destruct (case_should_run fnmatch allow block c) eqn:R; cbn [negb].
  2: { left. split; [reflexivity|]. intros X. apply case_should_run_started in X. congruence. }
  right. rewrite (run_methods_ok fnmatch allow block _ _ F). unfold skip_methods, finish, usual in *. fold n.
  destruct (c_setup c) as [[w|s st|ty s|]|]; try (now destruct S).
  - right. left. split; [|discriminate]. destruct (c_teardown c) as [[]|]; try (now destruct T); cbn [fst]; now rewrite <- app_assoc.
  - right. right. split; [reflexivity|discriminate].
  - right. right. split; [reflexivity|discriminate].
  - left. split; [|reflexivity]. destruct (c_teardown c) as [[]|]; try (now destruct T); cbn [fst]; now rewrite <- app_assoc.
Qed.
Lemma nested_case c l : usual_hooks c -> nested None None (fst (run_case fnmatch allow block c) ++ l) = nested None None l.
Proof.
  intros H. pose proof H as (_ & _ & F). destruct (case_trace c H) as [(-> & _)|[(-> & _)|[(-> & _)|(-> & _)]]]; rewrite <- ?app_assoc; shut; rewrite <- ?app_assoc; rewrite ?nested_tests, ?nested_skips by exact F; shut; reflexivity.
Qed.
Lemma called_app a b : called (a ++ b) = called a ++ called b.
Proof. apply flat_map_app. Qed.
Lemma called_test c m : called (fst (run_test fnmatch allow block c m)) = if should_run fnmatch allow block (full_name c (t_name m)) && negb (is_none (t_body m)) && is_none (t_setup m) then [(c, t_name m)] else [].
Proof.
  unfold run_test. destruct (should_run _ _ _ _); [|reflexivity]. cbn [negb andb]. destruct (t_body m) as [b|]; [|reflexivity]. cbn [is_none negb andb].
  destruct (t_setup m) as [[]|]; try reflexivity; cbn [is_none]; (destruct (run_teardown _ _); reflexivity).
Qed.
Lemma called_tests c ms : called (flat_map (fun m => fst (run_test fnmatch allow block c m)) ms) = map (fun m => (c, t_name m)) (filter (fun m => should_run fnmatch allow block (full_name c (t_name m)) && negb (is_none (t_body m)) && is_none (t_setup m)) ms).
Proof. induction ms as [|m ms IH]; [reflexivity|]. cbn [flat_map filter]. rewrite called_app, called_test, IH. destruct (_ && _)%bool; reflexivity. Qed.
Lemma called_case c : usual_hooks c -> called (fst (run_case fnmatch allow block c)) = to_call (pickedb fnmatch allow block) [c].
Proof.
  intros H. unfold to_call. cbn [flat_map]. rewrite app_nil_r. destruct (case_trace c H) as [(-> & N)|[(-> & S)|[(-> & S)|(-> & S)]]].
  - destruct (is_none _); [|reflexivity]. cbn. replace (filter _ (c_methods c)) with (@nil method); [reflexivity|]. symmetry. assert (X : forall m, In m (c_methods c) -> pickedb fnmatch allow block c m = false). { intros m M. rewrite pickedb_should. destruct (should_run _ _ _ _) eqn:R; [|reflexivity]. exfalso. apply N. exists m. split; [exact M|]. now apply should_run_picked. }
    clear N. induction (c_methods c) as [|m ms IH]; [reflexivity|]. cbn [filter]. rewrite (X m) by now left. cbn [andb]. apply IH. intros m' M. apply X. now right.
  - rewrite S. cbn [is_none]. rewrite !called_app, called_tests. cbn. rewrite app_nil_r. f_equal. apply filter_ext. intros m. now rewrite pickedb_should.
  - destruct (c_setup c); [|now destruct S]. rewrite !called_app. cbn. rewrite app_nil_r. induction (c_methods c) as [|m ms IH]; [reflexivity|exact IH].
  - destruct (c_setup c); [|now destruct S]. reflexivity.
Qed.
(** A call of a test is just after its setup and just before its teardown. *)
Definition framed (l : list event) : Prop := forall pre c m post, l = pre ++ Body c m :: post -> exists pre' post', pre = pre' ++ [Setup c m] /\ post = Teardown c m :: post'.
Lemma framed_app a b : framed a -> framed b -> framed (a ++ b).
Proof.
  intros A B pre c m post E. apply app_eq_app in E as (l & [(E1 & E2)|(E1 & E2)]).
  - destruct l as [|x l]; cbn in E2.
    + rewrite app_nil_r in E1. subst a. destruct (B [] c m post (eq_sym E2)) as (p' & q & X & _). now destruct p'.
    + injection E2 as <- ->. destruct (A pre c m l E1) as (p' & q & X & ->). exists p', (q ++ b). auto.
  - subst pre. destruct (B l c m post E2) as (p' & q & -> & ->). exists (a ++ p'), q. rewrite <- app_assoc. auto.
Qed.
Lemma framed_none l : called l = [] -> framed l.
Proof. intros H pre c m post ->. rewrite called_app in H. cbn in H. now destruct (called pre). Qed.
Lemma framed_test c m : framed (fst (run_test fnmatch allow block c m)).
Proof.
  assert (G : forall n r, framed ([Begin c n; Setup c n; Body c n; Teardown c n] ++ r) \/ called r <> []). { intros n r. destruct (called r) eqn:R; [left|right; discriminate]. change ([Begin c n; Setup c n; Body c n; Teardown c n] ++ r) with ([Begin c n; Setup c n; Body c n; Teardown c n] ++ r). apply framed_app; [|now apply framed_none].
    intros pre c0 m0 post E. destruct pre as [|x [|y [|z pre]]]; try discriminate; cbn in E.
    - injection E as <- <- <- <- <-. exists [Begin c n], []. auto.
    - injection E as <- <- <- E. destruct pre as [|? [|? ?]]; discriminate. }
  unfold run_test. destruct (negb _); [now apply framed_none|]. destruct (t_body m) as [b|]; [|now apply framed_none].
  destruct (t_setup m) as [[]|]; try (now apply framed_none); destruct (run_teardown _ _); try (now apply framed_none); cbn [fst]; (destruct (G (t_name m) []) as [X|X]; [|now destruct X]); rewrite ?app_nil_r in X; try exact X.
  destruct (G (t_name m) [End c (t_name m)]) as [Y|Y]; [exact Y|now destruct Y].
Qed.
Lemma framed_flat {A} (f : A -> list event) l : (forall x, In x l -> framed (f x)) -> framed (flat_map f l).
Proof. induction l as [|a l IH]; intros H; [now apply framed_none|]. cbn [flat_map]. apply framed_app; [apply H; now left|apply IH; intros; apply H; now right]. Qed.
Lemma framed_case c : usual_hooks c -> framed (fst (run_case fnmatch allow block c)).
Proof.
  intros H. destruct (case_trace c H) as [(-> & _)|[(-> & _)|[(-> & _)|(-> & _)]]]; try (now apply framed_none).
  - apply framed_app; [now apply framed_none|]. apply framed_app; [|now apply framed_none]. apply framed_flat. intros m _. apply framed_test.
  - apply framed_app; [now apply framed_none|]. apply framed_app; [|now apply framed_none]. apply framed_flat. intros m _. now apply framed_none.
Qed.
(** The tests that are picked, and only those, are called, each once, in the order in which
    they were added, between their setup and their teardown; what the controller is told
    forms nested pairs. *)
Theorem C188_calls_partial l : Forall usual_hooks l -> let ev := fst (run_all fnmatch allow block l) in
  called ev = to_call (pickedb fnmatch allow block) l /\ framed ev /\ nested None None ev = true.
Proof.
  intros F. rewrite (run_all_ok fnmatch allow block l F). cbn [fst]. split; [|split].
  - induction F as [|c l H _ IH]; [reflexivity|]. cbn [flat_map]. rewrite called_app, IH, called_case by exact H. unfold to_call. cbn [flat_map]. now rewrite app_nil_r.
  - apply framed_flat. intros c I. apply framed_case. rewrite Forall_forall in F. now apply F.
  - induction F as [|c l H _ IH]; [reflexivity|]. cbn [flat_map]. rewrite nested_case by exact H. exact IH.
Qed.
(** A setup that skips its test is not followed by the teardown, although one that fails is. *)
Theorem C188_refuted_no_teardown c m why x y : usual_hooks c -> c_setup c = None -> c_methods c = [m] -> picked fnmatch allow block c m -> t_body m = Some x -> t_setup m = Some y -> y = XSkip why ->
  let ev := fst (run_all fnmatch allow block [c]) in In (Setup (c_name c) (t_name m)) ev /\ ~ In (Teardown (c_name c) (t_name m)) ev.
Proof.
  intros H S M P B SE ->. rewrite (run_all_ok fnmatch allow block [c]) by auto. cbn [fst flat_map]. rewrite app_nil_r. apply should_run_picked in P.
  destruct (case_trace c H) as [(_ & N)|[(-> & _)|[(_ & X)|(_ & X)]]]; [|rewrite M; cbn [flat_map]; unfold run_test; rewrite P, B, SE; cbn; split; [tauto|intros I; repeat (destruct I as [I|I]; [discriminate|]); contradiction]|congruence..].
  exfalso. apply N. exists m. split; [rewrite M; now left|now apply should_run_picked].
Qed.
(** Neither is a setup of a test case that fails. *)
Theorem C188_refuted_case_setup c e : usual_hooks c -> started fnmatch allow block c -> c_setup c = Some e -> ~ skips e ->
  let ev := fst (run_all fnmatch allow block [c]) in In (CaseSetup (c_name c)) ev /\ ~ In (CaseTeardown (c_name c)) ev.
Proof.
  intros H ST S K. rewrite (run_all_ok fnmatch allow block [c]) by auto. cbn [fst flat_map]. rewrite app_nil_r. unfold run_case. apply case_should_run_started in ST. rewrite ST, S. cbn [negb].
  destruct e as [w|s st|ty s|]; [exfalso; apply K; now exists w|cbn; intuition discriminate|cbn; intuition discriminate|destruct H as (U & _); now destruct U].
Qed.
End Trace.
Print Assumptions C188_calls_partial.
Print Assumptions C188_refuted_no_teardown.
Print Assumptions C188_refuted_case_setup.
Example C188_case : let c := mk_tcase (codes "c") None [mk_method (codes "a") (Some (XSkip [])) (Some None) None; ok_test "b"] None in usual_hooks c /\
  fst (run_all (fun _ _ => 0) [] [] [c]) = [CaseBegin (codes "c"); CaseSetup (codes "c"); Begin (codes "c") (codes "a"); Setup (codes "c") (codes "a"); End (codes "c") (codes "a");
    Begin (codes "c") (codes "b"); Setup (codes "c") (codes "b"); Body (codes "c") (codes "b"); Teardown (codes "c") (codes "b"); End (codes "c") (codes "b"); CaseTeardown (codes "c"); CaseEnd (codes "c")].
Proof. split; [|reflexivity]. split; [discriminate|]. split; [discriminate|]. repeat constructor; cbn; discriminate. Qed.

(** ** C189 *)
Lemma mr_name fnmatch allow block c m : usual (t_setup m) -> usual (t_teardown m) -> r_name (mr fnmatch allow block c m) = t_name m.
Proof.
  intros S T. unfold mr, run_test. destruct (negb _); [reflexivity|]. destruct (t_body m) as [b|]; [|reflexivity]. unfold usual in *.
  assert (B : r_name (run_body b (new_mres (t_name m))) = t_name m) by (destruct b as [[]|]; reflexivity).
  destruct (t_setup m) as [[]|]; try (now destruct S); try reflexivity; destruct (t_teardown m) as [[]|]; try (now destruct T); try reflexivity; exact B.
Qed.
Lemma in_report (f : tcase -> cres) l e : In e (print_results (map f l)) <-> exists c, In c l /\ In e (report_case (f c)).
Proof. unfold print_results. rewrite in_flat_map. split; [intros (r & R & I); apply in_map_iff in R as (c & <- & C); eauto|intros (c & C & I); exists (f c); split; [now apply in_map|exact I]]. Qed.
(** A test that fails is reported with its own text, type and stack, and so is a test case
    that cannot be set up; nothing else is reported. *)
Theorem C189_report_partial fnmatch env l : let P := picked fnmatch (only env) (except env) in Forall usual_hooks l ->
  exists code rep, test_main fnmatch env l = Ok (code, rep) /\
  (forall c m s st, In c l -> In m (c_methods c) -> c_setup c = None -> P c m -> t_setup m = None -> t_teardown m = None -> t_body m = Some (Some (XFail s st)) -> s <> [] -> In (OfTest (c_name c) (t_name m) [] s st) rep) /\
  (forall c m t s, In c l -> In m (c_methods c) -> c_setup c = None -> P c m -> t_setup m = None -> t_teardown m = None -> t_body m = Some (Some (XStd t s)) -> s <> [] -> In (OfTest (c_name c) (t_name m) t s []) rep) /\
  (forall c e, In c l -> started fnmatch (only env) (except env) c -> c_setup c = Some e -> ~ skips e -> In (OfCase (c_name c) (codes "test case setup method threw an exception: " ++ what e)) rep) /\
  (forall cn mn t s st, In (OfTest cn mn t s st) rep -> s <> [] /\ exists c m, In c l /\ In m (c_methods c) /\ c_name c = cn /\ t_name m = mn /\ c_setup c = None /\ P c m /\ goes_wrong m).
Proof.
  intros P F. eexists _, _. split; [exact (main_ok fnmatch env l F)|]. set (A := only env) in *. set (B := except env) in *. subst P. pose proof F as F'. rewrite Forall_forall in F'.
  assert (IN : forall c m, In c l -> In m (c_methods c) -> c_setup c = None -> picked fnmatch A B c m -> let r := mr fnmatch A B (c_name c) m in r_skipped r = false -> r_error r <> [] -> In (OfTest (c_name c) (r_name r) (r_type r) (r_error r) (r_stack r)) (print_results (map (cr fnmatch A B) l))).
  { intros c m C M S PK r R1 R2. apply in_report. exists c. split; [exact C|]. destruct (cr_cases fnmatch A B c (F' c C)) as [(N & _)|[(_ & _ & E)|[(_ & w & X & _)|(_ & e & X & _)]]]; [exfalso; apply N; now exists m| |congruence..]. rewrite E. unfold report_case. cbn [k_setup k_teardown k_methods k_name is_empty negb]. apply in_or_app. right. apply in_flat_map. exists r. split; [now apply in_map|]. rewrite R1. cbn [orb]. replace (m_success r) with false; [now left|]. unfold m_success. destruct (r_error r); [now destruct R2|reflexivity]. }
  split; [|split; [|split]].
  - intros c m s st C M S PK SE TE BE NE. assert (R : mr fnmatch A B (c_name c) m = mk_mres (t_name m) s st [] false []). { unfold mr, run_test. apply should_run_picked in PK. rewrite PK, BE, SE, TE. cbn. unfold set_failed. destruct s; [now destruct NE|reflexivity]. }
    specialize (IN c m C M S PK). cbv zeta in IN. rewrite R in IN. apply IN; [reflexivity|exact NE].
  - intros c m t s C M S PK SE TE BE NE. assert (R : mr fnmatch A B (c_name c) m = mk_mres (t_name m) s [] t false []). { unfold mr, run_test. apply should_run_picked in PK. rewrite PK, BE, SE, TE. cbn. unfold set_exception. destruct s; [now destruct NE|reflexivity]. }
    specialize (IN c m C M S PK). cbv zeta in IN. rewrite R in IN. apply IN; [reflexivity|exact NE].
  - intros c e C ST SE NK. apply in_report. exists c. split; [exact C|]. destruct (cr_cases fnmatch A B c (F' c C)) as [(N & _)|[(_ & X & _)|[(_ & w & X & _)|(_ & e' & X & _ & E)]]]; [contradiction|congruence| |]; rewrite SE in X; injection X as X.
    + exfalso. apply NK. rewrite X. now exists w.
    + subst e'. rewrite E. now left.
  - intros cn mn t s st I. apply in_report in I as (c & C & I). destruct (cr_cases fnmatch A B c (F' c C)) as [(_ & E)|[(_ & SE & E)|[(_ & w & _ & E)|(_ & e & _ & _ & E)]]]; rewrite E in I; unfold report_case in I; cbn [k_setup k_teardown k_methods k_name is_empty negb] in I.
    + contradiction.
    + apply in_app_or in I as [I|I]; [destruct (negb _); [destruct I as [I|[]]; discriminate|contradiction]|]. apply in_flat_map in I as (r & R & I). apply in_map_iff in R as (m & <- & M). destruct (r_skipped _ || _)%bool eqn:Q; [contradiction|]. apply orb_false_iff in Q as (Q1 & Q2). destruct I as [I|[]]. injection I as <- <- <- <- <-.
      split; [unfold m_success in Q2; destruct (r_error _); discriminate|]. destruct (F' c C) as (_ & _ & FM). rewrite Forall_forall in FM. destruct (FM m M) as (U1 & U2). exists c, m. split; [exact C|]. split; [exact M|]. split; [reflexivity|]. split; [symmetry; now apply mr_name|]. split; [exact SE|].
      destruct (picked_dec fnmatch A B c m) as [PK|PK]; [|rewrite mr_not_picked in Q1 by exact PK; discriminate]. split; [exact PK|]. destruct (goes_wrong_dec m) as [G|G]; [exact G|]. exfalso. destruct (mr_cases fnmatch A B (c_name c) m U1 U2) as (X1 & _ & X3); [now apply should_run_picked|].
      destruct (passes_dec m) as [PS|PS]; [destruct (X1 PS) as (_ & X); apply m_success_nil in X; congruence|]. rewrite (X3 PS G) in Q1. discriminate.
    + apply in_app_or in I as [I|I]; [destruct (negb _); [destruct I as [I|[]]; discriminate|contradiction]|]. apply in_flat_map in I as (r & R & I). apply in_map_iff in R as (m & <- & M). contradiction.
    + destruct (negb _) in I; [destruct I as [I|[]]; discriminate|contradiction].
Qed.
Print Assumptions C189_report_partial.
(** When the teardown of a failed test fails too, the error of the test itself is lost. *)
Theorem C189_refuted_lost fnmatch env c m s st e : usual_hooks c -> c_setup c = None -> c_teardown c = None -> c_methods c = [m] -> picked fnmatch (only env) (except env) c m ->
  t_setup m = None -> t_body m = Some (Some (XFail s st)) -> t_teardown m = Some e ->
  test_main fnmatch env [c] = Ok (1, [OfTest (c_name c) (t_name m) [] (codes "[teardown failed: " ++ what e ++ codes "]") st]).
Proof.
  intros H S T M PK SE BE TE. rewrite main_ok by auto. cbn [map]. destruct (cr_cases fnmatch (only env) (except env) c H) as [(N & _)|[(_ & _ & E)|[(_ & w & X & _)|(_ & e' & X & _)]]]; [exfalso; apply N; exists m; split; [rewrite M; now left|exact PK]| |congruence..]. rewrite E, M. unfold td. rewrite T. cbn [map].
  assert (R : mr fnmatch (only env) (except env) (c_name c) m = mk_mres (t_name m) (codes "[teardown failed: " ++ what e ++ codes "]") st [] false []).
  { unfold mr, run_test. apply should_run_picked in PK. rewrite PK, BE, SE, TE. cbn [negb]. destruct H as (_ & _ & F). rewrite M in F. inversion F as [|? ? (_ & U) _]; subst. unfold usual in U. rewrite TE in U. destruct e; try (now destruct U); reflexivity. }
  rewrite R. reflexivity.
Qed.
Print Assumptions C189_refuted_lost.

(** ** C190 *)
(** A test that asks to be skipped, in its setup or in its function, changes neither the exit
    status nor the report. *)
Theorem C190_skip_partial fnmatch env l1 c l2 ms1 ms2 m : Forall usual_hooks (l1 ++ c :: l2) -> started fnmatch (only env) (except env) c -> c_methods c = ms1 ++ ms2 -> usual (t_teardown m) ->
  (exists why x, t_body m = Some x /\ t_setup m = Some (XSkip why)) \/ (exists why, t_setup m = None /\ t_body m = Some (Some (XSkip why))) ->
  test_main fnmatch env (l1 ++ with_methods c (ms1 ++ m :: ms2) :: l2) = test_main fnmatch env (l1 ++ c :: l2).
Proof. intros F ST ME U H. apply add_skipped; try assumption. destruct H as [(w & x & B & S)|(w & S & B)]; [left; exists w; rewrite B; split; [discriminate|exact S]|right; eauto]. Qed.
Print Assumptions C190_skip_partial.
(** One that asks inside of wassert is failed. *)
Theorem C190_refuted_checked fnmatch env l c m f why : Forall usual_hooks l -> In c l -> In m (c_methods c) -> c_setup c = None -> picked fnmatch (only env) (except env) c m -> t_setup m = None -> t_teardown m = None -> t_body m = Some (wassert f (Some (XSkip why))) ->
  Z.of_nat (List.length (flat_map c_methods l)) < 2 ^ 32 -> Z.of_nat (List.length l) < 2 ^ 32 ->
  exists rep, test_main fnmatch env l = Ok (1, rep) /\ In (OfTest (c_name c) (t_name m) [] (codes "N4msat5tests11TestSkippedE: std::exception") [f]) rep.
Proof.
  intros F C M S PK SE TE BE N1 N2. destruct (C189_report_partial fnmatch env l F) as (code & rep & E & R & _). exists rep. cbn [wassert] in BE. specialize (R c m _ _ C M S PK SE TE BE ltac:(discriminate)). split; [|exact R].
  rewrite E. rewrite (main_ok fnmatch env l F) in E. injection E as E1 E2. rewrite <- E1. set (A := only env) in *. set (B := except env) in *. destruct (success _) eqn:Q; [|reflexivity]. exfalso. pose proof (counted_le fnmatch A B l F). apply success_spec in Q as (_ & X & _); [|lia|rewrite map_length; lia].
  rewrite Forall_forall in F. destruct (F c C) as (_ & _ & FM). rewrite Forall_forall in FM. destruct (FM m M) as (U1 & U2).
  assert (BD : bad (mr fnmatch A B (c_name c) m) = true). { apply good_mr; try assumption; [intros (_ & _ & (w & Y) & _); rewrite BE in Y; discriminate|]. split; [exact PK|]. split; [rewrite BE; discriminate|]. right. split; [exact SE|]. left. eexists. split; [exact BE|]. intros (w & Y). discriminate. }
  rewrite X in BD; [discriminate|]. unfold counted. apply in_flat_map. exists (cr fnmatch A B c). split; [now apply in_map|]. destruct (cr_cases fnmatch A B c (F c C)) as [(N & _)|[(_ & _ & ->)|[(_ & w & Y & _)|(_ & e' & Y & _)]]]; [exfalso; apply N; exists m; auto|cbn; now apply in_map|congruence..].
Qed.
Print Assumptions C190_refuted_checked.
Example C190_case : let f := (codes "t.cc", 12, codes "f()", []) in let m := mk_method (codes "a") None (Some (wassert f (Some (XSkip (codes "no data"))))) None in
  test_main (fun _ _ => 0) (fun _ => None) [mk_tcase (codes "c") None [ok_test "b"; m] None] = Ok (1, [OfTest (codes "c") (codes "a") [] (codes "N4msat5tests11TestSkippedE: std::exception") [f]]) /\
  test_main (fun _ _ => 0) (fun _ => None) [mk_tcase (codes "c") None [ok_test "b"; mk_method (codes "a") None (Some (Some (XSkip (codes "no data")))) (Some (XStd [] []))] None] = Ok (0, []).
Proof. split; reflexivity. Qed.

(** ** C191 *)
(** A failure that goes through nested checks, from the inner to the outer one, keeps its
    text and collects their places in this order; other exceptions become such failures, and
    code that throws nothing passes. *)
Theorem C191_stack fs : let nest x := fold_left (fun x f => wassert f x) fs x in
  nest None = None /\ (forall s st, nest (Some (XFail s st)) = Some (XFail s (st ++ fs))) /\
  (forall t s f r, fs = f :: r -> nest (Some (XStd t s)) = Some (XFail (t ++ codes ": " ++ s) fs)) /\ nest (Some XOther) = Some XOther.
Proof.
  assert (X : forall fs s st, fold_left (fun x f => wassert f x) fs (Some (XFail s st)) = Some (XFail s (st ++ fs))). { clear. induction fs as [|f fs IH]; intros s st; cbn; [now rewrite app_nil_r|]. rewrite IH. now rewrite <- app_assoc. }
  intros nest. subst nest. split; [induction fs; auto|]. split; [apply X|]. split; [|induction fs; auto]. intros t s f r ->. cbn [fold_left wassert]. rewrite X. reflexivity.
Qed.
Print Assumptions C191_stack.
(** wassert_throws returns exactly the exceptions of the class asked for that are no failed
    checks; all else is thrown on or is a failure. *)
Theorem C191_throws is_exc f1 f2 m1 m2 x : match wassert_throws is_exc f1 f2 m1 m2 x with
  | inl e => x = Some e /\ is_exc e = true /\ (forall s st, e <> XFail s st)
  | inr e => (forall e', x = Some e' -> (forall s st, e' <> XFail s st) -> is_exc e' = false) /\ (e = XOther -> x = Some XOther)
  end.
Proof.
  destruct x as [[w|s st|t s|]|]; cbn [wassert_throws].
  - destruct (is_exc (XSkip w)) eqn:E; [split; [reflexivity|]; split; [exact E|discriminate]|]. cbn. split; [intros e' X _; injection X as <-; exact E|discriminate].
  - cbn. split; [intros e' X N; injection X as <-; now destruct (N s st)|discriminate].
  - destruct (is_exc (XStd t s)) eqn:E; [split; [reflexivity|]; split; [exact E|discriminate]|]. cbn. split; [intros e' X _; injection X as <-; exact E|discriminate].
  - destruct (is_exc XOther) eqn:E; [split; [reflexivity|]; split; [exact E|discriminate]|]. cbn. split; [intros e' X _; injection X as <-; exact E|reflexivity].
  - cbn. split; discriminate.
Qed.
Print Assumptions C191_throws.
Example C191_case : let f n := (codes "t.cc", n, codes "f()", []) in
  wassert (f 2) (wassert (f 1) (Some (XStd (codes "St9bad_alloc") (codes "no memory")))) = Some (XFail (codes "St9bad_alloc: no memory") [f 1; f 2]) /\
  wassert_throws (fun e => match e with XStd _ _ => true | _ => false end) (f 1) (f 2) [] (fun s => s) (Some (XStd [] (codes "x"))) = inl (XStd [] (codes "x")) /\
  (exists e, wassert_throws (fun e => match e with XStd _ _ => true | _ => false end) (f 1) (f 2) [] (fun s => s) None = inr e).
Proof. cbv zeta. split; [reflexivity|]. split; [reflexivity|]. eexists. reflexivity. Qed.
Example C189_case : let c := mk_tcase (codes "c") None [ok_test "a"; mk_method (codes "b") None (Some (Some (XStd (codes "E") (codes "why")))) None] (Some (XStd [] (codes "late"))) in usual_hooks c /\
  test_main (fun _ _ => 0) (fun _ => None) [c] = Ok (1, [OfCase (codes "c") (codes "test case teardown method threw an exception: late"); OfTest (codes "c") (codes "b") (codes "E") (codes "why") []]).
Proof. cbv zeta. split; [|reflexivity]. split; [discriminate|]. split; [discriminate|]. repeat constructor; cbn; discriminate. Qed.
