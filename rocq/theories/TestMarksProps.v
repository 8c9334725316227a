(** C212-C214: what a run of the unit tests writes. *)
From Verif Require Import Base BaseFacts IniModel IniProofs StringModel GribModel Db1Spec Db1Props TermModel TestRunModel TestRunProps TestStatsModel TestStatsProps TestMarksModel.
Open Scope string_scope.
Open Scope list_scope.
Open Scope Z_scope.

(** ** What is asked for *)
Section Spec.
Variable fnmatch : str -> str -> Z.
Variables allow block : str.
Notation picked := (picked fnmatch allow block).
Notation started := (started fnmatch allow block).
(** How a test of a test case goes whose set up works or asks to skip everything. *)
Inductive fate := Passed | Failed | Skipped (why : str).
Inductive has_fate (c : tcase) (m : method) : fate -> Prop :=
| fate_case why : c_setup c = Some (XSkip why) -> has_fate c m (Skipped why)
| fate_not_picked : c_setup c = None -> ~ picked c m -> has_fate c m (Skipped [])
| fate_empty : c_setup c = None -> picked c m -> t_body m = None -> has_fate c m (Skipped [])
| fate_setup why : c_setup c = None -> picked c m -> t_body m <> None -> t_setup m = Some (XSkip why) -> has_fate c m (Skipped why)
| fate_body why : c_setup c = None -> picked c m -> t_setup m = None -> t_body m = Some (Some (XSkip why)) -> has_fate c m (Skipped why)
| fate_passed : c_setup c = None -> picked c m -> passes m -> has_fate c m Passed
| fate_failed : c_setup c = None -> picked c m -> goes_wrong m -> (t_setup m = None -> forall why, t_body m <> Some (Some (XSkip why))) -> has_fate c m Failed.
(** The text about the tests from the [i]-th on, and about the test cases from the [k]-th on
    that have a picked test. *)
Inductive by_test (entry : nat -> method -> str -> Prop) : nat -> list method -> str -> Prop :=
| by_test_nil i : by_test entry i [] []
| by_test_cons i m l x t : entry i m x -> by_test entry (S i) l t -> by_test entry i (m :: l) (x ++ t).
Inductive by_case (part : nat -> tcase -> str -> Prop) : nat -> list tcase -> str -> Prop :=
| by_case_nil k : by_case part k [] []
| by_case_none k c l t : ~ started c -> by_case part (S k) l t -> by_case part k (c :: l) t
| by_case_some k c l x t : started c -> part k c x -> by_case part (S k) l t -> by_case part k (c :: l) (x ++ t).
(** Bold red and green text on a terminal. *)
Definition bold (tty : bool) (s : str) : str := if tty then [27] ++ codes "[1m" ++ s ++ [27] ++ codes "[0m" else s.
Definition in_red (tty : bool) (s : str) : str := if tty then [27] ++ codes "[1;31m" ++ s ++ [27] ++ codes "[0m" else s.
Definition in_green (tty : bool) (s : str) : str := if tty then [27] ++ codes "[1;32m" ++ s ++ [27] ++ codes "[0m" else s.
Definition cross : str := [226; 156; 152].
Definition tick : str := [226; 156; 148].
(** The line of a test case: its name and a mark for each test. *)
Definition mark (tty : bool) (f : fate) : str := match f with Passed => codes "." | Failed => in_red tty cross | Skipped _ => codes "s" end.
Definition broken_setup (c : tcase) : Prop := exists e, c_setup c = Some e /\ ~ skips e.
Definition mark_line (tty : bool) (c : tcase) (x : str) : Prop :=
  exists marks, x = c_name c ++ codes ": " ++ marks ++ [10] /\
  ((broken_setup c /\ marks = []) \/
   (~ broken_setup c /\ by_test (fun _ m y => exists f, has_fate c m f /\ y = mark tty f) 0 (c_methods c) marks)).
End Spec.

(** ** Facts about the model *)
Lemma by_test_impl (E E' : nat -> method -> str -> Prop) i l t : by_test E i l t -> (forall j m x, In m l -> E j m x -> E' j m x) -> by_test E' i l t.
Proof. induction 1 as [|i m l x t H B IH]; intros I; constructor; [apply I; [now left|exact H]|]. apply IH. intros j m' y M. apply I. now right. Qed.
Section Facts.
Variable fnmatch : str -> str -> Z.
Variables allow block : str.
Variable tty : bool.
Variable secs : Z -> str.
Variable took : nat -> nat -> Z.
Notation picked := (picked fnmatch allow block).
Notation started := (started fnmatch allow block).
Notation mr := (mr fnmatch allow block).
Notation cr := (cr fnmatch allow block).
Notation elapsed := (elapsed fnmatch allow block).
Notation show_methods := (show_methods fnmatch allow block took).
Notation show_case := (show_case fnmatch allow block took).
Notation show_all := (show_all fnmatch allow block took).
Definition times (c : str) (k i : nat) (l : list method) : list Z := map (fun p => elapsed c (snd p) (took k (fst p))) (combine (seq i (List.length l)) l).
Lemma times_length c k i l : List.length (times c k i l) = List.length l.
Proof. unfold times. rewrite map_length, combine_length, seq_length. apply Nat.min_id. Qed.
Lemma show_methods_ok ctl c k l : forall i, Forall (fun m => usual (t_setup m) /\ usual (t_teardown m)) l ->
  exists t, show_methods ctl c k i l = (t, Ok (combine (map (mr c) l) (times c k i l))) /\
  by_test (fun j m x => x = on_end ctl c (mr c m) (elapsed c m (took k j))) i l t.
Proof.
  induction l as [|m l IH]; intros i F; [exists []; split; [reflexivity|constructor]|]. inversion F as [|? ? (U1 & U2) F']; subst. destruct (IH (S i) F') as (t & E & B).
  cbn [TestMarksModel.show_methods]. rewrite (run_test_ok fnmatch allow block c m U1 U2). rewrite E. eexists. split; [reflexivity|]. constructor; [reflexivity|exact B].
Qed.
Lemma fst_combine2 {A B} (a : list A) : forall b : list B, List.length b = List.length a -> map fst (combine a b) = a /\ map snd (combine a b) = b.
Proof. induction a as [|x a IH]; intros [|y b] L; try discriminate; [auto|]. injection L as L. destruct (IH b L) as (E1 & E2). cbn. now rewrite E1, E2. Qed.
Lemma by_test_flat (h : method -> str) l : forall i, by_test (fun _ m x => x = h m) i l (flat_map h l).
Proof. induction l as [|m l IH]; intros i; cbn; constructor; auto. Qed.
(** The four ways a test case goes. *)
Lemma show_case_ok ctl k c : usual_hooks c ->
  (~ started c /\ show_case ctl k c = (on_case_end ctl (cr c, []), Ok (cr c, [])) /\ k_skipped (cr c) = true) \/
  (started c /\ c_setup c = None /\ exists t, let r := (cr c, times (c_name c) k 0 (c_methods c)) in
     show_case ctl k c = (on_begin ctl (c_name c) ++ t ++ on_case_end ctl r, Ok r) /\
     by_test (fun j m x => x = on_end ctl (c_name c) (mr (c_name c) m) (elapsed (c_name c) m (took k j))) 0 (c_methods c) t) \/
  (started c /\ exists why, c_setup c = Some (XSkip why) /\ exists t, let r := (cr c, map (fun _ => 0) (c_methods c)) in
     show_case ctl k c = (on_begin ctl (c_name c) ++ t ++ on_case_end ctl r, Ok r) /\
     by_test (fun j m x => x = on_end ctl (c_name c) (set_skipped why (new_mres (t_name m))) 0) 0 (c_methods c) t) \/
  (started c /\ broken_setup c /\ show_case ctl k c = (on_begin ctl (c_name c) ++ on_case_end ctl (cr c, []), Ok (cr c, []))).
Proof.
  intros H. pose proof H as (S & T & F). unfold TestMarksModel.show_case. destruct (case_should_run fnmatch allow block c) eqn:R; cbn [negb].
  2: { left. destruct (cr_cases fnmatch allow block c H) as [(N & E)|[(ST & _)|[(ST & _)|(ST & _)]]]; [|apply case_should_run_started in ST; congruence..]. rewrite E. split; [exact N|split; reflexivity]. }
  apply case_should_run_started in R. right. destruct (cr_cases fnmatch allow block c H) as [(N & _)|[(_ & SE & E)|[(_ & w & SE & E)|(_ & e & SE & NK & E)]]]; [contradiction|..].
  - left. split; [exact R|]. split; [exact SE|]. rewrite SE. destruct (show_methods_ok ctl (c_name c) k (c_methods c) 0 F) as (t & Q & B). rewrite Q. exists t. split; [|exact B]. unfold show_finish.
    destruct (fst_combine2 (map (mr (c_name c)) (c_methods c)) (times (c_name c) k 0 (c_methods c))) as (E1 & E2); [now rewrite times_length, map_length|]. rewrite E1, E2.
    assert (FI : snd (finish c [] (map (mr (c_name c)) (c_methods c))) = Ok (cr c)). { rewrite E. unfold finish, td, usual in *. destruct (c_teardown c) as [[]|]; try reflexivity. now destruct T. }
    rewrite FI. reflexivity.
  - right. left. split; [exact R|]. exists w. split; [exact SE|]. rewrite SE. unfold show_finish, skip_methods. cbn [snd]. rewrite !map_map. cbn [fst snd].
    assert (FI : snd (finish c [] (map (fun m => set_skipped w (new_mres (t_name m))) (c_methods c))) = Ok (cr c)). { rewrite E. unfold finish, td, usual in *. destruct (c_teardown c) as [[]|]; try reflexivity. now destruct T. }
    rewrite FI. eexists. split; [reflexivity|]. rewrite flat_map_concat_map, !map_map, <- flat_map_concat_map. cbn [fst snd]. apply (by_test_flat (fun m => on_end ctl (c_name c) (set_skipped w (new_mres (t_name m))) 0)).
  - right. right. split; [exact R|]. split; [exists e; auto|]. rewrite SE. destruct e as [w| | |]; [exfalso; apply NK; now exists w|rewrite E; reflexivity..|now destruct S].
Qed.
Lemma by_case_part (P : nat -> tcase -> str -> Prop) ctl l : Forall usual_hooks l ->
  (forall r, k_skipped (fst r) = true -> on_case_end ctl r = []) -> (forall k c, In c l -> started c -> P k c (fst (show_case ctl k c))) ->
  forall k, exists t rs, show_all ctl k l = (t, Ok rs) /\ map fst rs = map cr l /\ by_case fnmatch allow block P k l t.
Proof.
  intros F SK. induction F as [|c l H F IH]; intros PP k; [exists [], []; split; [reflexivity|split; [reflexivity|constructor]]|].
  destruct (IH (fun k c' I => PP k c' (or_intror I)) (S k)) as (t & rs & E & M & B). cbn [TestMarksModel.show_all map]. pose proof (PP k c (or_introl eq_refl)) as PC.
  destruct (show_case_ok ctl k c H) as [(N & Q & K)|[(ST & _ & t0 & Q & _)|[(ST & w & _ & t0 & Q & _)|(ST & _ & Q)]]]; rewrite Q in *; cbn [fst] in PC; rewrite E; eexists _, _; (split; [reflexivity|]); (split; [cbn [map fst]; now rewrite M|]).
  - rewrite SK by exact K. cbn [app]. now apply by_case_none.
  - apply by_case_some; auto.
  - apply by_case_some; auto.
  - apply by_case_some; auto.
Qed.
(** How a test goes and what is recorded of it. *)
Definition records (r : mres) (f : fate) : Prop :=
  match f with Passed => r_skipped r = false /\ r_error r = [] | Failed => r_skipped r = false /\ r_error r <> [] | Skipped why => r_skipped r = true /\ r_reason r = why end.
Lemma fate_mr c m : usual (t_setup m) -> usual (t_teardown m) -> c_setup c = None -> exists f, has_fate fnmatch allow block c m f /\ records (mr (c_name c) m) f.
Proof.
  intros U1 U2 SC. destruct (picked_dec fnmatch allow block c m) as [P|P].
  2: { exists (Skipped []). split; [now apply fate_not_picked|]. unfold TestRunProps.mr, run_test. destruct (should_run fnmatch allow block (full_name (c_name c) (t_name m))) eqn:R; [exfalso; apply P; now apply should_run_picked|]. split; reflexivity. }
  pose proof P as P'. apply should_run_picked in P'. destruct (t_body m) as [b|] eqn:BE.
  2: { exists (Skipped []). split; [now apply fate_empty|]. unfold TestRunProps.mr, run_test. rewrite P', BE. split; reflexivity. }
  assert (NS : forall e, ~ skips e \/ exists w, e = XSkip w) by (intros e; destruct e; [right; eauto|left; intros (w & E); discriminate..]).
  destruct (mr_cases fnmatch allow block (c_name c) m U1 U2 P') as (A & B & _). cbv zeta in A, B.
  destruct (t_setup m) as [e|] eqn:SE.
  - destruct (NS e) as [N|(w & ->)].
    + exists Failed. assert (G : goes_wrong m). { split; [congruence|]. left. exists e. split; [exact SE|exact N]. }
      split; [apply fate_failed; try assumption; congruence|]. apply B; [exact G|right; right; discriminate].
    + exists (Skipped w). split; [apply fate_setup; congruence|]. unfold TestRunProps.mr, run_test. rewrite P', BE, SE. split; reflexivity.
  - destruct b as [e|].
    + destruct (NS e) as [N|(w & ->)].
      * exists Failed. assert (G : goes_wrong m). { split; [congruence|]. right. split; [exact SE|]. left. exists e. split; [exact BE|exact N]. }
        assert (X : forall why, t_body m <> Some (Some (XSkip why))). { intros why Q. rewrite BE in Q. injection Q as ->. apply N. now exists why. }
        split; [apply fate_failed; try assumption; auto|]. apply B; [exact G|left; exact X].
      * exists (Skipped w). split; [now apply fate_body|]. unfold TestRunProps.mr, run_test. rewrite P', BE, SE. unfold usual in U2. destruct (t_teardown m) as [[]|]; try (now destruct U2); split; reflexivity.
    + destruct (t_teardown m) as [e|] eqn:TE.
      * exists Failed. assert (G : goes_wrong m). { split; [congruence|]. right. split; [exact SE|]. right. congruence. }
        assert (X : forall why, t_body m <> Some (Some (XSkip why))) by (intros why Q; congruence).
        split; [apply fate_failed; try assumption; auto|]. apply B; [exact G|left; exact X].
      * exists Passed. split; [apply fate_passed; try assumption; now split|]. apply A. now split.
Qed.
End Facts.
Lemma simple_mark tty c r ns f : records r f -> on_end (simple tty) c r ns = mark tty f.
Proof.
  unfold records, mark. cbn [simple on_end]. destruct f as [| |w]; intros (E1 & E2); rewrite E1; try reflexivity; unfold m_success.
  - now rewrite E2.
  - destruct (r_error r); [now destruct E2|]. cbn [is_empty]. destruct tty; reflexivity.
Qed.

(** ** C212: the marks *)
Theorem C212_marks_partial fnmatch allow block tty took l : Forall usual_hooks l ->
  by_case fnmatch allow block (fun _ => mark_line fnmatch allow block tty) 0 l (fst (show_all fnmatch allow block took (simple tty) 0 l)).
Proof.
  intros F. destruct (by_case_part fnmatch allow block took (fun _ => mark_line fnmatch allow block tty) (simple tty) l F) with (k := 0%nat) as (t & rs & E & _ & B); [intros r K; cbn; now rewrite K| |now rewrite E].
  intros k c C ST. rewrite Forall_forall in F. pose proof (F c C) as H. pose proof H as (_ & _ & FM). rewrite Forall_forall in FM.
  destruct (show_case_ok fnmatch allow block took (simple tty) k c H) as [(N & _)|[(_ & SE & t0 & Q & BT)|[(_ & w & SE & t0 & Q & BT)|(_ & BS & Q)]]]; [contradiction|..]; rewrite Q; cbn [fst].
  - exists t0. assert (K : k_skipped (cr fnmatch allow block c) = false). { destruct (cr_cases fnmatch allow block c H) as [(N & _)|[(_ & _ & X)|[(_ & w & X & _)|(_ & e & X & _)]]]; [contradiction|now rewrite X|congruence..]. }
    split; [cbn [simple on_begin on_case_end fst]; rewrite K, <- app_assoc; reflexivity|]. right. split; [intros (e & X & _); congruence|]. eapply by_test_impl; [exact BT|]. cbv beta. intros j m x M ->. destruct (FM m M) as (U1 & U2). destruct (fate_mr fnmatch allow block c m U1 U2 SE) as (f & HF & R). exists f. split; [exact HF|]. now apply simple_mark.
  - exists t0. assert (K : k_skipped (cr fnmatch allow block c) = false). { destruct (cr_cases fnmatch allow block c H) as [(N & _)|[(_ & X & _)|[(_ & w' & _ & X)|(_ & e & X & NK & _)]]]; [contradiction|congruence|now rewrite X|]. exfalso. apply NK. exists w. congruence. }
    split; [cbn [simple on_begin on_case_end fst]; rewrite K, <- app_assoc; reflexivity|]. right. split; [intros (e & X & NK); apply NK; exists w; congruence|]. eapply by_test_impl; [exact BT|]. cbv beta. intros j m x M ->. exists (Skipped w). split; [now apply fate_case|]. reflexivity.
  - exists []. assert (K : k_skipped (cr fnmatch allow block c) = false). { destruct BS as (e' & X' & NK'). destruct (cr_cases fnmatch allow block c H) as [(N & _)|[(_ & X & _)|[(_ & w' & X & _)|(_ & e & _ & _ & X)]]]; [contradiction|congruence| |now rewrite X]. exfalso. apply NK'. exists w'. congruence. }
    split; [cbn [simple on_begin on_case_end fst]; rewrite K, <- app_assoc; reflexivity|]. left. split; [exact BS|reflexivity].
Qed.
Print Assumptions C212_marks_partial.
(** When the cleaning up of a test case fails, the marks are the ones of a test case in which
    it works. *)
Theorem C212_refuted_teardown fnmatch allow block tty took l1 c l2 e : Forall usual_hooks (l1 ++ c :: l2) -> c_teardown c = Some e ->
  let c' := mk_tcase (c_name c) (c_setup c) (c_methods c) None in
  fst (show_all fnmatch allow block took (simple tty) 0 (l1 ++ c :: l2)) = fst (show_all fnmatch allow block took (simple tty) 0 (l1 ++ c' :: l2)).
Proof.
  intros F TE c'. generalize 0%nat. induction l1 as [|c1 l1 IH]; intros k.
  - cbn [app show_all] in *. inversion F as [|? ? H _]; subst. assert (H' : usual_hooks c') by (destruct H as (A & _ & B); split; [exact A|split; [discriminate|exact B]]).
    assert (X : fst (show_case fnmatch allow block took (simple tty) k c) = fst (show_case fnmatch allow block took (simple tty) k c') /\ exists r r', snd (show_case fnmatch allow block took (simple tty) k c) = Ok r /\ snd (show_case fnmatch allow block took (simple tty) k c') = Ok r').
    { destruct H as (_ & U & _). unfold usual in U. unfold show_case. change (case_should_run fnmatch allow block c') with (case_should_run fnmatch allow block c). cbn [c' c_name c_setup c_methods]. destruct (negb _); [split; [reflexivity|eexists _, _; split; reflexivity]|].
      destruct (c_setup c) as [x|].
      - destruct x as [w|s st|ty s|]; try (split; [reflexivity|eexists _, _; split; reflexivity]); [|exfalso; destruct H' as (A & _); now apply A].
        unfold show_finish, finish. cbn [c_teardown]. rewrite TE. destruct e; try (split; [reflexivity|eexists _, _; split; reflexivity]). now destruct U.
      - destruct H' as (_ & _ & FM). destruct (show_methods_ok fnmatch allow block took (simple tty) (c_name c) k (c_methods c) 0 FM) as (t & -> & _).
        unfold show_finish, finish. cbn [c_teardown c_name]. rewrite TE. destruct e; try (split; [reflexivity|eexists _, _; split; reflexivity]). now destruct U. }
    destruct X as (X & r & r' & R & R'). destruct (show_case _ _ _ _ _ k c) as [s x], (show_case _ _ _ _ _ k c') as [s' x']. cbn [fst snd] in *. subst. destruct (show_all _ _ _ _ _ (S k) l2). reflexivity.
  - cbn [app show_all] in *. inversion F as [|? ? H F']; subst. specialize (IH F' (S k)). destruct (show_case _ _ _ _ _ k c1) as [s x]. destruct x; try reflexivity. destruct (show_all _ _ _ _ _ (S k) (l1 ++ c :: l2)), (show_all _ _ _ _ _ (S k) (l1 ++ c' :: l2)). cbn [fst] in *. now rewrite IH.
Qed.
Print Assumptions C212_refuted_teardown.
(** ** The exit status *)
Lemma show_methods_run fnmatch allow block took ctl c k l : forall i,
  (let! rs := snd (show_methods fnmatch allow block took ctl c k i l) in Ok (map fst rs)) = snd (run_methods fnmatch allow block c l).
Proof.
  induction l as [|m l IH]; intros i; [reflexivity|]. cbn [show_methods run_methods]. destruct (run_test fnmatch allow block c m) as [ev x]. cbn [snd]. destruct x as [r| | | |]; try reflexivity. specialize (IH (S i)).
  destruct (show_methods _ _ _ _ _ c k (S i) l) as [s y], (run_methods _ _ _ c l) as [ev' z]. cbn [snd] in *. subst z. destruct y; reflexivity.
Qed.
Lemma finish_ev c ev rs : snd (finish c ev rs) = snd (finish c [] rs).
Proof. unfold finish. destruct (c_teardown c) as [[]|]; reflexivity. Qed.
Lemma show_finish_run ctl c rs : (let! r := snd (show_finish ctl c rs) in Ok (fst r)) = snd (finish c [] (map fst rs)).
Proof. unfold show_finish. destruct (snd (finish c [] (map fst rs))); reflexivity. Qed.
Lemma show_case_run fnmatch allow block took ctl k c : (let! r := snd (show_case fnmatch allow block took ctl k c) in Ok (fst r)) = snd (run_case fnmatch allow block c).
Proof.
  unfold show_case, run_case. destruct (negb _); [reflexivity|]. destruct (c_setup c) as [[w|s st|ty s|]|]; try reflexivity.
  - unfold skip_methods. cbn [snd]. rewrite finish_ev. set (rs := map (fun r => (r, 0)) (map (fun m => set_skipped w (new_mres (t_name m))) (c_methods c))).
    pose proof (show_finish_run ctl c rs) as X. destruct (show_finish ctl c rs) as [s x]. cbn [snd] in *. rewrite X. unfold rs. rewrite !map_map. reflexivity.
  - pose proof (show_methods_run fnmatch allow block took ctl (c_name c) k (c_methods c) 0) as X. destruct (show_methods _ _ _ _ _ _ k 0%nat _) as [s y], (run_methods _ _ _ _ _) as [ev z]. cbn [snd] in X. subst z. destruct y as [rs| | | |]; try reflexivity.
    cbn [bind]. rewrite finish_ev. rewrite <- (show_finish_run ctl). destruct (show_finish ctl c rs). reflexivity.
Qed.
Lemma show_all_run fnmatch allow block took ctl l : forall k, (let! rs := snd (show_all fnmatch allow block took ctl k l) in Ok (map fst rs)) = snd (run_all fnmatch allow block l).
Proof.
  induction l as [|c l IH]; intros k; [reflexivity|]. cbn [show_all run_all]. pose proof (show_case_run fnmatch allow block took ctl k c) as X. destruct (show_case _ _ _ _ _ k c) as [s x], (run_case _ _ _ c) as [ev y]. cbn [snd] in X. subst y. destruct x as [r| | | |]; try reflexivity. cbn [bind].
  specialize (IH (S k)). destruct (show_all _ _ _ _ _ (S k) l) as [s' z], (run_all _ _ _ l) as [ev' z']. cbn [snd] in *. subst z'. destruct z; reflexivity.
Qed.
(** The exit status depends neither on what is written nor on times. *)
Theorem C212_status fnmatch env tty secs took sc st l : snd (main_text fnmatch env tty secs took sc st l) = (let! p := test_main fnmatch env l in Ok (fst p)).
Proof.
  unfold main_text, test_main. match goal with |- context [show_all _ _ _ _ ?x _ l] => set (ctl := x) end. rewrite <- (show_all_run _ _ _ took ctl l 0). destruct (show_all _ _ _ _ _ _ l) as [s x]. destruct x; reflexivity.
Qed.
Print Assumptions C212_status.

(** ** C213: the lines about tests *)
Section Verbose.
Variable fnmatch : str -> str -> Z.
Variables allow block : str.
Variable tty : bool.
Variable secs : Z -> str.
Variable took : nat -> nat -> Z.
Notation picked := (picked fnmatch allow block).
Notation started := (started fnmatch allow block).
Notation mr := (mr fnmatch allow block).
Notation cr := (cr fnmatch allow block).
(** The type, text and places told of a test that fails: the last hook that throws gives the
    text. *)
Definition body_type (m : method) : str := match t_setup m, t_body m with None, Some (Some (XStd t _)) => t | _, _ => [] end.
Definition body_stack (m : method) : list frame := match t_setup m, t_body m with None, Some (Some (XFail _ st)) => st | _, _ => [] end.
Definition or_else (s : str) (d : string) : str := match s with [] => codes d | _ => s end.
Inductive fails_with (m : method) : str -> Prop :=
| with_teardown e : t_teardown m = Some e -> fails_with m (codes "[teardown failed: " ++ what e ++ codes "]")
| with_setup e : t_teardown m = None -> t_setup m = Some e -> fails_with m (codes "[setup failed: " ++ what e ++ codes "]")
| with_failure s st : t_teardown m = None -> t_setup m = None -> t_body m = Some (Some (XFail s st)) -> fails_with m (or_else s "test failed with an empty error message")
| with_exception t s : t_teardown m = None -> t_setup m = None -> t_body m = Some (Some (XStd t s)) -> fails_with m (or_else s "test threw an exception with an empty error message")
| with_other : t_teardown m = None -> t_setup m = None -> t_body m = Some (Some XOther) -> fails_with m (codes "unknown exception caught").
Definition place_line (f : frame) : str :=
  let '(file, line, call, info) := f in codes "  " ++ file ++ codes ":" ++ print line ++ codes ":" ++ call ++ match info with [] => [] | _ => codes " [" ++ info ++ codes "]" end ++ [10].
Definition details (c m ty text : str) (st : list frame) : str :=
  c ++ codes "." ++ m ++ codes ":" ++ match ty with [] => [] | _ => codes "[" ++ ty ++ codes "]" end ++ codes " " ++ text ++ [10] ++ flat_map place_line st.
Definition timed_line (name verdict : str) (ns : Z) : str := name ++ codes ": " ++ verdict ++ codes " (" ++ format_elapsed secs ns ++ codes ")" ++ [10].
Definition test_entry (k : nat) (c : tcase) (j : nat) (m : method) (x : str) : Prop :=
  let name := c_name c ++ codes "." ++ t_name m in
  exists f, has_fate fnmatch allow block c m f /\
  match f with
  | Skipped why => x = name ++ codes ": skipped" ++ match why with [] => codes "." | _ => codes ": " ++ why end ++ [10]
  | Passed => x = timed_line name (in_green tty tick) (took k j)
  | Failed => exists text, fails_with m text /\ x = timed_line name (in_red tty cross) (took k j) ++ details (c_name c) (t_name m) (body_type m) text (body_stack m)
  end.
(** Nothing goes wrong in a test case, tests that ask to be skipped included. *)
Definition fine (c : tcase) : Prop := ~ broken_setup c /\ c_teardown c = None /\ (c_setup c = None -> forall m, In m (c_methods c) -> picked c m -> ~ goes_wrong m).
(** The tests whose time is taken. *)
Definition ran (c : tcase) (m : method) : Prop := c_setup c = None /\ picked c m /\ t_body m <> None /\ forall why, t_setup m <> Some (XSkip why).
Definition times_of (k : nat) (c : tcase) (ts : list Z) : Prop :=
  List.length ts = List.length (c_methods c) /\
  forall j m, nth_error (c_methods c) j = Some m -> (ran c m -> nth_error ts j = Some (took k j)) /\ (~ ran c m -> nth_error ts j = Some 0).
Definition case_part (k : nat) (c : tcase) (x : str) : Prop :=
  exists tests verdict ns,
  x = bold tty (c_name c) ++ codes ": setup" ++ [10] ++ tests ++ timed_line (bold tty (c_name c)) verdict ns /\
  ((broken_setup c /\ tests = [] /\ ns = 0) \/
   (~ broken_setup c /\ by_test (test_entry k c) 0 (c_methods c) tests /\ exists ts, times_of k c ts /\ ns = total ts mod 2 ^ 64)) /\
  ((fine c /\ verdict = in_green tty (codes "success")) \/ (~ fine c /\ verdict = in_red tty (codes "failed"))).

Lemma ns_total (c : timed) : List.length (snd c) = List.length (k_methods (fst c)) -> case_ns c = total (snd c) mod 2 ^ 64.
Proof.
  unfold case_ns, tests_of. generalize (k_methods (fst c)) (snd c). intros ms ts.
  assert (G : forall ts ms s, List.length ts = List.length ms -> fold_left (fun s (t : mres * Z) => (s + snd t) mod 2 ^ 64) (combine ms ts) (s mod 2 ^ 64) = (s + total ts) mod 2 ^ 64).
  { clear. induction ts as [|t ts IH]; intros [|m ms] s L; try discriminate; cbn [combine fold_left total snd]; [f_equal; lia|]. rewrite Zplus_mod_idemp_l, IH by now injection L. f_equal. lia. }
  intros L. exact (G ts ms 0 L).
Qed.
Lemma error_mr c m : usual (t_setup m) -> usual (t_teardown m) -> (m_success (mr (c_name c) m) = true <-> ~ (picked c m /\ goes_wrong m)).
Proof.
  intros U1 U2. destruct (picked_dec fnmatch allow block c m) as [P|P].
  2: { split; [tauto|]. intros _. unfold TestRunProps.mr, run_test. destruct (should_run fnmatch allow block (full_name (c_name c) (t_name m))) eqn:R; [exfalso; apply P; now apply should_run_picked|reflexivity]. }
  pose proof P as P'. apply should_run_picked in P'. unfold TestRunProps.mr, run_test. rewrite P'. unfold goes_wrong, usual in *. cbn [negb].
  assert (NS : forall w, skips (XSkip w)) by (intros w; now exists w). assert (KK : forall a b, ~ skips (XFail a b)) by (intros a b (w & E); discriminate). assert (KS : forall a b, ~ skips (XStd a b)) by (intros a b (w & E); discriminate). assert (KO : ~ skips XOther) by (intros (w & E); discriminate).
  destruct (t_body m) as [b|] eqn:BE; [|split; [intros _ (_ & N & _); now destruct N|reflexivity]].
  destruct (t_setup m) as [[w|s st|ty s|]|] eqn:SE.
  - split; [|reflexivity]. intros _ (_ & _ & [(e & E & N)|(E & _)]); [injection E as <-; now apply N|discriminate].
  - split; [intros Q; exfalso|intros Q; exfalso; apply Q; split; [exact P|]; split; [discriminate|]; left; eauto]. destruct (t_teardown m) as [[]|]; try (now destruct U2); discriminate.
  - split; [intros Q; exfalso|intros Q; exfalso; apply Q; split; [exact P|]; split; [discriminate|]; left; eauto]. destruct (t_teardown m) as [[]|]; try (now destruct U2); discriminate.
  - now destruct U1.
  - destruct (t_teardown m) as [e|] eqn:TE.
    + split; [intros Q; exfalso|intros Q; exfalso; apply Q; split; [exact P|]; split; [discriminate|]; right; split; [reflexivity|right; discriminate]]. destruct e; try (now destruct U2); discriminate.
    + destruct b as [[w|s st|ty s|]|]; cbn.
      * split; [|reflexivity]. intros _ (_ & _ & [(e & E & N)|(_ & [(e & E & N)|E])]); [discriminate|injection E as <-; now apply N|now apply E].
      * split; [intros Q; destruct s; discriminate|intros Q; exfalso; apply Q; split; [exact P|]; split; [discriminate|]; right; split; [reflexivity|]; left; eauto].
      * split; [intros Q; destruct s; discriminate|intros Q; exfalso; apply Q; split; [exact P|]; split; [discriminate|]; right; split; [reflexivity|]; left; eauto].
      * split; [discriminate|intros Q; exfalso; apply Q; split; [exact P|]; split; [discriminate|]; right; split; [reflexivity|]; left; eauto].
      * split; [|reflexivity]. intros _ (_ & _ & [(e & E & N)|(_ & [(e & E & N)|E])]); [discriminate|discriminate|now apply E].
Qed.
Lemma td_nil c : is_empty (td c) = true <-> c_teardown c = None.
Proof. unfold td. destruct (c_teardown c) as [e|]; cbn; split; intros; try reflexivity; discriminate. Qed.
Lemma c_success_fine c : usual_hooks c -> started c -> (c_success (cr c) = true <-> fine c).
Proof.
  intros H ST. pose proof H as (_ & _ & FM). rewrite Forall_forall in FM. unfold c_success, fine. destruct (cr_cases fnmatch allow block c H) as [(N & _)|[(_ & SE & ->)|[(_ & w & SE & ->)|(_ & e & SE & NK & ->)]]]; [contradiction|..]; cbn [k_setup k_teardown k_methods is_empty andb].
  - rewrite andb_true_iff, td_nil, forallb_forall. split.
    + intros (T & A). split; [intros (e & E & _); congruence|]. split; [exact T|]. intros _ m M P G. destruct (FM m M) as (U1 & U2). apply (error_mr c m U1 U2); [|auto]. apply A. now apply in_map.
    + intros (_ & T & A). split; [exact T|]. intros r R. apply in_map_iff in R as (m & <- & M). destruct (FM m M) as (U1 & U2). apply error_mr; auto. intros (P & G). now apply (A SE m M).
  - rewrite andb_true_iff, td_nil, forallb_forall. split.
    + intros (T & _). split; [intros (e & E & N); apply N; exists w; congruence|]. split; [exact T|]. congruence.
    + intros (_ & T & _). split; [exact T|]. intros r R. apply in_map_iff in R as (m & <- & _). reflexivity.
  - split; [discriminate|]. intros (B & _). exfalso. apply B. now exists e.
Qed.
Lemma verdict_ok c : usual_hooks c -> started c -> let v := if c_success (cr c) then color_fg tty (Z.lor bright green) (codes "success") else color_fg tty (Z.lor bright red) (codes "failed") in
  (fine c /\ v = in_green tty (codes "success")) \/ (~ fine c /\ v = in_red tty (codes "failed")).
Proof.
  intros H ST. pose proof (c_success_fine c H ST) as X. destruct (c_success (cr c)); [left|right]; (split; [|destruct tty; reflexivity]); [now apply X|]. intros Y. apply X in Y. discriminate.
Qed.
Lemma details_ok c r : failure_details c r = details c (r_name r) (r_type r) (r_error r) (r_stack r).
Proof.
  unfold failure_details, details. assert (P : forall f, codes "  " ++ format_frame f = place_line f). { intros [[[file line] call] info]. unfold format_frame, place_line. destruct info; reflexivity. }
  rewrite (flat_map_ext _ _ P). destruct (r_type r) as [|z ty]; cbn [is_empty]; rewrite <- !app_assoc; reflexivity.
Qed.
Lemma mr_failed c m : usual (t_setup m) -> usual (t_teardown m) -> picked c m -> goes_wrong m -> (t_setup m = None -> forall why, t_body m <> Some (Some (XSkip why))) ->
  let r := mr (c_name c) m in r_type r = body_type m /\ r_stack r = body_stack m /\ fails_with m (r_error r).
Proof.
  intros U1 U2 P G NB. apply should_run_picked in P. unfold TestRunProps.mr, run_test. rewrite P. cbn [negb]. destruct G as (B & G). destruct (t_body m) as [b|] eqn:BE; [|now destruct B]. unfold body_type, body_stack, usual in *. rewrite BE.
  destruct (t_setup m) as [e|] eqn:SE.
  - assert (NW : forall w, e <> XSkip w). { intros w ->. destruct G as [(e & E & N)|(E & _)]; [injection E as <-; apply N; now exists w|discriminate]. }
    destruct e as [w|s st|ty s|]; [now destruct (NW w)| | |now destruct U1]; (destruct (t_teardown m) as [e'|] eqn:TE; [destruct e'; try (now destruct U2)|]); cbn; (split; [reflexivity|]); (split; [reflexivity|]);
      first [exact (with_teardown m _ TE)|exact (with_setup m _ TE SE)].
  - destruct (t_teardown m) as [e'|] eqn:TE.
    + assert (X : run_teardown (Some e') (run_body b (new_mres (t_name m))) = Ok (set_teardown_exception e' (run_body b (new_mres (t_name m))))) by (destruct e'; try reflexivity; now destruct U2). rewrite X. cbn [snd].
      destruct b as [[w|s st|ty s|]|]; cbn; (split; [reflexivity|]); (split; [reflexivity|]); exact (with_teardown m _ TE).
    + destruct b as [[w|s st|ty s|]|]; cbn.
      * now destruct (NB eq_refl w).
      * split; [reflexivity|]. split; [reflexivity|]. pose proof (with_failure m s st TE SE BE) as X. destruct s; exact X.
      * split; [reflexivity|]. split; [reflexivity|]. pose proof (with_exception m ty s TE SE BE) as X. destruct s; exact X.
      * split; [reflexivity|]. split; [reflexivity|]. exact (with_other m TE SE BE).
      * exfalso. destruct G as [(e & E & _)|(_ & [(e & E & _)|E])]; [discriminate|discriminate|now apply E].
Qed.
Lemma ran_elapsed c m t : c_setup c = None -> (ran c m -> elapsed fnmatch allow block (c_name c) m t = t) /\ (~ ran c m -> elapsed fnmatch allow block (c_name c) m t = 0).
Proof.
  intros SC. unfold elapsed, ran. destruct (should_run fnmatch allow block (full_name (c_name c) (t_name m))) eqn:R; cbn [negb].
  - apply should_run_picked in R. destruct (t_body m) as [b|] eqn:BE; [|split; [intros (_ & _ & N & _); now destruct N|reflexivity]].
    destruct (t_setup m) as [[w|s st|ty s|]|]; (split; [try reflexivity|try reflexivity]);
      try (intros (_ & _ & _ & N); now destruct (N w)); intros N; exfalso; apply N; (split; [exact SC|]); (split; [exact R|]); split; discriminate.
  - split; [|reflexivity]. intros (_ & P & _). apply should_run_picked in P. congruence.
Qed.
Lemma times_nth c k l : forall i j m, nth_error l j = Some m -> nth_error (times fnmatch allow block took c k i l) j = Some (elapsed fnmatch allow block c m (took k (i + j)%nat)).
Proof.
  induction l as [|a l IH]; intros i [|j] m E; try discriminate; cbn [nth_error] in E.
  - injection E as ->. cbn. now rewrite Nat.add_0_r.
  - specialize (IH (S i) j m E). unfold times in *. cbn [List.length seq combine map nth_error]. rewrite IH. now rewrite <- plus_n_Sm.
Qed.
Theorem C213_lines_partial l : Forall usual_hooks l ->
  by_case fnmatch allow block case_part 0 l (fst (show_all fnmatch allow block took (verbose tty secs) 0 l)).
Proof.
  intros F. destruct (by_case_part fnmatch allow block took case_part (verbose tty secs) l F) with (k := 0%nat) as (t & rs & E & _ & B); [intros r K; cbn; now rewrite K| |now rewrite E].
  intros k c C ST. rewrite Forall_forall in F. pose proof (F c C) as H. pose proof H as (_ & _ & FM). rewrite Forall_forall in FM.
  assert (BO : forall s, color_fg tty bright s = bold tty s) by (intros s; destruct tty; reflexivity).
  pose proof (verdict_ok c H ST) as V. cbv zeta in V. set (v := if c_success (cr c) then _ else _) in V.
  assert (KN : k_name (cr c) = c_name c /\ k_skipped (cr c) = false). { destruct (cr_cases fnmatch allow block c H) as [(N & _)|[(_ & _ & X)|[(_ & w & _ & X)|(_ & e & _ & _ & X)]]]; [contradiction|rewrite X; split; reflexivity..]. }
  destruct KN as (KN & KS).
  assert (LINE : forall ts, on_case_end (verbose tty secs) (cr c, ts) = timed_line (bold tty (c_name c)) v (case_ns (cr c, ts))). { intros ts. cbn [verbose on_case_end fst]. rewrite KN, KS, BO. reflexivity. }
  destruct (show_case_ok fnmatch allow block took (verbose tty secs) k c H) as [(N & _)|[(_ & SE & t0 & Q & BT)|[(_ & w & SE & t0 & Q & BT)|(_ & BS & Q)]]]; [contradiction|..]; rewrite Q; cbn [fst]; rewrite LINE; cbn [verbose on_begin]; rewrite BO.
  - exists t0, v, (case_ns (cr c, times fnmatch allow block took (c_name c) k 0 (c_methods c))). split; [rewrite <- !app_assoc; reflexivity|]. split; [|exact V]. right. split; [intros (e & X & _); congruence|]. split.
    + eapply by_test_impl; [exact BT|]. cbv beta. intros j m x M ->. destruct (FM m M) as (U1 & U2). destruct (fate_mr fnmatch allow block c m U1 U2 SE) as (f & HF & R). exists f. split; [exact HF|]. cbn [verbose on_end].
      pose proof (mr_name fnmatch allow block (c_name c) m U1 U2) as NM. destruct f as [| |why]; destruct R as (R1 & R2); rewrite R1, NM.
      * unfold m_success. rewrite R2. cbn [is_empty]. inversion HF as [| | | | |_ PK (S1 & B1 & T1)|]; subst.
        assert (X : elapsed fnmatch allow block (c_name c) m (took k j) = took k j) by (apply ran_elapsed; [exact SE|split; [exact SE|split; [exact PK|split; congruence]]]). rewrite X. unfold timed_line. rewrite <- !app_assoc. destruct tty; reflexivity.
      * inversion HF as [| | | | | |_ PK G NB]; subst. destruct (mr_failed c m U1 U2 PK G NB) as (T1 & S1 & W). exists (r_error (mr (c_name c) m)). split; [exact W|].
        assert (MS : m_success (mr (c_name c) m) = false) by (unfold m_success; destruct (r_error _); [now destruct R2|reflexivity]). rewrite MS, details_ok, NM, T1, S1.
        assert (X : elapsed fnmatch allow block (c_name c) m (took k j) = took k j). { apply ran_elapsed; [exact SE|]. split; [exact SE|]. split; [exact PK|]. destruct G as (G1 & G2). split; [exact G1|]. intros w W'. destruct G2 as [(e & E1 & E2)|(E1 & _)]; [apply E2; exists w; congruence|congruence]. }
        rewrite X. unfold timed_line. rewrite <- !app_assoc. destruct tty; reflexivity.
      * rewrite R2. destruct why; cbn [is_empty]; rewrite <- !app_assoc; reflexivity.
    + exists (times fnmatch allow block took (c_name c) k 0 (c_methods c)). split.
      * split; [apply times_length|]. intros j m M. rewrite (times_nth _ _ _ _ _ _ M). cbn [Nat.add]. destruct (ran_elapsed c m (took k j) SE) as (X1 & X2). split; intros Y; f_equal; auto.
      * apply ns_total. cbn [fst snd]. rewrite times_length. destruct (cr_cases fnmatch allow block c H) as [(N & _)|[(_ & _ & X)|[(_ & w & X & _)|(_ & e & X & _)]]]; [contradiction|rewrite X; cbn; now rewrite map_length|congruence..].
  - exists t0, v, (case_ns (cr c, map (fun _ => 0) (c_methods c))). split; [rewrite <- !app_assoc; reflexivity|]. split; [|exact V]. right. split; [intros (e & X & NK); apply NK; exists w; congruence|]. split.
    + eapply by_test_impl; [exact BT|]. cbv beta. intros j m x M ->. exists (Skipped w). split; [now apply fate_case|]. cbn [verbose on_end set_skipped new_mres r_skipped r_reason r_name]. destruct w; cbn [is_empty]; rewrite <- !app_assoc; reflexivity.
    + exists (map (fun _ => 0) (c_methods c)). split.
      * split; [apply map_length|]. intros j m M. split; [intros (X & _); congruence|]. intros _. now rewrite nth_error_map, M.
      * apply ns_total. cbn [fst snd]. rewrite map_length. destruct (cr_cases fnmatch allow block c H) as [(N & _)|[(_ & X & _)|[(_ & w' & _ & X)|(_ & e & X & NK & _)]]]; [contradiction|congruence|rewrite X; cbn; now rewrite map_length|]. exfalso. apply NK. exists w. congruence.
  - exists [], v, 0. split; [rewrite <- !app_assoc; cbn [app]; unfold case_ns, tests_of; cbn [fst snd]; rewrite combine_nil; reflexivity|]. split; [|exact V]. left. auto.
Qed.
End Verbose.
Print Assumptions C213_lines_partial.
(** A test that asks to be skipped and whose cleaning up fails: its own line says that it is
    skipped, the one of its test case says that this has failed, and the program that it has
    succeeded. *)
Theorem C213_refuted_skipped fnmatch env tty secs took sc st c a m why e : let P := picked fnmatch (only env) (except env) in
  c_setup c = None -> c_teardown c = None -> c_methods c = [a; m] -> P c a -> P c m -> passes a ->
  t_setup m = None -> t_body m = Some (Some (XSkip why)) -> t_teardown m = Some e -> e <> XOther -> env (codes "TEST_VERBOSE") <> None ->
  exists after, main_text fnmatch env tty secs took sc st [c] =
    (bold tty (c_name c) ++ codes ": setup" ++ [10] ++
     timed_line secs (c_name c ++ codes "." ++ t_name a) (in_green tty tick) (took 0%nat 0%nat) ++
     (c_name c ++ codes "." ++ t_name m ++ codes ": skipped" ++ match why with [] => codes "." | _ => codes ": " ++ why end ++ [10]) ++
     timed_line secs (bold tty (c_name c)) (in_red tty (codes "failed")) ((took 0%nat 0%nat + took 0%nat 1%nat) mod 2 ^ 64) ++ after, Ok 0).
Proof.
  intros P SC TC MC PA PM (S1 & B1 & T1) SM BM TM NO EV. subst P. apply should_run_picked in PA. apply should_run_picked in PM.
  assert (O : pattern env "TEST_WHITELIST" "TEST_ONLY" = only env) by (unfold pattern, only; destruct (env _); reflexivity). assert (X : pattern env "TEST_BLACKLIST" "TEST_EXCEPT" = except env) by (unfold pattern, except; destruct (env _); reflexivity).
  unfold main_text. rewrite O, X. set (A := only env) in *. set (B := except env) in *. destruct (env (codes "TEST_VERBOSE")) as [v|]; [|now destruct EV].
  cbn [show_all]. unfold show_case, case_should_run. rewrite MC. cbn [existsb]. rewrite PA. cbn [orb negb]. rewrite SC. cbn [show_methods]. unfold run_test. rewrite PA, PM, S1, B1, T1, SM, BM. cbn [negb run_body run_teardown snd]. rewrite TM.
  assert (RT : run_teardown (Some e) (set_skipped why (new_mres (t_name m))) = Ok (set_teardown_exception e (set_skipped why (new_mres (t_name m))))) by (destruct e; try reflexivity; now destruct NO). rewrite RT. cbn [snd bind].
  unfold elapsed. rewrite PA, PM, S1, B1, SM, BM. cbn [negb]. unfold show_finish, finish. rewrite TC. cbn [snd map fst]. cbn [verbose on_begin on_end on_case_end r_skipped r_reason r_name set_teardown_exception set_skipped set_error new_mres k_skipped k_name fst].
  unfold m_success. cbn [r_error is_empty new_mres]. eexists.
  assert (BO : forall s, color_fg tty bright s = bold tty s) by (intros s; destruct tty; reflexivity). rewrite !BO. f_equal.
  match goal with |- context [c_success ?x] => assert (CS : c_success x = false) by reflexivity end. rewrite CS.
  match goal with |- context [case_ns ?x] => assert (NS : case_ns x = (took 0%nat 0%nat + took 0%nat 1%nat) mod 2 ^ 64) by (unfold case_ns, tests_of; cbn [fst snd k_methods combine fold_left]; rewrite Z.add_0_l, Zplus_mod_idemp_l; reflexivity) end. rewrite NS.
  unfold timed_line. rewrite <- !app_assoc. f_equal. f_equal. f_equal. f_equal. f_equal. f_equal. f_equal.
  assert (G : color_fg tty (Z.lor bright green) mark_success = in_green tty tick) by (destruct tty; reflexivity). rewrite G. f_equal. f_equal. f_equal. f_equal. f_equal.
  assert (R : color_fg tty (Z.lor bright red) (codes "failed") = in_red tty (codes "failed")) by (destruct tty; reflexivity). rewrite R.
  destruct why as [|z why]; cbn [is_empty]; rewrite <- !app_assoc; reflexivity.
Qed.
Print Assumptions C213_refuted_skipped.

(** ** C214: the report *)
Definition item_text (i : said) : str := match i with OfCase c t => c ++ codes ": " ++ t ++ [10] | OfTest c m ty t st => details c m ty t st end.
(** A title comes before the first failure, and an empty line before later tests. *)
Definition report_layout (tty : bool) (l : list said) : str :=
  match l with
  | [] => []
  | i :: l' => [10] ++ codes " * " ++ bold tty (codes "Test failures") ++ [10; 10] ++ item_text i ++
               flat_map (fun i => match i with OfTest _ _ _ _ _ => [10] ++ item_text i | OfCase _ _ => item_text i end) l'
  end.
Definition lay (tty printed : bool) (l : list said) : str :=
  if printed then flat_map (fun i => match i with OfTest _ _ _ _ _ => [10] ++ item_text i | OfCase _ _ => item_text i end) l else report_layout tty l.
Lemma lay_app tty p a b : lay tty p (a ++ b) = lay tty p a ++ lay tty (p || negb (List.length a =? 0)%nat) b.
Proof.
  unfold lay. destruct p; cbn [orb]; [apply flat_map_app|]. destruct a as [|i a]; [reflexivity|]. cbn [List.length Nat.eqb negb app report_layout]. rewrite flat_map_app. do 4 (cbn [app]; rewrite <- ?app_assoc). reflexivity.
Qed.
Lemma bold_title tty p : maybe_print (color_fg tty bright) "Test failures" p = if p then [] else [10] ++ codes " * " ++ bold tty (codes "Test failures") ++ [10; 10].
Proof. destruct p, tty; reflexivity. Qed.
Definition test_items (c : str) (l : list mres) : list said := flat_map (fun t => if r_skipped t || m_success t then [] else [OfTest c (r_name t) (r_type t) (r_error t) (r_stack t)]) l.
Lemma results_methods_lay tty c l : forall p, results_methods tty c p l = (lay tty p (test_items c l), p || negb (List.length (test_items c l) =? 0)%nat).
Proof.
  induction l as [|r l IH]; intros p; cbn [results_methods test_items flat_map].
  - destruct p; reflexivity.
  - fold (test_items c l). destruct (r_skipped r || m_success r); [apply IH|]. rewrite IH. cbn [app List.length Nat.eqb negb orb]. f_equal; [|now rewrite orb_true_r].
    rewrite details_ok. unfold or_separator, lay. rewrite bold_title. destruct p; cbn [app report_layout flat_map item_text]; do 4 (cbn [app]; rewrite <- ?app_assoc); reflexivity.
Qed.
Lemma results_lay tty rs : forall p, results_text tty p rs = lay tty p (print_results rs).
Proof.
  induction rs as [|r rs IH]; intros p; [destruct p; reflexivity|]. cbn [results_text print_results flat_map]. fold (print_results rs). unfold report_case. fold (test_items (k_name r) (k_methods r)).
  destruct (is_empty (k_setup r)); cbn [negb].
  - rewrite results_methods_lay. rewrite <- app_assoc, !lay_app. destruct (is_empty (k_teardown r)) eqn:T; cbn [negb List.length Nat.eqb].
    + rewrite !orb_false_r. rewrite IH. unfold lay at 1. destruct p; cbn; reflexivity.
    + rewrite !orb_true_r. cbn [orb]. rewrite IH, bold_title. destruct p; unfold lay at 3; cbn [app report_layout flat_map item_text]; rewrite ?app_nil_r; do 4 (cbn [app]; rewrite <- ?app_assoc); reflexivity.
  - rewrite lay_app, bold_title, IH. cbn [List.length Nat.eqb negb]. rewrite orb_true_r. destruct p; unfold lay at 2; cbn [app report_layout flat_map item_text]; rewrite ?app_nil_r; do 4 (cbn [app]; rewrite <- ?app_assoc); reflexivity.
Qed.
(** All that is written: the lines of the run, the failures that are reported, the
    statistics if asked for, and the summary. *)
Theorem C214_output fnmatch env tty secs took sc st l : Forall usual_hooks l ->
  let A := only env in let B := except env in
  exists code rep run rs, test_main fnmatch env l = Ok (code, rep) /\ map fst rs = map (cr fnmatch A B) l /\
  main_text fnmatch env tty secs took sc st l =
    (run ++ report_layout tty rep ++
     match env (codes "TEST_VERBOSE") with Some _ => print_stats (bold tty) secs sc st rs | None => [] end ++
     print_summary (bold tty) (in_red tty) (in_green tty) (count_all (map fst rs)), Ok code) /\
  match env (codes "TEST_VERBOSE") with
  | Some _ => by_case fnmatch A B (case_part fnmatch A B tty secs took) 0 l run
  | None => by_case fnmatch A B (fun _ => mark_line fnmatch A B tty) 0 l run
  end.
Proof.
  intros F A B. eexists _, _. assert (M := main_ok fnmatch env l F). cbv zeta in M. unfold main_text.
  assert (O : pattern env "TEST_WHITELIST" "TEST_ONLY" = A) by (unfold pattern, A, only; destruct (env _); reflexivity). assert (X : pattern env "TEST_BLACKLIST" "TEST_EXCEPT" = B) by (unfold pattern, B, except; destruct (env _); reflexivity). rewrite O, X.
  assert (BO : color_fg tty bright = bold tty) by (destruct tty; reflexivity). assert (G : color_fg tty (Z.lor bright green) = in_green tty) by (destruct tty; reflexivity). assert (R : color_fg tty (Z.lor bright red) = in_red tty) by (destruct tty; reflexivity). rewrite BO, G, R.
  destruct (env (codes "TEST_VERBOSE")) as [v|].
  - pose proof (C213_lines_partial fnmatch A B tty secs took l F) as L.
    destruct (by_case_part fnmatch A B took (fun _ _ _ => True) (verbose tty secs) l F) with (k := 0%nat) as (t & rs & E & RS & _); [intros r K; cbn; now rewrite K|auto|]. rewrite E in *. cbn [fst] in L.
    exists t, rs. split; [exact M|]. split; [exact RS|]. split; [|exact L]. rewrite RS, results_lay. reflexivity.
  - pose proof (C212_marks_partial fnmatch A B tty took l F) as L.
    destruct (by_case_part fnmatch A B took (fun _ _ _ => True) (simple tty) l F) with (k := 0%nat) as (t & rs & E & RS & _); [intros r K; cbn; now rewrite K|auto|]. rewrite E in *. cbn [fst] in L.
    exists t, rs. split; [exact M|]. split; [exact RS|]. split; [|exact L]. rewrite RS, results_lay. reflexivity.
Qed.
Print Assumptions C214_output.

(** ** Cases *)
Definition ex_tests : list tcase :=
  [mk_tcase (codes "a") None [ok_test "x"; mk_method (codes "y") None (Some (Some (XFail (codes "no") [(codes "t.cc", 12, codes "f()", [])]))) None; mk_method (codes "z") None (Some (Some (XSkip (codes "later")))) None] None;
   mk_tcase (codes "b") (Some (XStd (codes "E") (codes "bad"))) [ok_test "x"] None;
   mk_tcase (codes "c") (Some (XSkip (codes "old"))) [ok_test "x"; ok_test "y"] (Some (XStd (codes "E") (codes "left")))].
Example C212_case : Forall usual_hooks ex_tests /\
  main_text (fun _ _ => 0) (fun _ => None) false print (fun _ _ => 5) (fun l => l) (fun l => l) ex_tests =
  (codes "a: ." ++ cross ++ codes "s" ++ [10] ++ codes "b: " ++ [10] ++ codes "c: ss" ++ [10] ++
   [10] ++ codes " * Test failures" ++ [10; 10] ++ codes "a.y: no" ++ [10] ++ codes "  t.cc:12:f()" ++ [10] ++
   codes "b: test case setup method threw an exception: bad" ++ [10] ++ codes "c: test case teardown method threw an exception: left" ++ [10] ++
   [10] ++ codes " * Result summary" ++ [10; 10] ++ codes "2/3 test cases had issues initializing or cleaning up" ++ [10] ++ codes "1/2 tests failed" ++ [10] ++ codes "3 tests skipped" ++ [10] ++ codes "1 tests succeeded" ++ [10], Ok 1).
Proof. split; [repeat constructor; cbn; discriminate|reflexivity]. Qed.
Example C213_case : fst (show_all (fun _ _ => 0) [] [] (fun _ _ => 5) (verbose true print) 0 [mk_tcase (codes "a") None [ok_test "x"; mk_method (codes "y") None (Some (Some (XStd (codes "E") (codes "bad")))) None] None]) =
  [27] ++ codes "[1ma" ++ [27] ++ codes "[0m: setup" ++ [10] ++
  codes "a.x: " ++ [27] ++ codes "[1;32m" ++ tick ++ [27] ++ codes "[0m (5ns)" ++ [10] ++
  codes "a.y: " ++ [27] ++ codes "[1;31m" ++ cross ++ [27] ++ codes "[0m (5ns)" ++ [10] ++ codes "a.y:[E] bad" ++ [10] ++
  [27] ++ codes "[1ma" ++ [27] ++ codes "[0m: " ++ [27] ++ codes "[1;31mfailed" ++ [27] ++ codes "[0m (10ns)" ++ [10].
Proof. reflexivity. Qed.
