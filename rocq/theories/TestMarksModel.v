(** msat/utils/testrunner.cc:26-35, 66-198, 306-331, msat/utils/tests.cc:31-44, 596-710 and
    msat/utils/tests-main.cc: what a run of the unit tests writes. Texts have no zero bytes;
    what the tests themselves write is left out. *)
From Verif Require Import Base IniModel StringModel GribModel TermModel TestRunModel TestStatsModel.
Open Scope string_scope.
Open Scope list_scope.
Open Scope Z_scope.

(** ** Details of failures *)
(** TestStackFrame::format, tests.cc:31-44 *)
Definition format_frame (f : frame) : str :=
  let '(file, line, call, info) := f in
  file ++ codes ":" ++ print line ++ codes ":" ++ call ++ (if is_empty info then [] else codes " [" ++ info ++ codes "]") ++ [10].
(** print_failure_details, testrunner.cc:26-35: a null error_stack is an empty one. *)
Definition failure_details (c : str) (r : mres) : str :=
  (if is_empty (r_type r) then c ++ codes "." ++ r_name r ++ codes ": " ++ r_error r ++ [10]
   else c ++ codes "." ++ r_name r ++ codes ":[" ++ r_type r ++ codes "] " ++ r_error r ++ [10]) ++
  flat_map (fun f => codes "  " ++ format_frame f) (r_stack r).

(** ** The controllers *)
(** testrunner.cc:71-72, in UTF-8 *)
Definition mark_success : str := [226; 156; 148].
Definition mark_fail : str := [226; 156; 152].
(** term.cc:10-11 *)
Definition red : Z := 2.
Definition green : Z := 3.

Section Show.
Variable fnmatch : str -> str -> Z.
Variables allow block : str.
(** [tty] is whether stderr is a terminal; [secs] is what "%.2fs" writes for a number of
    nanoseconds divided by 10^9. *)
Variable tty : bool.
Variable secs : Z -> str.
(** What the timer of the i-th test of the k-th test case says, tests.cc:665 and 706. *)
Variable took : nat -> nat -> Z.

(** What the three functions of a controller that write do: the start of a test case that
    is run, its end and the end of a test. *)
Record controller := mk_controller { on_begin : str -> str; on_case_end : timed -> str; on_end : str -> mres -> Z -> str }.
(** SimpleTestController, testrunner.cc:80-117 *)
Definition simple : controller := mk_controller
  (fun c => c ++ codes ": ")
  (fun r => if k_skipped (fst r) then [] else [10])
  (fun _ r _ => if r_skipped r then codes "s" else if m_success r then codes "."
                else set_color tty (Z.lor bright red) 0 ++ mark_fail ++ restore tty).
(** VerboseTestController, testrunner.cc:135-198 *)
Definition verbose : controller := mk_controller
  (fun c => color_fg tty bright c ++ codes ": setup" ++ [10])
  (fun r => if k_skipped (fst r) then [] else
            color_fg tty bright (k_name (fst r)) ++ codes ": " ++
            (if c_success (fst r) then color_fg tty (Z.lor bright green) (codes "success") else color_fg tty (Z.lor bright red) (codes "failed")) ++
            codes " (" ++ format_elapsed secs (case_ns r) ++ codes ")" ++ [10])
  (fun c r ns =>
     let name := c ++ codes "." ++ r_name r in
     if r_skipped r then
       if is_empty (r_reason r) then name ++ codes ": skipped." ++ [10] else name ++ codes ": skipped: " ++ r_reason r ++ [10]
     else if m_success r then name ++ codes ": " ++ color_fg tty (Z.lor bright green) mark_success ++ codes " (" ++ format_elapsed secs ns ++ codes ")" ++ [10]
     else name ++ codes ": " ++ color_fg tty (Z.lor bright red) mark_fail ++ codes " (" ++ format_elapsed secs ns ++ codes ")" ++ [10] ++ failure_details c r).

(** ** The run *)
Variable ctl : controller.
(** elapsed_ns of a test: it is set at the end of run_test, tests.cc:706, and stays zero
    when run_test returns before. *)
Definition elapsed (c : str) (m : method) (t : Z) : Z :=
  if negb (should_run fnmatch allow block (full_name c (t_name m))) then 0
  else match t_body m, t_setup m with None, _ => 0 | Some _, Some (XSkip _) => 0 | Some _, _ => t end.
(** tests.cc:631-634, the tests from the [i]-th on *)
Fixpoint show_methods (c : str) (k i : nat) (l : list method) : str * outcome (list (mres * Z)) :=
  match l with
  | [] => ([], Ok [])
  | m :: l' =>
      match snd (run_test fnmatch allow block c m) with
      | Ok r => let ns := elapsed c m (took k i) in
                let '(s, y) := show_methods c k (S i) l' in (on_end ctl c r ns ++ s, let! rs := y in Ok ((r, ns) :: rs))
      | Throw => ([], Throw) | Terminate => ([], Terminate) | UB => ([], UB) | Loop => ([], Loop)
      end
  end.
(** tests.cc:636-643 *)
Definition show_finish (c : tcase) (rs : list (mres * Z)) : str * outcome timed :=
  match snd (finish c [] (map fst rs)) with
  | Ok r => (on_case_end ctl (r, map snd rs), Ok (r, map snd rs))
  | Throw => ([], Throw) | Terminate => ([], Terminate) | UB => ([], UB) | Loop => ([], Loop)
  end.
(** TestCase::run_tests, tests.cc:596-644, of the [k]-th test case *)
Definition show_case (k : nat) (c : tcase) : str * outcome timed :=
  let n := c_name c in
  if negb (case_should_run fnmatch allow block c) then let r := (mk_cres n [] [] [] true, []) in (on_case_end ctl r, Ok r)
  else match c_setup c with
  | Some (XSkip why) =>
      let rs := map (fun r => (r, 0)) (snd (skip_methods n why (c_methods c))) in
      let '(s, x) := show_finish c rs in (on_begin ctl n ++ flat_map (fun r => on_end ctl n (fst r) (snd r)) rs ++ s, x)
  | Some XOther => (on_begin ctl n, Terminate)
  | Some e => let r := (mk_cres n [] (setup_text e) [] false, []) in (on_begin ctl n ++ on_case_end ctl r, Ok r)
  | None => let '(s, y) := show_methods n k 0 (c_methods c) in
            match y with
            | Ok rs => let '(s', x) := show_finish c rs in (on_begin ctl n ++ s ++ s', x)
            | Throw => (on_begin ctl n ++ s, Throw) | Terminate => (on_begin ctl n ++ s, Terminate)
            | UB => (on_begin ctl n ++ s, UB) | Loop => (on_begin ctl n ++ s, Loop)
            end
  end.
(** TestRegistry::run_tests, testrunner.cc:228-238, from the [k]-th test case on *)
Fixpoint show_all (k : nat) (l : list tcase) : str * outcome (list timed) :=
  match l with
  | [] => ([], Ok [])
  | c :: l' =>
      let '(s, x) := show_case k c in
      match x with
      | Ok r => let '(s', y) := show_all (S k) l' in (s ++ s', let! rs := y in Ok (r :: rs))
      | Throw => (s, Throw) | Terminate => (s, Terminate) | UB => (s, UB) | Loop => (s, Loop)
      end
  end.
End Show.

(** ** The report *)
Section Report.
Variable tty : bool.
(** print_results, testrunner.cc:306-331, the tests of a test case: the flag is whether the
    title is written. *)
Fixpoint results_methods (c : str) (printed : bool) (l : list mres) : str * bool :=
  match l with
  | [] => ([], printed)
  | r :: l' =>
      if r_skipped r || m_success r then results_methods c printed l'
      else let '(s, p) := results_methods c true l' in (or_separator (color_fg tty bright) "Test failures" printed ++ failure_details c r ++ s, p)
  end.
Fixpoint results_text (printed : bool) (l : list cres) : str :=
  match l with
  | [] => []
  | r :: l' =>
      if negb (is_empty (k_setup r)) then maybe_print (color_fg tty bright) "Test failures" printed ++ k_name r ++ codes ": " ++ k_setup r ++ [10] ++ results_text true l'
      else
        let t := negb (is_empty (k_teardown r)) in
        let '(s, p) := results_methods (k_name r) (printed || t) (k_methods r) in
        (if t then maybe_print (color_fg tty bright) "Test failures" printed ++ k_name r ++ codes ": " ++ k_teardown r ++ [10] else []) ++ s ++ results_text p l'
  end.
End Report.

(** main, tests-main.cc:14-50: what is written to stderr and the exit status. *)
Definition main_text (fnmatch : str -> str -> Z) (getenv : str -> option str) (tty : bool) (secs : Z -> str) (took : nat -> nat -> Z)
    (sort_cases : list timed -> list timed) (sort_tests : list (str * (mres * Z)) -> list (str * (mres * Z))) (l : list tcase) : str * outcome Z :=
  let v := match getenv (codes "TEST_VERBOSE") with Some _ => true | None => false end in
  let ctl := if v then verbose tty secs else simple tty in
  let '(s, x) := show_all fnmatch (pattern getenv "TEST_WHITELIST" "TEST_ONLY") (pattern getenv "TEST_BLACKLIST" "TEST_EXCEPT") took ctl 0 l in
  match x with
  | Ok rs =>
      let b := color_fg tty bright in
      (s ++ results_text tty false (map fst rs) ++
       (if v then print_stats b secs sort_cases sort_tests rs else []) ++
       print_summary b (color_fg tty (Z.lor bright red)) (color_fg tty (Z.lor bright green)) (count_all (map fst rs)),
       Ok (if success (count_all (map fst rs)) then 0 else 1))
  | Throw => (s, Throw) | Terminate => (s, Terminate) | UB => (s, UB) | Loop => (s, Loop)
  end.
