(** msat/utils/{tests,testrunner}.{h,cc} and msat/utils/tests-main.cc: the framework of the
    unit tests. The hooks of a test case are given by what they throw for each test. Times
    and their statistics, the colours of a terminal and the handlers of signals are left
    out. *)
From Verif Require Import Base IniModel StringModel.
Open Scope list_scope.

(** ** Exceptions *)
(** A frame of the stack of a failure, tests.h:67-87: file, line, call, local information. *)
Definition frame : Type := str * Z * str * str.
(** TestSkipped (tests.h:136-142) and TestFailed (tests.h:104-131), which are std::exception
    too; another std::exception, with the name of its type and its text; anything else. *)
Inductive exn := XSkip (reason : str) | XFail (text : str) (stack : list frame) | XStd (type text : str) | XOther.
(** what(): TestSkipped has the one of std::exception, of libstdc++. *)
Definition what (e : exn) : str :=
  match e with XSkip _ => codes "std::exception" | XFail s _ => s | XStd _ s => s | XOther => [] end.
Definition type_name (e : exn) : str :=
  match e with XSkip _ => codes "N4msat5tests11TestSkippedE" | XFail _ _ => codes "N4msat5tests10TestFailedE" | XStd t _ => t | XOther => [] end.

(** wassert and wcallchecked, tests.h:445-453 and 488-496, on code that throws [x]. *)
Definition wassert (f : frame) (x : option exn) : option exn :=
  match x with
  | None => None
  | Some (XFail s st) => Some (XFail s (st ++ [f]))
  | Some XOther => Some XOther
  | Some e => Some (XFail (type_name e ++ codes ": " ++ what e) [f])
  end.
(** wfail_test, tests.h:501 *)
Definition wfail_test (f : frame) (msg : str) : option exn := wassert f (Some (XFail msg [])).
(** wassert_throws, tests.h:466-479: [is_exc] is whether the exception is of the class
    asked for; [fail] and [other] are the frames of the two wfail_test. [inl] is the
    exception returned. A class that is not TestFailed or one of its bases never gets a
    TestFailed, which is thrown again. *)
Definition wassert_throws (is_exc : exn -> bool) (fail other : frame) (m1 : str) (m2 : str -> str) (x : option exn) : exn + exn :=
  match x with
  | None => inr (match wfail_test fail m1 with Some e => e | None => XOther end)
  | Some (XFail s st) => inr (XFail s st)
  | Some e => if is_exc e then inl e
              else match e with
                   | XOther => inr XOther
                   | _ => inr (match wfail_test other (m2 (type_name e)) with Some e' => e' | None => XOther end)
                   end
  end.

(** ** Results *)
(** TestMethodResult, testrunner.h:26-91 *)
Record mres := mk_mres { r_name : str; r_error : str; r_stack : list frame; r_type : str; r_skipped : bool; r_reason : str }.
Definition new_mres (name : str) : mres := mk_mres name [] [] [] false [].
Definition is_empty (s : str) : bool := match s with [] => true | _ => false end.
(** is_success, testrunner.h:85-88 *)
Definition m_success (r : mres) : bool := is_empty (r_error r).
Definition set_error (s : str) (r : mres) : mres := mk_mres (r_name r) s (r_stack r) (r_type r) (r_skipped r) (r_reason r).
Definition set_skipped (reason : str) (r : mres) : mres := mk_mres (r_name r) (r_error r) (r_stack r) (r_type r) true reason.
(** set_failed, testrunner.cc:18-24 *)
Definition set_failed (s : str) (st : list frame) (r : mres) : mres :=
  mk_mres (r_name r) (if is_empty s then codes "test failed with an empty error message" else s) st (r_type r) (r_skipped r) (r_reason r).
(** set_exception, testrunner.h:58-64 *)
Definition set_exception (t s : str) (r : mres) : mres :=
  mk_mres (r_name r) (if is_empty s then codes "test threw an exception with an empty error message" else s) (r_stack r) t (r_skipped r) (r_reason r).
(** testrunner.h:66-83 *)
Definition set_unknown_exception : mres -> mres := set_error (codes "unknown exception caught").
Definition set_setup_exception (e : exn) : mres -> mres := set_error (codes "[setup failed: " ++ what e ++ codes "]").
Definition set_teardown_exception (e : exn) : mres -> mres := set_error (codes "[teardown failed: " ++ what e ++ codes "]").
(** TestCaseResult, testrunner.h:96-149 *)
Record cres := mk_cres { k_name : str; k_methods : list mres; k_setup : str; k_teardown : str; k_skipped : bool }.
Definition setup_text (e : exn) : str := codes "test case setup method threw an exception: " ++ what e.
Definition teardown_text (e : exn) : str := codes "test case teardown method threw an exception: " ++ what e.
(** is_success, testrunner.h:139-146 *)
Definition c_success (r : cres) : bool := is_empty (k_setup r) && is_empty (k_teardown r) && forallb m_success (k_methods r).

(** ** Tests *)
(** TestMethod, tests.h:514-534, with what method_setup, the function and method_teardown
    throw; [t_body] is [None] for a test without a function. *)
Record method := mk_method { t_name : str; t_setup : option exn; t_body : option (option exn); t_teardown : option exn }.
(** TestCase, tests.h:541-645 *)
Record tcase := mk_tcase { c_name : str; c_setup : option exn; c_methods : list method; c_teardown : option exn }.
(** What happens, in order. *)
Inductive event := CaseBegin (c : str) | CaseEnd (c : str) | CaseSetup (c : str) | CaseTeardown (c : str)
  | Begin (c m : str) | End (c m : str) | Setup (c m : str) | Body (c m : str) | Teardown (c m : str).

Section Run.
(** fnmatch of a pattern and a name: 0, FNM_NOMATCH, which is 1, or another value. *)
Variable fnmatch : str -> str -> Z.
Variables allow block : str.
(** test_method_should_run, testrunner.cc:55-64 *)
Definition should_run (name : str) : bool :=
  if negb (is_empty allow) && (fnmatch allow name =? 1) then false
  else if negb (is_empty block) && negb (fnmatch block name =? 1) then false
  else true.
Definition full_name (c m : str) : str := c ++ [46] ++ m.
(** The function of a test, tests.cc:680-698 *)
Definition run_body (x : option exn) (r : mres) : mres :=
  match x with
  | None => r
  | Some (XSkip why) => set_skipped why r
  | Some (XFail s st) => set_failed s st r
  | Some (XStd t s) => set_exception t s r
  | Some XOther => set_unknown_exception r
  end.
(** method_teardown, tests.cc:700-704 *)
Definition run_teardown (x : option exn) (r : mres) : outcome mres :=
  match x with None => Ok r | Some XOther => Terminate | Some e => Ok (set_teardown_exception e r) end.
(** run_test, tests.cc:646-710. An exception that nobody catches leaves main. *)
Definition run_test (c : str) (m : method) : list event * outcome mres :=
  let n := t_name m in
  let r := new_mres n in
  if negb (should_run (full_name c n)) then ([Begin c n; End c n], Ok (set_skipped [] r))
  else match t_body m with
  | None => ([Begin c n; End c n], Ok (set_skipped [] r))
  | Some body =>
      match t_setup m with
      | Some (XSkip why) => ([Begin c n; Setup c n; End c n], Ok (set_skipped why r))
      | Some XOther => ([Begin c n; Setup c n], Terminate)
      | Some e => match run_teardown (t_teardown m) (set_setup_exception e r) with
                  | Ok r' => ([Begin c n; Setup c n; Teardown c n; End c n], Ok r')
                  | x => ([Begin c n; Setup c n; Teardown c n], x)
                  end
      | None => match run_teardown (t_teardown m) (run_body body r) with
                | Ok r' => ([Begin c n; Setup c n; Body c n; Teardown c n; End c n], Ok r')
                | x => ([Begin c n; Setup c n; Body c n; Teardown c n], x)
                end
      end
  end.
(** The loop over the tests, tests.cc:631-634 *)
Fixpoint run_methods (c : str) (l : list method) : list event * outcome (list mres) :=
  match l with
  | [] => ([], Ok [])
  | m :: l' =>
      let '(ev, x) := run_test c m in
      match x with
      | Ok r => let '(ev', y) := run_methods c l' in (ev ++ ev', let! rs := y in Ok (r :: rs))
      | Throw => (ev, Throw) | Terminate => (ev, Terminate) | UB => (ev, UB) | Loop => (ev, Loop)
      end
  end.
(** All tests of a skipped test case, tests.cc:620-630: what the controller says is not
    looked at. *)
Definition skip_methods (c why : str) (l : list method) : list event * list mres :=
  (flat_map (fun m => [Begin c (t_name m); End c (t_name m)]) l, map (fun m => set_skipped why (new_mres (t_name m))) l).
(** test_case_begin of both controllers, testrunner.cc:80-91 and 142-152 *)
Definition case_should_run (c : tcase) : bool := existsb (fun m => should_run (full_name (c_name c) (t_name m))) (c_methods c).
(** teardown and the end of a test case, tests.cc:636-643 *)
Definition finish (c : tcase) (ev : list event) (rs : list mres) : list event * outcome cres :=
  let n := c_name c in
  match c_teardown c with
  | None => (ev ++ [CaseTeardown n; CaseEnd n], Ok (mk_cres n rs [] [] false))
  | Some XOther => (ev ++ [CaseTeardown n], Terminate)
  | Some e => (ev ++ [CaseTeardown n; CaseEnd n], Ok (mk_cres n rs [] (teardown_text e) false))
  end.
(** TestCase::run_tests, tests.cc:596-644 *)
Definition run_case (c : tcase) : list event * outcome cres :=
  let n := c_name c in
  if negb (case_should_run c) then ([CaseBegin n; CaseEnd n], Ok (mk_cres n [] [] [] true))
  else match c_setup c with
  | Some (XSkip why) => let '(ev, rs) := skip_methods n why (c_methods c) in finish c ([CaseBegin n; CaseSetup n] ++ ev) rs
  | Some XOther => ([CaseBegin n; CaseSetup n], Terminate)
  | Some e => ([CaseBegin n; CaseSetup n; CaseEnd n], Ok (mk_cres n [] (setup_text e) [] false))
  | None => let '(ev, x) := run_methods n (c_methods c) in
            match x with
            | Ok rs => finish c ([CaseBegin n; CaseSetup n] ++ ev) rs
            | Throw => ([CaseBegin n; CaseSetup n] ++ ev, Throw) | Terminate => ([CaseBegin n; CaseSetup n] ++ ev, Terminate)
            | UB => ([CaseBegin n; CaseSetup n] ++ ev, UB) | Loop => ([CaseBegin n; CaseSetup n] ++ ev, Loop)
            end
  end.
(** TestRegistry::run_tests, testrunner.cc:228-238 *)
Fixpoint run_all (l : list tcase) : list event * outcome (list cres) :=
  match l with
  | [] => ([], Ok [])
  | c :: l' =>
      let '(ev, x) := run_case c in
      match x with
      | Ok r => let '(ev', y) := run_all l' in (ev ++ ev', let! rs := y in Ok (r :: rs))
      | Throw => (ev, Throw) | Terminate => (ev, Terminate) | UB => (ev, UB) | Loop => (ev, Loop)
      end
  end.
End Run.

(** ** The report *)
(** TestResultStats, testrunner.cc:278-304: the counters are unsigned int. *)
Record stats := mk_stats { s_ok : Z; s_failed : Z; s_skipped : Z; s_cases_ok : Z; s_cases_failed : Z }.
Definition u32_inc (z : Z) : Z := (z + 1) mod 2 ^ 32.
Definition count_method (s : stats) (r : mres) : stats :=
  if r_skipped r then mk_stats (s_ok s) (s_failed s) (u32_inc (s_skipped s)) (s_cases_ok s) (s_cases_failed s)
  else if m_success r then mk_stats (u32_inc (s_ok s)) (s_failed s) (s_skipped s) (s_cases_ok s) (s_cases_failed s)
  else mk_stats (s_ok s) (u32_inc (s_failed s)) (s_skipped s) (s_cases_ok s) (s_cases_failed s).
Definition count_case (s : stats) (r : cres) : stats :=
  if negb (is_empty (k_setup r)) then mk_stats (s_ok s) (s_failed s) (s_skipped s) (s_cases_ok s) (u32_inc (s_cases_failed s))
  else
    let s' := if negb (is_empty (k_teardown r)) then mk_stats (s_ok s) (s_failed s) (s_skipped s) (s_cases_ok s) (u32_inc (s_cases_failed s))
              else mk_stats (s_ok s) (s_failed s) (s_skipped s) (u32_inc (s_cases_ok s)) (s_cases_failed s) in
    fold_left count_method (k_methods r) s'.
Definition count_all (l : list cres) : stats := fold_left count_case l (mk_stats 0 0 0 0 0).
Definition success (s : stats) : bool := negb (s_ok s =? 0) && (s_cases_failed s =? 0) && (s_failed s =? 0).
(** print_results, testrunner.cc:306-331, without the title and the empty lines: what is
    said of a test case, and of a test (print_failure_details, testrunner.cc:26-35). *)
Inductive said := OfCase (c text : str) | OfTest (c m type text : str) (stack : list frame).
Definition report_case (r : cres) : list said :=
  if negb (is_empty (k_setup r)) then [OfCase (k_name r) (k_setup r)]
  else (if negb (is_empty (k_teardown r)) then [OfCase (k_name r) (k_teardown r)] else []) ++
       flat_map (fun t => if r_skipped t || m_success t then [] else [OfTest (k_name r) (r_name t) (r_type t) (r_error t) (r_stack t)]) (k_methods r).
Definition print_results (l : list cres) : list said := flat_map report_case l.
(** main, tests-main.cc:14-50: the patterns come from the environment, of which [getenv]
    gives the value; the exit status and the report. *)
Definition pattern (getenv : str -> option str) (old new : string) : str :=
  match getenv (codes new) with
  | Some v => v
  | None => match getenv (codes old) with Some v => v | None => [] end
  end.
Definition test_main (fnmatch : str -> str -> Z) (getenv : str -> option str) (l : list tcase) : outcome (Z * list said) :=
  let! rs := snd (run_all fnmatch (pattern getenv "TEST_WHITELIST" "TEST_ONLY") (pattern getenv "TEST_BLACKLIST" "TEST_EXCEPT") l) in
  Ok (if success (count_all rs) then 0 else 1, print_results rs).
