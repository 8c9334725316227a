(** msat/utils/testrunner.cc:333-443: the statistics and the summary printed after a run of
    the unit tests. Texts have no zero bytes. *)
From Verif Require Import Base IniModel StringModel GribModel TestRunModel.
Open Scope string_scope.
Open Scope list_scope.
Open Scope Z_scope.

Section Stats.
(** [bright], [red] and [green] are color_fg of the terminal (msat/utils/term.cc), which
    puts codes around a text or leaves it as it is; [secs] is what "%.2fs" writes for a
    number of nanoseconds divided by 10^9. *)
Variables bright red green : str -> str.
Variable secs : Z -> str.

(** A test case and the elapsed_ns of its tests (tests.cc:646-653). *)
Definition timed : Type := cres * list Z.
Definition tests_of (c : timed) : list (mres * Z) := combine (k_methods (fst c)) (snd c).
(** TestCaseResult::elapsed_ns, testrunner.cc:42-48: unsigned long long *)
Definition case_ns (c : timed) : Z := fold_left (fun s t => (s + snd t) mod 2 ^ 64) (tests_of c) 0.

(** Title, testrunner.cc:245-270: what maybe_print and maybe_print_or_separator write, given
    whether the title is written already. *)
Definition maybe_print (title : string) (printed : bool) : str :=
  if printed then [] else [10] ++ codes " * " ++ bright (codes title) ++ [10; 10].
Definition or_separator (title : string) (printed : bool) : str := if printed then [10] else maybe_print title printed.

(** format_elapsed, testrunner.cc:123-133: the buffer of 32 bytes holds every text. *)
Definition format_elapsed (ns : Z) : str :=
  if ns <? 1000 then print ns ++ codes "ns"
  else if ns <? 1000000 then print (ns / 1000) ++ [194; 181] ++ codes "s"
  else if ns <? 1000000000 then print (ns / 1000000) ++ codes "ms"
  else secs ns.

(** skipped_by_reason[...] += 1, a std::map *)
Fixpoint add_reason (r : str) (m : list (Z * str)) : list (Z * str) :=
  match m with
  | [] => [(1, r)]
  | (n, k) :: m' => if str_eqb k r then (u32_inc n, k) :: m' else (n, k) :: add_reason r m'
  end.
(** testrunner.cc:348-355, one test *)
Definition count_skipped (s : list (Z * str) * Z) (t : mres) : list (Z * str) * Z :=
  if r_skipped t then
    if is_empty (r_reason t) then (fst s, u32_inc (snd s)) else (add_reason (r_reason t) (fst s), snd s)
  else s.
(** operator< of std::string and of std::pair; std::sort of pairs that differ. *)
Fixpoint str_ltb (a b : str) : bool :=
  match a, b with
  | _, [] => false
  | [], _ :: _ => true
  | x :: a', y :: b' => if x <? y then true else if y <? x then false else str_ltb a' b'
  end.
Definition pair_ltb (p q : Z * str) : bool :=
  if fst p <? fst q then true else if fst q <? fst p then false else str_ltb (snd p) (snd q).
Fixpoint insert (p : Z * str) (l : list (Z * str)) : list (Z * str) :=
  match l with [] => [p] | q :: l' => if pair_ltb p q then p :: q :: l' else q :: insert p l' end.
Definition sort_pairs (l : list (Z * str)) : list (Z * str) := fold_right insert [] l.

(** "%2u" *)
Definition pad2 (n : Z) : str := if n <? 10 then 32 :: print n else print n.
Definition reason_line (p : Z * str) : str := codes "  " ++ pad2 (fst p) ++ codes "x " ++ snd p ++ [10].

(** std::sort of the slow test cases and tests: equal times come in any order. *)
Variable sort_cases : list timed -> list timed.
Variable sort_tests : list (str * (mres * Z)) -> list (str * (mres * Z)).
Definition slow_threshold : Z := 100000000.

(** print_stats, testrunner.cc:333-408 *)
Definition print_stats (l : list timed) : str :=
  let T := "Test run statistics" in
  let '(by_reason, no_reason) := fold_left count_skipped (map fst (flat_map tests_of l)) ([], 0) in
  let slow_c := filter (fun c => slow_threshold <? case_ns c) l in
  let slow_t := flat_map (fun c => map (fun t => (k_name (fst c), t)) (filter (fun t => slow_threshold <? snd t) (tests_of c))) l in
  let p1 := negb (List.length by_reason =? 0)%nat in
  let s1 := if p1 then or_separator T false ++ codes "Number of tests skipped, by reason:" ++ [10; 10] ++
                       flat_map reason_line (sort_pairs by_reason) ++
                       (if no_reason =? 0 then [] else reason_line (no_reason, codes "(no reason given)"))
            else [] in
  let p2 := negb (List.length slow_c =? 0)%nat in
  let s2 := if p2 then let n := Nat.min 10 (List.length slow_c) in
                       or_separator T p1 ++ print (Z.of_nat n) ++ codes " slowest test cases:" ++ [10; 10] ++
                       flat_map (fun c => codes "  " ++ k_name (fst c) ++ codes ": " ++ format_elapsed (case_ns c) ++ [10]) (firstn n (sort_cases slow_c))
            else [] in
  let s3 := if negb (List.length slow_t =? 0)%nat then
                       let n := Nat.min 10 (List.length slow_t) in
                       or_separator T (p1 || p2) ++ print (Z.of_nat n) ++ codes " slowest test methods:" ++ [10; 10] ++
                       flat_map (fun t => codes "  " ++ fst t ++ codes "." ++ r_name (fst (snd t)) ++ codes ": " ++ format_elapsed (snd (snd t)) ++ [10]) (firstn n (sort_tests slow_t))
            else [] in
  s1 ++ s2 ++ s3.

(** print_summary, testrunner.cc:410-443 *)
Definition print_summary (s : stats) : str :=
  let T := "Result summary" in
  let p1 := negb (s_cases_failed s =? 0) in
  let p2 := p1 || negb (s_failed s =? 0) in
  let p3 := p2 || negb (s_skipped s =? 0) in
  (if p1 then maybe_print T false ++ print (s_cases_failed s) ++ codes "/" ++ print ((s_cases_ok s + s_cases_failed s) mod 2 ^ 32) ++
              codes " test cases had issues initializing or cleaning up" ++ [10] else []) ++
  (if negb (s_failed s =? 0) then maybe_print T p1 ++ print (s_failed s) ++ codes "/" ++ print ((s_ok s + s_failed s) mod 2 ^ 32) ++
              codes " tests " ++ red (codes "failed") ++ [10] else []) ++
  (if negb (s_skipped s =? 0) then maybe_print T p2 ++ print (s_skipped s) ++ codes " tests skipped" ++ [10] else []) ++
  maybe_print T p3 ++
  (if negb (s_ok s =? 0) then print (s_ok s) ++ codes " tests " ++ green (codes "succeeded") ++ [10]
   else red (codes "no") ++ codes " tests succeeded" ++ [10]).
End Stats.
