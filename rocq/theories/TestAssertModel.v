(** msat/utils/tests.cc: the checks on texts, paths and the contents of files. [Throw] is a
    check that fails; its text is left out. *)
From Verif Require Import Base IniModel IniProofs StringModel.
Open Scope list_scope.

Definition check (b : bool) : outcome unit := if b then Ok tt else Throw.
(** assert_startswith, assert_endswith, assert_contains, assert_not_contains, tests.cc:118-148 *)
Definition assert_startswith (actual expected : str) : outcome unit := check (startswith actual expected).
Definition assert_endswith (actual expected : str) : outcome unit := check (endswith actual expected).
Definition assert_contains (actual expected : str) : outcome unit := check (match find actual expected 0 with Some _ => true | None => false end).
Definition assert_not_contains (actual expected : str) : outcome unit := check (match find actual expected 0 with Some _ => false | None => true end).

(** ActualCString::operator== and != with a C string, tests.cc:223-255; [None] is the null
    pointer. *)
Definition cstring_eq (actual expected : option str) : outcome unit :=
  match expected, actual with
  | Some e, Some a => check (str_eqb a e)
  | None, None => Ok tt
  | _, _ => Throw
  end.
Definition cstring_ne (actual expected : option str) : outcome unit :=
  match expected, actual with
  | Some e, Some a => check (negb (str_eqb a e))
  | None, None => Throw
  | _, _ => Ok tt
  end.

(** ActualPath::path_startswith, tests.cc:381-395, on the elements of the two paths. *)
Fixpoint path_startswith (a e : list str) : outcome unit :=
  match a, e with
  | x :: a', y :: e' => if str_eqb x y then path_startswith a' e' else Throw
  | _, [] => Ok tt
  | [], _ :: _ => Throw
  end.
(** path_endswith, tests.cc:397-414: the iterators go back from the end; [i] and [j] are
    their positions. *)
Fixpoint ends_loop (a e : list str) (i j : nat) : outcome unit :=
  match i, j with
  | S i', S j' => if str_eqb (nth i' a []) (nth j' e []) then ends_loop a e i' j' else Throw
  | _, O => Ok tt
  | O, S _ => Throw
  end.
Definition path_endswith (a e : list str) : outcome unit := ends_loop a e (List.length a) (List.length e).

(** contents_startwith, tests.cc:487-495: a file that is too short throws. *)
Definition contents_startwith (content data : str) : outcome unit :=
  if (List.length content <? List.length data)%nat then Throw else check (str_eqb (firstn (List.length data) content) data).
(** contents_equal with lines, tests.cc:464-485 *)
Fixpoint same_lines (a e : list str) : outcome unit :=
  match a, e with
  | x :: a', y :: e' => if str_eqb x y then same_lines a' e' else Throw
  | _, _ => Ok tt
  end.
Definition contents_equal (content : str) (lines : list str) : outcome unit :=
  let! actual := split (rstrip content) [10] false in
  if negb (List.length actual =? List.length lines)%nat then Throw else same_lines actual lines.

Section Regexp.
(** Extended regular expressions (Regexp, tests.cc:152-185): whether one can be compiled, and
    where it is found in a C string, which ends at its first null character. *)
Variable valid : str -> bool.
Variable regexec : str -> str -> option (nat * nat).
Fixpoint c_str (s : str) : str := match s with [] => [] | c :: s' => if c =? 0 then [] else c :: c_str s' end.
Definition search (re s : str) : outcome (option (nat * nat)) := if valid (c_str re) then Ok (regexec (c_str re) (c_str s)) else Throw.
(** assert_re_matches, assert_not_re_matches, tests.cc:189-205 *)
Definition assert_re_matches (actual re : str) : outcome unit := let! m := search re actual in check (match m with Some _ => true | None => false end).
Definition assert_not_re_matches (actual re : str) : outcome unit := let! m := search re actual in check (match m with Some _ => false | None => true end).
(** contents_match with lines, tests.cc:508-542: [ai] are the lines left, which only the text
    of the failure uses. *)
Fixpoint match_loop (content : str) (ai : list str) (res : list str) : outcome unit :=
  match res with
  | [] => Ok tt
  | re :: res' =>
      let! m := search re content in
      match m with
      | Some (so, eo) => if (so =? eo)%nat then match_loop content ai res' else match_loop content (tl ai) res'
      | None => Throw
      end
  end.
Definition contents_match (content : str) (res : list str) : outcome unit :=
  let c := rstrip content in
  let! lines := split c [10] false in match_loop c lines res.
(** ActualFunction::throws, tests.cc:564-575, on a function that throws a std::exception with
    this text, or nothing. *)
Definition throws (thrown : option str) (re : str) : outcome unit :=
  match thrown with None => Throw | Some w => assert_re_matches w re end.
End Regexp.
