(** msat/xrit/fileaccess.cpp: product names and the search for product files.
    Strings are lists of character codes; '_' = 95, '-' = 45, ':' = 58, '/' = 47,
    '?' = 63, '*' = 42, '[' = 91, '\' = 92, '.' = 46. *)
From Verif Require Import Base HeaderModel.

(** std::string::find(c, pos): first index >= pos holding c (npos = None; also
    when pos > size). *)
Fixpoint find_from (c : Z) (s : list Z) (i : nat) : option nat :=
  match s with
  | [] => None
  | a :: s' => if a =? c then Some i else find_from c s' (S i)
  end.
Definition find (c : Z) (s : list Z) (pos : nat) : option nat := find_from c (skipn pos s) pos.
(** std::string::rfind(c): last index holding c. *)
Fixpoint rfind_acc (c : Z) (s : list Z) (i : nat) (r : option nat) : option nat :=
  match s with
  | [] => r
  | a :: s' => rfind_acc c s' (S i) (if a =? c then Some i else r)
  end.
Definition rfind (c : Z) (s : list Z) : option nat := rfind_acc c s 0 None.

(** fileaccess.cpp:38-43: resize pads or truncates. *)
Definition underscoreit (base : list Z) (final_len : nat) : list Z :=
  firstn final_len base ++ repeat 95 (final_len - List.length base).

(** fileaccess.cpp:45-51, the loop on [pos]. *)
Fixpoint deunder_loop (str : list Z) (pos : nat) : nat :=
  match pos with
  | O => O
  | S p => if nth pos str 0 =? 95 then deunder_loop str p else pos
  end.
(** On the empty string pos = size()-1 wraps and str[pos] is out of range. *)
Definition deunderscore (str : list Z) : outcome (list Z) :=
  match str with
  | [] => UB
  | _ => substr str 0 (deunder_loop str (List.length str - 1) + 1)
  end.

(** filename.substr(filename.size() - 3) == "-C_" *)
Definition ends_C (s : list Z) : bool :=
  if list_eq_dec Z.eq_dec (skipn (List.length s - 3) s) [45; 67; 95] then true else false.

(** fileaccess.cpp:54-68; the loop runs for i = 0..2. *)
Fixpoint three_colons (n : nat) (s : list Z) (pos : nat) : bool :=
  match n with
  | O => true
  | S n' => match find 58 s pos with
            | None => false
            | Some p => three_colons n' s (p + 1)
            end
  end.
Definition isValid (s : list Z) : bool :=
  if (List.length s <? 3)%nat then false
  else if ends_C s then true
  else three_colons 3 s 0.

(** fileaccess.h:38-46 *)
Record fileaccess := mk_fa {
  fa_dir : list Z; fa_res : list Z; fa_pid1 : list Z; fa_pid2 : list Z; fa_timing : list Z }.

(** [if ((end = filename.find(c, beg)) == npos) throw] followed by [k end]. *)
Definition next {A} (c : Z) (s : list Z) (beg : nat) (k : nat -> outcome A) : outcome A :=
  match find c s beg with None => Throw | Some e => k e end.

(** fileaccess.cpp:90-165 *)
Definition parse (s : list Z) : outcome fileaccess :=
  let! db := match rfind 47 s with
             | None => Ok ([46], 0%nat)
             | Some e => let! d := substr s 0 e in
                         Ok ((match d with [] => [47] | _ => d end), (e + 1)%nat)
             end in
  let '(dir, beg) := db in
  if (List.length s <? 3)%nat then Throw
  else if ends_C s then
    next 45 s beg (fun e1 =>
    let! res := substr s beg (e1 - beg) in
    next 45 s (e1 + 1) (fun e2 =>                           (* skip number *)
    next 45 s (e2 + 1) (fun e3 =>                           (* skip satellite *)
    next 45 s (e3 + 1) (fun e4 =>
    let! f4 := substr s (e3 + 1) (e4 - (e3 + 1)) in
    let! p1 := deunderscore f4 in
    next 45 s (e4 + 1) (fun e5 =>
    let! f5 := substr s (e4 + 1) (e5 - (e4 + 1)) in
    let! p2 := deunderscore f5 in
    next 45 s (e5 + 1) (fun e6 =>                           (* skip segment number *)
    next 45 s (e6 + 1) (fun e7 =>
    let! f7 := substr s (e6 + 1) (e7 - (e6 + 1)) in
    let! t := deunderscore f7 in
    Ok (mk_fa dir res p1 p2 t))))))))
  else
    next 58 s beg (fun e1 =>
    let! res := substr s beg (e1 - beg) in
    next 58 s (e1 + 1) (fun e2 =>
    let! p1 := substr s (e1 + 1) (e2 - (e1 + 1)) in
    next 58 s (e2 + 1) (fun e3 =>
    let! p2 := substr s (e2 + 1) (e3 - (e2 + 1)) in
    let! t := substr s (e3 + 1) (List.length s) in
    Ok (mk_fa dir res p1 p2 t)))).

(** fileaccess.cpp:81-88 *)
Definition parse_channel (fa : fileaccess) (chan : list Z) : fileaccess :=
  mk_fa (fa_dir fa) (fa_res fa) (fa_pid1 fa) chan (fa_timing fa).

(** fileaccess.cpp:167-179 *)
Definition ensureComplete (fa : fileaccess) : outcome unit :=
  match fa_dir fa, fa_res fa, fa_pid1 fa, fa_pid2 fa, fa_timing fa with
  | [], _, _, _, _ | _, [], _, _, _ | _, _, [], _, _ | _, _, _, [], _ | _, _, _, _, [] => Throw
  | _, _, _, _, _ => Ok tt
  end.

(** glob(3) on one directory: '?' matches one character, '*' any run, a period
    at the start must be matched literally. Bracket expressions and backslash
    are not modelled: the theorems exclude them from the fields. *)
Fixpoint gmatch (first : bool) (p : list Z) : list Z -> bool :=
  match p with
  | [] => fun s => match s with [] => true | _ => false end
  | c :: p' =>
      if c =? 42 then
        (fix star (first : bool) (s : list Z) : bool :=
           gmatch first p' s ||
           match s with
           | [] => false
           | a :: s' => negb (first && (a =? 46)) && star false s'
           end) first
      else fun s =>
        match s with
        | [] => false
        | a :: s' =>
            (if c =? 63 then negb (first && (a =? 46)) else a =? c) && gmatch false p' s'
        end
  end.
(** [ls d]: sorted names of the files in the directory written [d]. The
    directory part of the pattern (up to the last '/') must be free of
    wildcards. glob returns the directory as written followed by the name. *)
Definition glob (ls : list Z -> list (list Z)) (pattern : list Z) : list (list Z) :=
  match rfind 47 pattern with
  | None => filter (gmatch true pattern) (ls [46])
  | Some e =>
      let d := firstn e pattern in
      map (fun n => d ++ 47 :: n) (filter (gmatch true (skipn (e + 1) pattern)) (ls d))
  end.

Definition q (n : nat) : list Z := repeat 63 n.
Definition dash (l : list Z) : list Z := 45 :: l.
(** fileaccess.cpp:235-242 *)
Definition segment_pattern (fa : fileaccess) : list Z :=
  fa_dir fa ++ [47] ++ fa_res fa ++ [45] ++ q 3 ++ [45] ++ q 6 ++ [45]
  ++ underscoreit (fa_pid1 fa) 12 ++ [45] ++ underscoreit (fa_pid2 fa) 9 ++ [45]
  ++ [48] ++ q 5 ++ [95; 95; 95] ++ [45] ++ fa_timing fa ++ [45; 67; 95].
(** fileaccess.cpp:183-191 ("PRO______") and 209-217 ("EPI______"). *)
Definition aux_pattern (tag : list Z) (fa : fileaccess) : list Z :=
  fa_dir fa ++ [47] ++ fa_res fa ++ [45] ++ q 3 ++ [45] ++ q 6 ++ [45]
  ++ underscoreit (fa_pid1 fa) 12 ++ [45] ++ underscoreit [95] 9 ++ [45]
  ++ tag ++ repeat 95 6 ++ [45] ++ fa_timing fa ++ [45; 95; 95].
Definition PRO : list Z := codes "PRO".
Definition EPI : list Z := codes "EPI".

(** fileaccess.cpp:233-255. glob fails with GLOB_NOMATCH if nothing matches;
    gl_pathv[i+1] because of GLOB_DOOFFS with gl_offs = 1. *)
Definition segmentFiles (ls : list Z -> list (list Z)) (fa : fileaccess) : outcome (list (list Z)) :=
  match glob ls (segment_pattern fa) with
  | [] => Throw
  | l => Ok l
  end.
(** fileaccess.cpp:181-205 and 207-231 *)
Definition aux_file (tag : list Z) (ls : list Z -> list (list Z)) (fa : fileaccess) : outcome (list Z) :=
  match glob ls (aux_pattern tag fa) with
  | [] => Throw
  | [f] => Ok f
  | _ => Throw
  end.
Definition prologueFile := aux_file PRO.
Definition epilogueFile := aux_file EPI.
