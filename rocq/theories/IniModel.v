(** msat/iniparser.c: the dictionary, its accessors, and the INI file reader and
    writer. Characters are codes 0..255; ctype functions as in the C locale.
    Allocation succeeds; [d->size] stays below the range of int. *)
From Verif Require Import Base.

Notation str := (list Z).
Definition str_eqb (a b : str) : bool := if list_eq_dec Z.eq_dec a b then true else false.

(** ** Strings *)
Definition isspace (c : Z) : bool := ((9 <=? c) && (c <=? 13)) || (c =? 32).
Definition tolower (c : Z) : Z := if (65 <=? c) && (c <=? 90) then c + 32 else c.
(** iniparser.c:58-72: the first 1024 characters, lowercased. *)
Definition strlwc (s : str) : str := map tolower (firstn 1024 s).
(** iniparser.c:118-124 *)
Fixpoint strskp (s : str) : str :=
  match s with
  | [] => []
  | c :: s' => if isspace c then strskp s' else s
  end.
(** iniparser.c:143-159; the argument always fits the static buffer here (it
    comes from a line of at most 1023 characters). *)
Definition strcrop (s : str) : str := rev (strskp (rev s)).

(** ** Dictionary *)
(** iniparser.h: parallel arrays key, val, hash of length size; n entries. *)
Record slot := mk_slot { s_key : option str; s_val : option str; s_hash : Z }.
Record dict := mk_dict { d_n : nat; d_slots : list slot }.
Definition empty_slot : slot := mk_slot None None 0.

Definition u32 (z : Z) : Z := z mod 2 ^ 32.
(** key[i] is a signed char converted to unsigned. *)
Definition uchar (c : Z) : Z := u32 (if c <? 128 then c else c - 256).
(** iniparser.c:242-258 *)
Definition hash_step (h c : Z) : Z :=
  let h := u32 (h + uchar c) in
  let h := u32 (h + u32 (Z.shiftl h 10)) in
  Z.lxor h (Z.shiftr h 6).
Definition dictionary_hash (key : str) : Z :=
  let h := fold_left hash_step key 0 in
  let h := u32 (h + u32 (Z.shiftl h 3)) in
  let h := Z.lxor h (Z.shiftr h 11) in
  u32 (h + u32 (Z.shiftl h 15)).

(** iniparser.c:273-287 *)
Definition dictionary_new (size : nat) : dict :=
  let size := if (size <? 128)%nat then 128%nat else size in
  mk_dict 0 (repeat empty_slot size).

(** Result of a lookup: the stored pointer (possibly null) or the default. *)
Inductive lookup := Found (v : option str) | Absent.
(** iniparser.c:335-353. Line 342 tests the array pointer, not the slot: an
    empty slot whose hash field equals the hash sought makes strcmp
    dereference a null pointer. *)
Fixpoint get_loop (key : str) (hash : Z) (l : list slot) : outcome lookup :=
  match l with
  | [] => Ok Absent
  | s :: l' =>
      if hash =? s_hash s then
        match s_key s with
        | None => UB
        | Some k => if str_eqb key k then Ok (Found (s_val s)) else get_loop key hash l'
        end
      else get_loop key hash l'
  end.
Definition dictionary_get (d : dict) (key : str) : outcome lookup :=
  get_loop key (dictionary_hash key) (d_slots d).

(** iniparser.c:392-405 and 452-463: index of the slot holding the key. *)
Fixpoint find_slot (key : str) (hash : Z) (l : list slot) (i : nat) : option nat :=
  match l with
  | [] => None
  | s :: l' =>
      match s_key s with
      | None => find_slot key hash l' (S i)
      | Some k => if (hash =? s_hash s) && str_eqb key k then Some i else find_slot key hash l' (S i)
      end
  end.
(** iniparser.c:421-426 *)
Fixpoint first_empty (l : list slot) (i : nat) : nat :=
  match l with
  | [] => i
  | s :: l' => match s_key s with None => i | Some _ => first_empty l' (S i) end
  end.
Definition with_val (s : slot) (v : option str) : slot := mk_slot (s_key s) v (s_hash s).
(** iniparser.c:381-433. Writing at index size would be out of bounds. *)
Definition dictionary_set (d : dict) (key : str) (val : option str) : outcome dict :=
  let hash := dictionary_hash key in
  match (if (0 <? d_n d)%nat then find_slot key hash (d_slots d) 0 else None) with
  | Some i => Ok (mk_dict (d_n d) (set_nth (d_slots d) i (with_val (nth i (d_slots d) empty_slot) val)))
  | None =>
      let slots := if (d_n d =? List.length (d_slots d))%nat
                   then d_slots d ++ repeat empty_slot (List.length (d_slots d)) else d_slots d in
      let i := first_empty slots 0 in
      if (i <? List.length slots)%nat
      then Ok (mk_dict (S (d_n d)) (set_nth slots i (mk_slot (Some key) val hash)))
      else UB
  end.
(** iniparser.c:446-477 *)
Definition dictionary_unset (d : dict) (key : str) : dict :=
  match find_slot key (dictionary_hash key) (d_slots d) 0 with
  | None => d
  | Some i => mk_dict (d_n d - 1) (set_nth (d_slots d) i empty_slot)
  end.

(** ** Accessors *)
Definition no_colon (k : str) : bool := negb (existsb (Z.eqb 58) k).
Definition is_section (s : slot) : bool := match s_key s with Some k => no_colon k | None => false end.
(** iniparser.c:558-573 *)
Definition iniparser_getnsec (d : dict) : nat := List.length (filter is_section (d_slots d)).
(** iniparser.c:591-611, the loop: stop at the slot that makes foundsec exceed n. *)
Fixpoint secname_loop (l : list slot) (n : nat) : option str :=
  match l with
  | [] => None
  | s :: l' => if is_section s then match n with O => s_key s | S m => secname_loop l' m end
               else secname_loop l' n
  end.
Definition iniparser_getsecname (d : dict) (n : Z) : option str :=
  if n <? 0 then None else secname_loop (d_slots d) (Z.to_nat n).
(** iniparser.c:724-736 *)
Definition iniparser_getstring (d : dict) (key : str) : outcome lookup :=
  dictionary_get d (strlwc key).
(** iniparser.c:819-834: c[0] of a null pointer is UB; the empty string has a
    NUL in c[0]. *)
Definition iniparser_getboolean (d : dict) (key : str) (notfound : Z) : outcome Z :=
  let! r := iniparser_getstring d key in
  match r with
  | Absent => Ok notfound
  | Found None => UB
  | Found (Some v) =>
      let c := nth 0 v 0 in
      if (c =? 121) || (c =? 89) || (c =? 49) || (c =? 116) || (c =? 84) then Ok 1
      else if (c =? 110) || (c =? 78) || (c =? 48) || (c =? 102) || (c =? 70) then Ok 0
      else Ok notfound
  end.
(** iniparser.c:850-860 *)
Definition iniparser_find_entry (d : dict) (entry : str) : outcome Z :=
  let! r := iniparser_getstring d entry in
  match r with Absent => Ok 0 | Found _ => Ok 1 end.
(** atoi: optional white space, sign, digits; UB when out of range of int (the
    glibc result is not specified by the standard). *)
Fixpoint digits (acc : Z) (s : str) : Z :=
  match s with
  | c :: s' => if (48 <=? c) && (c <=? 57) then digits (acc * 10 + (c - 48)) s' else acc
  | [] => acc
  end.
Definition atoi (s : str) : outcome Z :=
  let s := strskp s in
  let v := match s with
           | c :: s' => if c =? 45 then - digits 0 s' else if c =? 43 then digits 0 s' else digits 0 s
           | [] => 0
           end in
  if (- 2 ^ 31 <=? v) && (v <? 2 ^ 31) then Ok v else UB.
(** iniparser.c:753-760 *)
Definition iniparser_getint (d : dict) (key : str) (notfound : Z) : outcome Z :=
  let! r := iniparser_getstring d key in
  match r with Absent => Ok notfound | Found None => UB | Found (Some v) => atoi v end.
(** iniparser.c:878-897 *)
Definition iniparser_setstr (d : dict) (entry : str) (val : option str) : outcome dict :=
  dictionary_set d (strlwc entry) val.
Definition iniparser_unset (d : dict) (entry : str) : dict := dictionary_unset d (strlwc entry).

(** ** Reading a file, iniparser.c:915-966 *)
(** fgets(lin, 1024): at most 1023 characters, up to and including a newline. *)
Fixpoint fgets (n : nat) (f : str) : str * str :=
  match n, f with
  | S n', c :: f' => if c =? 10 then ([10], f') else let '(l, r) := fgets n' f' in (c :: l, r)
  | _, _ => ([], f)
  end.
(** The C string in the buffer ends at the first NUL read. *)
Definition cstr (l : str) : str := match upto_nul l with Some p => p | None => l end.
(** %[^...]: longest run of accepted characters, at least one. *)
Fixpoint run_of (p : Z -> bool) (s : str) : str * str :=
  match s with
  | c :: s' => if p c then let '(a, b) := run_of p s' in (c :: a, b) else ([], s)
  | [] => ([], [])
  end.
Definition scan_set (p : Z -> bool) (s : str) : option (str * str) :=
  match run_of p s with
  | ([], _) => None
  | r => Some r
  end.
Definition scan_lit (c : Z) (s : str) : option str :=
  match s with a :: s' => if a =? c then Some s' else None | [] => None end.
(** sscanf(where, "[%[^]]", sec) == 1 *)
Definition scan_section (w : str) : option str :=
  match scan_lit 91 w with
  | None => None
  | Some w' => option_map fst (scan_set (fun c => negb (c =? 93)) w')
  end.
(** The common prefix "%[^=] = " of the three formats. *)
Definition scan_key (w : str) : option (str * str) :=
  match scan_set (fun c => negb (c =? 61)) w with
  | None => None
  | Some (key, r) =>
      match scan_lit 61 (strskp r) with
      | None => None
      | Some r' => Some (key, strskp r')
      end
  end.
(** A quoted value: the literal quote, then %[^quote]. *)
Definition scan_quoted (q : Z) (r : str) : option str :=
  match scan_lit q r with
  | None => None
  | Some r' => option_map fst (scan_set (fun c => negb (c =? q)) r')
  end.
Definition scan_plain (r : str) : option str :=
  option_map fst (scan_set (fun c => negb ((c =? 59) || (c =? 35))) r).
(** Lines 947-949, the three attempts in order. *)
Definition scan_entry (w : str) : option (str * str) :=
  match scan_key w with
  | None => None
  | Some (key, r) =>
      match scan_quoted 34 r with
      | Some v => Some (key, v)
      | None => match scan_quoted 39 r with
                | Some v => Some (key, v)
                | None => match scan_plain r with Some v => Some (key, v) | None => None end
                end
      end
  end.
(** iniparser.c:518-536 *)
Definition add_entry (d : dict) (sec : str) (key : option str) (val : option str) : outcome dict :=
  match key with
  | Some k => dictionary_set d (sec ++ 58 :: k) val
  | None => dictionary_set d sec val
  end.
Definition parse_line (st : str * dict) (lin : str) : outcome (str * dict) :=
  let '(sec, d) := st in
  let wh := strskp (cstr lin) in
  match wh with
  | [] => Ok st
  | c :: _ =>
      if (c =? 59) || (c =? 35) then Ok st
      else match scan_section wh with
           | Some s => let sec := strlwc s in let! d' := add_entry d sec None None in Ok (sec, d')
           | None =>
               match scan_entry wh with
               | Some (k, v) =>
                   let key := strlwc (strcrop k) in
                   let val := if str_eqb v [34; 34] || str_eqb v [39; 39] then [] else strcrop v in
                   let! d' := add_entry d sec (Some key) (Some val) in Ok (sec, d')
               | None => Ok st
               end
           end
  end.
(** The loop; fuel bounds the number of lines. *)
Fixpoint read_lines (fuel : nat) (st : str * dict) (f : str) : outcome (str * dict) :=
  match f with
  | [] => Ok st
  | _ => match fuel with
         | O => Loop
         | S fuel' => let '(l, r) := fgets 1023 f in
                      let! st' := parse_line st l in read_lines fuel' st' r
         end
  end.
Definition iniparser_new (f : str) : outcome dict :=
  let! st := read_lines (List.length f) ([], dictionary_new 0) f in Ok (snd st).

(** ** Writing, iniparser.c:645-683 *)
(** printf's %s of a null pointer is UB (line 661); "%-30s" pads to 30. *)
Definition pad30 (s : str) : str := s ++ repeat 32 (30 - List.length s).
Fixpoint is_prefix (p s : str) : bool :=
  match p, s with
  | [], _ => true
  | a :: p', b :: s' => (a =? b) && is_prefix p' s'
  | _, _ => false
  end.
Definition dump_key (sec : str) (s : slot) : str :=
  match s_key s with
  | None => []
  | Some k =>
      if is_prefix (sec ++ [58]) k
      then pad30 (skipn (List.length sec + 1) k) ++ [32; 61; 32] ++ match s_val s with Some v => v | None => [] end ++ [10]
      else []
  end.
Definition dump_section (d : dict) (sec : str) : str :=
  [10; 91] ++ sec ++ [93; 10] ++ List.concat (map (dump_key sec) (d_slots d)).
Fixpoint dump_plain (l : list slot) : outcome str :=
  match l with
  | [] => Ok []
  | s :: l' =>
      match s_key s, s_val s with
      | None, _ => dump_plain l'
      | Some k, None => UB
      | Some k, Some v => let! r := dump_plain l' in Ok (k ++ [32; 61; 32] ++ v ++ [10] ++ r)
      end
  end.
(** keym has room for a section name of 1023 characters and the colon. *)
Fixpoint dump_sections (d : dict) (l : list slot) : outcome str :=
  match l with
  | [] => Ok [10]
  | s :: l' =>
      match s_key s with
      | Some k => if is_section s then
                    if (List.length k <=? 1023)%nat
                    then let! r := dump_sections d l' in Ok (dump_section d k ++ r) else UB
                  else dump_sections d l'
      | None => dump_sections d l'
      end
  end.
Definition iniparser_dump_ini (d : dict) : outcome str :=
  if (iniparser_getnsec d <? 1)%nat then dump_plain (d_slots d) else dump_sections d (d_slots d).
