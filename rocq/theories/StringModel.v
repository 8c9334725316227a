(** msat/utils/string.cc and string.h: string utilities. A std::string is the
    list of its characters, codes 0..255; a char of code 128..255 is negative.
    The ctype functions are those of the C locale (glibc: false on negative
    arguments). Sizes stay below 2^63. *)
From Verif Require Import Base IniModel.
Open Scope string_scope.
Open Scope list_scope.
Open Scope Z_scope.

Definition sc (s : str) (i : nat) : Z := nth i s 0.

(** ** string.h:20-33 *)
Definition startswith (s part : str) : bool :=
  if (List.length s <? List.length part)%nat then false
  else str_eqb (firstn (List.length part) s) part.
Definition endswith (s part : str) : bool :=
  if (List.length s <? List.length part)%nat then false
  else str_eqb (skipn (List.length s - List.length part) s) part.
(** string.h:57-71 *)
Fixpoint join_loop (sep : str) (first : bool) (items : list str) : str :=
  match items with
  | [] => []
  | i :: t => (if first then [] else sep) ++ i ++ join_loop sep false t
  end.
Definition join (sep : str) (items : list str) : str := join_loop sep true items.
(** string.h:88-106 *)
Definition toupper (c : Z) : Z := if (97 <=? c) && (c <=? 122) then c - 32 else c.
Definition upper (s : str) : str := map toupper s.
Definition lower_ (s : str) : str := map tolower s.

(** ** Stripping, string.cc:16-67: the two loops move indices. *)
Fixpoint fwd (p : Z -> bool) (s : str) (beg : nat) (n : nat) : nat :=
  match n with
  | O => beg
  | S n' => if p (sc s beg) then fwd p s (S beg) n' else beg
  end.
Fixpoint bwd (p : Z -> bool) (s : str) (beg end_ : nat) : nat :=
  match end_ with
  | O => O
  | S e => if (beg <? end_)%nat then if p (sc s e) then bwd p s beg e else end_ else end_
  end.
Definition lstrip (s : str) : str :=
  match s with
  | [] => s
  | _ => let beg := fwd isspace s 0 (List.length s) in firstn (List.length s - beg + 1) (skipn beg s)
  end.
Definition rstrip (s : str) : str :=
  match s with
  | [] => s
  | _ => let e := bwd isspace s 0 (List.length s) in if (e =? 0)%nat then [] else firstn e s
  end.
Definition strip (s : str) : str :=
  match s with
  | [] => s
  | _ => let beg := fwd isspace s 0 (List.length s) in
         let e := bwd isspace s beg (List.length s) in firstn (e - beg) (skipn beg s)
  end.

(** ** Paths *)
(** rfind of one character among the first n characters. *)
Fixpoint rfind (c : Z) (s : str) (n : nat) : option nat :=
  match n with
  | O => None
  | S m => if sc s m =? c then Some m else rfind c s m
  end.
Definition is_slash (c : Z) : bool := c =? 47.
(** string.cc:87-94 *)
Definition basename (p : str) : str :=
  match rfind 47 p (List.length p) with
  | None => p
  | Some pos => skipn (pos + 1) p
  end.
(** string.cc:96-121 *)
Definition dirname (p : str) : str :=
  match p with
  | [] => codes "."
  | _ =>
      let e := bwd is_slash p 0 (List.length p) in
      if (e =? 0)%nat then codes "/"
      else match rfind 47 p e with
           | None => codes "."
           | Some i => let e2 := bwd is_slash p 0 i in
                       if (e2 =? 0)%nat then codes "/" else firstn e2 p
           end
  end.
(** string.cc:149-173 *)
Definition appendpath (dest path2 : str) : str :=
  match path2 with
  | [] => dest
  | c2 :: rest2 =>
      match dest with
      | [] => path2
      | _ => if sc dest (List.length dest - 1) =? 47
             then if c2 =? 47 then dest ++ rest2 else dest ++ path2
             else if c2 =? 47 then dest ++ path2 else dest ++ 47 :: path2
      end
  end.
(** string.h:131-141 *)
Definition joinpath (components : list str) : str := fold_left appendpath components [].

(** ** Split, string.cc:208-312 *)
(** str.find(sep, pos) *)
Fixpoint find_from (sep l : str) (i : nat) : option nat :=
  if is_prefix sep l then Some i
  else match l with [] => None | _ :: l' => find_from sep l' (S i) end.
Definition find (s sep : str) (pos : nat) : option nat :=
  if (List.length s <? pos)%nat then None else find_from sep (skipn pos s) pos.
(** The iterator: whether the split pointer is set, the token, and the position
    ([None] is npos). *)
Record iter := mk_iter { it_on : bool; it_cur : str; it_end : option nat }.
(** Lines 233-249; the loop is endless for an empty separator. *)
Fixpoint skip_separators (fuel : nat) (s sep : str) (e : nat) : outcome nat :=
  match fuel with
  | O => Loop
  | S f => if (e + List.length sep <=? List.length s)%nat
           then if is_prefix sep (skipn e s) then skip_separators f s sep (e + List.length sep) else Ok e
           else Ok e
  end.
Definition skip_seps (s sep : str) (e : nat) : outcome nat := skip_separators (S (List.length s)) s sep e.
(** substr throws when the position is past the end. *)
Definition substr (s : str) (pos n : nat) : outcome str :=
  if (List.length s <? pos)%nat then Throw else Ok (firstn n (skipn pos s)).
(** Lines 251-312 *)
Definition incr (s sep : str) (skip_empty : bool) (it : iter) : outcome iter :=
  if negb (it_on it) then Ok it
  else match it_end it with
  | None => Ok (mk_iter false (it_cur it) None)
  | Some e =>
      if (e =? List.length s)%nat then Ok (mk_iter true [] None)
      else
        let tok_end := match sep with [] => Some (e + 1)%nat | _ => find s sep e end in
        match tok_end with
        | None => let! c := substr s e (List.length s) in Ok (mk_iter true c None)
        | Some t =>
            let! c := substr s e (t - e) in
            let e2 := (t + List.length sep)%nat in
            if skip_empty then
              let! e3 := skip_seps s sep e2 in
              if (e3 =? List.length s)%nat then Ok (mk_iter true c None) else Ok (mk_iter true c (Some e3))
            else Ok (mk_iter true c (Some e2))
        end
  end.
(** Lines 208-219 *)
Definition begin_ (s sep : str) (skip_empty : bool) : outcome iter :=
  match s with
  | [] => Ok (mk_iter false [] (Some 0%nat))
  | _ => let! e := (if skip_empty then skip_seps s sep 0 else Ok 0%nat) in
         incr s sep skip_empty (mk_iter true [] (Some e))
  end.
(** for (const auto& i: split): lines 317-329 compare with the end iterator. *)
Fixpoint iterate (fuel : nat) (s sep : str) (skip_empty : bool) (it : iter) : outcome (list str) :=
  if negb (it_on it) then Ok []
  else match fuel with
       | O => Loop
       | S f => let! it' := incr s sep skip_empty it in
                let! r := iterate f s sep skip_empty it' in Ok (it_cur it :: r)
       end.
Definition split (s sep : str) (skip_empty : bool) : outcome (list str) :=
  let! it := begin_ s sep skip_empty in iterate (List.length s + 2) s sep skip_empty it.

(** ** normpath, string.cc:175-206; the vector is kept in reverse, back() of an
    empty vector is undefined. *)
Definition norm_step (st : list str) (i : str) : outcome (list str) :=
  if str_eqb i (codes ".") || str_eqb i [] then Ok st
  else if str_eqb i (codes "..") then
    match st with
    | [] => UB
    | b :: st' => if str_eqb b (codes "..") then Ok (i :: st)
                  else if str_eqb b (codes "/") then Ok st
                  else Ok st'
    end
  else Ok (i :: st).
Fixpoint norm_loop (st : list str) (l : list str) : outcome (list str) :=
  match l with
  | [] => Ok st
  | i :: l' => let! st' := norm_step st i in norm_loop st' l'
  end.
Definition normpath (p : str) : outcome str :=
  let st0 := if sc p 0 =? 47 then [codes "/"] else [] in
  let! parts := split p (codes "/") false in
  let! st := norm_loop st0 parts in
  match st with
  | [] => Ok (codes ".")
  | _ => Ok (fold_left appendpath (rev st) [])
  end.

(** ** C strings, string.cc:331-406 *)
Definition hex_byte_table : list string := [
   "00"; "01"; "02"; "03"; "04"; "05"; "06"; "07"; "08"; "09"; "0a"; "0b"; "0c"; "0d"; "0e"; "0f";
   "10"; "11"; "12"; "13"; "14"; "15"; "16"; "17"; "18"; "19"; "1a"; "1b"; "1c"; "1d"; "1e"; "1f";
   "20"; "21"; "22"; "23"; "24"; "25"; "26"; "27"; "28"; "29"; "2a"; "2b"; "2c"; "2d"; "2e"; "2f";
   "30"; "31"; "32"; "33"; "34"; "35"; "36"; "37"; "38"; "39"; "3a"; "3b"; "3c"; "3d"; "3e"; "3f";
   "40"; "41"; "42"; "43"; "44"; "45"; "46"; "47"; "48"; "49"; "4a"; "4b"; "4c"; "4d"; "4e"; "4f";
   "50"; "51"; "52"; "53"; "54"; "55"; "56"; "57"; "58"; "59"; "5a"; "5b"; "5c"; "5d"; "5e"; "5f";
   "60"; "61"; "62"; "63"; "64"; "65"; "66"; "67"; "68"; "69"; "6a"; "6b"; "6c"; "6d"; "6e"; "6f";
   "70"; "71"; "72"; "73"; "74"; "75"; "76"; "77"; "78"; "79"; "7a"; "7b"; "7c"; "7d"; "7e"; "7f";
   "80"; "81"; "82"; "83"; "84"; "85"; "86"; "87"; "88"; "89"; "8a"; "8b"; "8c"; "8d"; "8e"; "8f";
   "90"; "91"; "92"; "93"; "94"; "95"; "96"; "97"; "98"; "99"; "9a"; "9b"; "9c"; "9d"; "9e"; "9f";
   "a0"; "a1"; "a2"; "a3"; "a4"; "a5"; "a6"; "a7"; "a8"; "a9"; "aa"; "ab"; "ac"; "ad"; "ae"; "af";
   "b0"; "b1"; "b2"; "b3"; "b4"; "b5"; "b6"; "b7"; "b8"; "b9"; "ba"; "bb"; "bc"; "bd"; "be"; "bf";
   "c0"; "c1"; "c2"; "c3"; "c4"; "c5"; "c6"; "c7"; "c8"; "c9"; "ca"; "cb"; "cc"; "cd"; "ce"; "cf";
   "d0"; "d1"; "d2"; "d3"; "d4"; "d5"; "d6"; "d7"; "d8"; "d9"; "da"; "db"; "dc"; "dd"; "de"; "df";
   "e0"; "e1"; "e2"; "e3"; "e4"; "e5"; "e6"; "e7"; "e8"; "e9"; "ea"; "eb"; "ec"; "ed"; "ee"; "ef";
   "f0"; "f1"; "f2"; "f3"; "f4"; "f5"; "f6"; "f7"; "f8"; "f9"; "fa"; "fb"; "fc"; "fd"; "fe"; "ff"].
Definition hex_byte (c : Z) : str := codes (nth (Z.to_nat c) hex_byte_table "").
Definition iscntrl (c : Z) : bool := ((0 <=? c) && (c <? 32)) || (c =? 127).
Definition encode_cchar (c : Z) : str :=
  if c =? 10 then codes "\n"
  else if c =? 9 then codes "\t"
  else if (c =? 0) || iscntrl c then codes "\x" ++ hex_byte c
  else if (c =? 34) || (c =? 92) then [92; c]
  else [c].
Definition encode_cstring (s : str) : str := flat_map encode_cchar s.
Definition isxdigit (c : Z) : bool :=
  ((48 <=? c) && (c <=? 57)) || ((65 <=? c) && (c <=? 70)) || ((97 <=? c) && (c <=? 102)).
(** Lines 386-390: up to two hexadecimal digits. *)
Definition xdigits (l : str) : str :=
  match l with
  | a :: r => if isxdigit a then match r with b :: _ => if isxdigit b then [a; b] else [a] | [] => [a] end else []
  | [] => []
  end.
(** The decoded text and lenParsed. *)
Fixpoint decode_c (fuel : nat) (s : str) : outcome (str * nat) :=
  match s with
  | [] => Ok ([], 0%nat)
  | c :: r =>
      if c =? 34 then Ok ([], 1%nat)
      else match fuel with
           | O => Loop
           | S f =>
               match (if c =? 92 then r else []) with
               | [] => let! p := decode_c f r in Ok (c :: fst p, S (snd p))
               | k :: r' =>
                   if k =? 110 then let! p := decode_c f r' in Ok (10 :: fst p, S (S (snd p)))
                   else if k =? 116 then let! p := decode_c f r' in Ok (9 :: fst p, S (S (snd p)))
                   else if k =? 120 then
                     let ds := xdigits r' in
                     let! v := atoi (codes "0x" ++ ds) in
                     let! p := decode_c f (skipn (List.length ds) r') in
                     Ok (v mod 256 :: fst p, (2 + List.length ds + snd p)%nat)
                   else let! p := decode_c f r' in Ok (k :: fst p, S (S (snd p)))
               end
           end
  end.
Definition decode_cstring (s : str) : outcome (str * nat) := decode_c (List.length s) s.

(** ** URLs, string.cc:408-443 *)
Definition url_safe (c : Z) : bool :=
  ((48 <=? c) && (c <=? 57)) || ((65 <=? c) && (c <=? 90)) || ((97 <=? c) && (c <=? 122))
  || (c =? 45) || (c =? 95) || (c =? 33) || (c =? 42) || (c =? 39) || (c =? 40) || (c =? 41).
(** printf's %02x *)
Definition hexdigit (n : Z) : Z := if n <? 10 then 48 + n else 87 + n.
Definition encode_uchar (c : Z) : str := if url_safe c then [c] else [37; hexdigit (c / 16); hexdigit (c mod 16)].
Definition encode_url (s : str) : str := flat_map encode_uchar s.
Definition hexval (c : Z) : Z :=
  if c <=? 57 then c - 48 else if c <=? 70 then c - 55 else c - 87.
(** strtoul with base 16 on the C string held in l (l may contain a NUL; no
    overflow since l has at most two characters). *)
Fixpoint hexrun (acc : Z) (l : str) : Z :=
  match l with
  | c :: r => if isxdigit c then hexrun (16 * acc + hexval c) r else acc
  | [] => acc
  end.
Definition strtoul16 (l : str) : Z :=
  match strskp l with
  | c :: r => if c =? 45 then (- hexrun 0 r) mod 2 ^ 64
              else if c =? 43 then hexrun 0 r
              else hexrun 0 (c :: r)
  | [] => 0
  end.
(** Line 434 computes size() - 2 modulo 2^64. *)
Fixpoint decode_u (fuel : nat) (s : str) (i : nat) : outcome str :=
  if (i <? List.length s)%nat then
    match fuel with
    | O => Loop
    | S f =>
        if sc s i =? 37 then
          if (Z.of_nat (List.length s) - 2) mod 2 ^ 64 <=? Z.of_nat i then Ok []
          else let! r := decode_u f s (i + 3) in Ok (strtoul16 (firstn 2 (skipn (i + 1) s)) mod 256 :: r)
        else let! r := decode_u f s (i + 1) in Ok (sc s i :: r)
    end
  else Ok [].
Definition decode_url (s : str) : outcome str := decode_u (List.length s) s 0.

(** ** Base64, string.cc:445-536 *)
Definition base64 : str := codes "ABCDEFGHIJKLMNOPQRSTUVWXYZabcdefghijklmnopqrstuvwxyz0123456789+/".
Definition invdata : list Z := [62; 0; 0; 0; 63; 52; 53; 54; 55; 56; 57; 58; 59; 60; 61; 0; 0; 0; 0; 0; 0; 0; 0; 1; 2; 3; 4; 5; 6; 7; 8; 9; 10; 11; 12; 13; 14; 15; 16; 17; 18; 19; 20; 21; 22; 23; 24; 25; 0; 0; 0; 0; 0; 0; 26; 27; 28; 29; 30; 31; 32; 33; 34; 35; 36; 37; 38; 39; 40; 41; 42; 43; 44; 45; 46; 47; 48; 49; 50; 51].
(** Lines 447-454: the index is a signed char, so codes above 127 are below 43;
    sizeof(data) = 80. *)
Definition invbase64 (c : Z) : outcome Z :=
  let idx := if c <? 128 then c else c - 256 in
  if idx <? 43 then Ok 0
  else if 43 + 80 <? idx then Ok 0
  else match nth_error invdata (Z.to_nat (idx - 43)) with Some v => Ok v | None => UB end.
Definition b64 (n : Z) : Z := nth (Z.to_nat n) base64 0.
(** Lines 466-485 *)
Fixpoint enc_loop (fuel : nat) (s : str) (i : nat) : outcome str :=
  if (i <? List.length s)%nat then
    match fuel with
    | O => Loop
    | S f =>
        let size := List.length s in
        let enc := if (i + 3 <? size)%nat
                   then Z.lor (Z.lor (Z.shiftl (sc s i) 16) (Z.shiftl (sc s (i + 1)) 8)) (sc s (i + 2))
                   else let e := Z.shiftl (sc s i) 16 in
                        let e := if (i + 1 <? size)%nat then Z.lor e (Z.shiftl (sc s (i + 1)) 8) else e in
                        if (i + 2 <? size)%nat then Z.lor e (sc s (i + 2)) else e in
        let! r := enc_loop f s (i + 3) in
        Ok (map (fun j => b64 (Z.land (Z.shiftr enc j) 63)) [18; 12; 6; 0] ++ r)
    end
  else Ok [].
(** Lines 487-490 *)
Fixpoint pad_tail (res : str) (i n : nat) : str :=
  match n with
  | O => res
  | S n' => pad_tail (set_nth res (List.length res - i - 1) 61) (S i) n'
  end.
Definition encode_base64 (s : str) : outcome str :=
  let! res := enc_loop (List.length s) s 0 in
  Ok (if (List.length s mod 3 =? 0)%nat then res else pad_tail res 0 (3 - List.length s mod 3)).
(** Lines 499-523 *)
Definition opt_term (s : str) (i : nat) (sh : Z) : outcome Z :=
  if (i <? List.length s)%nat then let! v := invbase64 (sc s i) in Ok (Z.shiftl v sh) else Ok 0.
Fixpoint dec_loop (fuel : nat) (s : str) (i : nat) : outcome str :=
  if (i <? List.length s)%nat then
    match fuel with
    | O => Loop
    | S f =>
        let! a := opt_term s i 18 in
        let! b := opt_term s (i + 1) 12 in
        let! c := opt_term s (i + 2) 6 in
        let! d := opt_term s (i + 3) 0 in
        let enc := a + b + c + d in
        let! r := dec_loop f s (i + 4) in
        Ok ([Z.land (Z.shiftr enc 16) 255; Z.land (Z.shiftr enc 8) 255; Z.land enc 255] ++ r)
    end
  else Ok [].
(** Lines 526-533, i counting down from size. *)
Fixpoint trim_loop (s res : str) (n : nat) : str :=
  match n with
  | O => res
  | S i => if sc s i =? 61 then
             let res := removelast res in
             match res with [] => res | _ => trim_loop s res i end
           else res
  end.
Definition decode_base64 (s : str) : outcome str :=
  let! res := dec_loop (List.length s) s 0 in Ok (trim_loop s res (List.length s)).
