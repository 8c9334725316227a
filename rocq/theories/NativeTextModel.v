(** msat/msg-native: the text header of MSG native files. *)
From Verif Require Import Base.

(** MSG_native_header.cpp:26-82: where each mphinfo starts; 6 to 10 are made of
    two strings. *)
Definition mph_starts : list (list nat) :=
  ([[0]; [80]; [160]; [240]; [320]; [400]; [480; 526]; [542; 588]; [604; 650]; [666; 712]; [728; 774]]
   ++ map (fun i => [2154 + 80 * i]) (seq 0 37))%nat.
(** std::string(const char* ) of a buffer: up to the first NUL; running off the
    buffer is undefined. *)
Fixpoint cstr (b : list Z) : outcome (list Z) :=
  match b with
  | [] => UB
  | c :: b' => if c =? 0 then Ok [] else let! s := cstr b' in Ok (c :: s)
  end.
Fixpoint cat_strs (b : list Z) (starts : list nat) : outcome (list Z) :=
  match starts with
  | [] => Ok []
  | o :: os => let! s := cstr (skipn o b) in let! t := cat_strs b os in Ok (s ++ t)
  end.
Fixpoint all_strs (b : list Z) (l : list (list nat)) : outcome (list (list Z)) :=
  match l with
  | [] => Ok []
  | os :: l' => let! s := cat_strs b os in let! t := all_strs b l' in Ok (s :: t)
  end.
Definition mphinfo (b : list Z) : outcome (list (list Z)) := all_strs b mph_starts.

(** ** sscanf as used in MSG_native.cpp:80-125. None: the input fails to match and
    nothing is assigned. *)
Definition blank (c : Z) : bool := (c =? 32) || ((9 <=? c) && (c <=? 13)).
Definition digit (c : Z) : bool := (48 <=? c) && (c <=? 57).
Fixpoint skip_blank (t : list Z) : list Z :=
  match t with c :: t' => if blank c then skip_blank t' else t | [] => [] end.
Fixpoint token (t : list Z) : list Z * list Z :=
  match t with
  | c :: t' => if blank c then ([], t) else let '(w, r) := token t' in (c :: w, r)
  | [] => ([], [])
  end.
(** %s *)
Definition scan_s (t : list Z) : option (list Z * list Z) :=
  match token (skip_blank t) with ([], _) => None | wr => Some wr end.
(** %ld, %d: the value is not reduced to its type. *)
Fixpoint digits (acc : Z) (t : list Z) : Z * list Z :=
  match t with
  | c :: t' => if digit c then digits (acc * 10 + (c - 48)) t' else (acc, t)
  | [] => (acc, [])
  end.
Definition unsigned_part (t : list Z) : option (Z * list Z) :=
  match t with c :: _ => if digit c then Some (digits 0 t) else None | [] => None end.
Definition scan_d (t : list Z) : option (Z * list Z) :=
  match skip_blank t with
  | 45 :: t' => match unsigned_part t' with Some (v, r) => Some (- v, r) | None => None end
  | 43 :: t' => unsigned_part t'
  | t' => unsigned_part t'
  end.
(** "%*s : " *)
Definition scan_name (t : list Z) : option (list Z) :=
  match scan_s t with
  | None => None
  | Some (_, r) => match skip_blank r with 58 :: r' => Some (skip_blank r') | _ => None end
  end.
(** "%*s : %ld"; a value beyond long is undefined. None: the variable keeps its
    value (most are not initialised). *)
Definition long_ok (v : Z) : bool := (- 2 ^ 63 <=? v) && (v <? 2 ^ 63).
Definition scan_long (t : list Z) : outcome (option Z) :=
  match scan_name t with
  | None => Ok None
  | Some r => match scan_d r with None => Ok None | Some (v, _) => if long_ok v then Ok (Some v) else UB end
  end.
(** "%*s : %*d %ld\n" *)
Definition scan_position (t : list Z) : outcome (option Z) :=
  match scan_name t with
  | None => Ok None
  | Some r =>
      match scan_d r with
      | None => Ok None
      | Some (_, r2) => match scan_d r2 with None => Ok None | Some (v, _) => if long_ok v then Ok (Some v) else UB end
      end
  end.
(** Lines 94-104: char bandsel[16] filled by "%*s : %s", then bytes 0 to 11 read.
    A word of 16 or more overflows it; bytes after its NUL are not initialised. *)
Definition selection (t : list Z) : outcome (list bool) :=
  match scan_name t with
  | None => UB
  | Some r =>
      match scan_s r with
      | None => UB
      | Some (w, _) =>
          if (16 <=? List.length w)%nat then UB
          else if (List.length w <? 11)%nat then UB
          else Ok (map (fun i => nth i w 0 =? 88) (seq 0 12))
      end
  end.
