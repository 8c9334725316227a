(** Specification of the string utilities. *)
From Verif Require Import Base.
Open Scope string_scope.
Open Scope list_scope.
Open Scope Z_scope.

Notation text := (list Z).
Definition byte_text (s : text) : Prop := Forall (fun c => 0 <= c < 256) s.

(** ** White space *)
Definition is_white (c : Z) : Prop := In c [32; 9; 10; 11; 12; 13].

(** ** Splitting *)
Definition contains (sep t : text) : Prop := exists a b, t = a ++ sep ++ b.
(** The pieces between successive leftmost occurrences of the separator. *)
Inductive pieces (sep : text) : text -> list text -> Prop :=
| pieces_last t : ~ contains sep t -> pieces sep t [t]
| pieces_more a t ps : ~ contains sep (a ++ removelast sep) -> pieces sep t ps -> pieces sep (a ++ sep ++ t) (a :: ps).
Fixpoint interleave (sep : text) (l : list text) : text :=
  match l with
  | [] => []
  | [a] => a
  | a :: t => a ++ sep ++ interleave sep t
  end.
Definition nonempty (t : text) : bool := match t with [] => false | _ => true end.

(** ** Paths *)
Definition slash : Z := 47.
Fixpoint fields (l : text) : list text :=
  match l with
  | [] => [[]]
  | x :: l' => if x =? slash then [] :: fields l'
               else match fields l' with f :: fs => (x :: f) :: fs | [] => [[x]] end
  end.
Definition components (p : text) : list text := filter nonempty (fields p).
Definition absolute (p : text) : Prop := exists r, p = slash :: r.
Definition slashes (n : nat) : text := repeat slash n.
(** Following a path from a directory, given as the names from it up to the root. *)
Definition step (w : list text) (c : text) : list text :=
  if list_eq_dec Z.eq_dec c (codes ".") then w
  else if list_eq_dec Z.eq_dec c (codes "..") then tl w else c :: w.
Definition follow (w : list text) (p : text) : list text := fold_left step (components p) w.
(** The path goes above the directory it starts from. *)
Definition climbs (p : text) : Prop :=
  exists pre post, components p = pre ++ codes ".." :: post /\ fold_left step pre [] = [].
Definition plain_name (c : text) : Prop := c <> [] /\ c <> codes "." /\ c <> codes "..".

(** ** Base64, RFC 4648 *)
Definition b64_char (v : Z) : Z :=
  if v <? 26 then 65 + v else if v <? 52 then 71 + v else if v <? 62 then v - 4 else if v =? 62 then 43 else 47.
Fixpoint rfc4648 (s : text) : text :=
  match s with
  | [] => []
  | [a] => [b64_char (a / 4); b64_char (a mod 4 * 16); 61; 61]
  | [a; b] => [b64_char (a / 4); b64_char (a mod 4 * 16 + b / 16); b64_char (b mod 16 * 4); 61]
  | a :: b :: c :: r => [b64_char (a / 4); b64_char (a mod 4 * 16 + b / 16); b64_char (b mod 16 * 4 + c / 64); b64_char (c mod 64)] ++ rfc4648 r
  end.

(** ** URLs *)
Definition unreserved (c : Z) : Prop :=
  48 <= c <= 57 \/ 65 <= c <= 90 \/ 97 <= c <= 122 \/ In c (codes "-_!*'()").
Definition hex_char (c : Z) : Prop := 48 <= c <= 57 \/ 97 <= c <= 102.
(** Texts made of unreserved characters and escapes. *)
Inductive url_text : text -> Prop :=
| url_nil : url_text []
| url_char c t : unreserved c -> url_text t -> url_text (c :: t)
| url_escape a b t : hex_char a -> hex_char b -> url_text t -> url_text (37 :: a :: b :: t).
