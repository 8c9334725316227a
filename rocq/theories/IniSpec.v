(** Specification of configuration dictionaries and files. *)
From Verif Require Import Base.

Notation text := (list Z).
(** Lower case of a character and of a key; keys are significant up to 1024
    characters. *)
Definition lower (c : Z) : Z := if (65 <=? c) && (c <=? 90) then c + 32 else c.
Definition folded (k : text) : text := firstn 1024 (map lower k).

(** A history of operations on a dictionary: [Some v] sets (v may be null),
    [None] removes. The content is decided by the last operation on the key. *)
Definition change : Type := text * option (option text).
Definition same (a b : text) : bool := if list_eq_dec Z.eq_dec a b then true else false.
Fixpoint last_change (h : list change) (k : text) : option (option (option text)) :=
  match h with
  | [] => None
  | (k', c) :: h' => match last_change h' k with
                     | Some r => Some r
                     | None => if same k' k then Some c else None
                     end
  end.
(** [before] is the content at the start. *)
Definition content (before : text -> option (option text)) (h : list change) (k : text) : option (option text) :=
  match last_change h k with
  | Some c => c
  | None => before k
  end.
Definition nothing (k : text) : option (option text) := None.

(** ** Configuration files *)
Definition blank (c : Z) : bool := (c =? 9) || (c =? 11) || (c =? 12) || (c =? 13) || (c =? 32).
Definition blanks (l : text) : Prop := Forall (fun c => blank c = true) l.
(** No NUL, no newline. *)
Definition clean_text (l : text) : Prop := Forall (fun c => c <> 0 /\ c <> 10) l.
Definition white (c : Z) : bool := blank c || (c =? 10).
Definition starts_black (l : text) : Prop := exists c r, l = c :: r /\ white c = false.
Definition ends_black (l : text) : Prop := exists r c, l = r ++ [c] /\ white c = false.
Definition starts_with (c : Z) (l : text) : Prop := exists r, l = c :: r.

Inductive item :=
| Blank (ws : text)
| Remark (ws : text) (mark : Z) (rest : text)
| Section_ (ws : text) (name : text) (rest : text)
| Plain (ws key ws1 ws2 value ws3 comment : text)
| Quoted (ws key ws1 ws2 : text) (q : Z) (value rest : text).

Definition line_of (i : item) : text :=
  match i with
  | Blank ws => ws
  | Remark ws m r => ws ++ m :: r
  | Section_ ws n r => ws ++ 91 :: n ++ 93 :: r
  | Plain ws k w1 w2 v w3 c => ws ++ k ++ w1 ++ 61 :: w2 ++ v ++ w3 ++ c
  | Quoted ws k w1 w2 q v r => ws ++ k ++ w1 ++ 61 :: w2 ++ q :: v ++ q :: r
  end.
Definition good_key (k : text) : Prop :=
  starts_black k /\ ends_black k /\ ~ In 61 k /\
  ~ starts_with 91 k /\ ~ starts_with 59 k /\ ~ starts_with 35 k.
Definition good_item (i : item) : Prop :=
  clean_text (line_of i) /\ (List.length (line_of i) <= 1022)%nat /\
  match i with
  | Blank ws => blanks ws
  | Remark ws m _ => blanks ws /\ (m = 59 \/ m = 35)
  | Section_ ws n _ => blanks ws /\ n <> [] /\ ~ In 93 n
  | Plain ws k w1 w2 v w3 c =>
      blanks ws /\ good_key k /\ blanks w1 /\ blanks w2 /\ blanks w3 /\
      starts_black v /\ ends_black v /\ ~ In 59 v /\ ~ In 35 v /\
      ~ starts_with 34 v /\ ~ starts_with 39 v /\
      (c = [] \/ starts_with 59 c \/ starts_with 35 c)
  | Quoted ws k w1 w2 q v _ =>
      blanks ws /\ good_key k /\ blanks w1 /\ blanks w2 /\ (q = 34 \/ q = 39) /\
      ends_black v /\ ~ In q v /\ v <> [34; 34] /\ v <> [39; 39]
  end.
Definition render (doc : list item) : text := List.concat (map (fun i => line_of i ++ [10]) doc).
(** The assignments a file makes, given the current section. *)
Fixpoint assigns (sec : text) (doc : list item) : list change :=
  match doc with
  | [] => []
  | Blank _ :: t | Remark _ _ _ :: t => assigns sec t
  | Section_ _ n _ :: t => (map lower n, Some None) :: assigns (map lower n) t
  | Plain _ k _ _ v _ _ :: t | Quoted _ k _ _ _ v _ :: t =>
      (sec ++ 58 :: map lower k, Some (Some v)) :: assigns sec t
  end.

(** Contents that survive being written and read back: sections without value,
    entries of existing sections with plain values. *)
Definition good_value (v : text) : Prop :=
  clean_text v /\ starts_black v /\ ends_black v /\ ~ In 59 v /\ ~ In 35 v /\ ~ starts_with 34 v /\ ~ starts_with 39 v.
Definition storable (m : text -> option (option text)) : Prop := forall k v, m k = Some v ->
  (~ In 58 k /\ v = None /\ k <> [] /\ ~ In 93 k /\ clean_text k /\ (List.length k <= 1000)%nat /\ map lower k = k) \/
  (exists sec key val, k = sec ++ 58 :: key /\ ~ In 58 sec /\ m sec <> None /\ v = Some val /\
     good_key key /\ clean_text key /\ map lower key = key /\ good_value val /\
     (Nat.max 30 (List.length key) + 3 + List.length val <= 1022)%nat).
