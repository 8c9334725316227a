(** Independent description of product names. *)
From Verif Require Import Base.

(** Fields without a separator. *)
Definition without (c : Z) (l : list Z) : Prop := ~ In c l.
Fixpoint join (c : Z) (ls : list (list Z)) : list Z :=
  match ls with
  | [] => []
  | [l] => l
  | l :: ls' => l ++ c :: join c ls'
  end.
(** [l] padded on the right with underscores to [w] characters. *)
Definition padded (l : list Z) (w : nat) (p : list Z) : Prop :=
  exists k, p = l ++ repeat 95 k /\ List.length p = w.
(** Not empty and not ending in an underscore. *)
Definition trimmed (l : list Z) : Prop := exists a b, l = a ++ [b] /\ b <> 95.
(** No character with a meaning in a search pattern. *)
Definition plain (l : list Z) : Prop :=
  Forall (fun c => c <> 42 /\ c <> 63 /\ c <> 91 /\ c <> 92) l.

(** The path of a product without directory, in the root, or in [d]. *)
Inductive located : list Z -> list Z -> list Z -> Prop :=
| loc_none : forall n, located [46] n n
| loc_root : forall n, located [47] n (47 :: n)
| loc_dir : forall d n, d <> [] -> located d n (d ++ 47 :: n).

(** A product: resolution, platform id, channel id, time. *)
Record product := mk_prod { pr_res : list Z; pr_pid1 : list Z; pr_pid2 : list Z; pr_time : list Z }.
Definition short_name (p : product) : list Z := join 58 [pr_res p; pr_pid1 p; pr_pid2 p; pr_time p].

(** HRIT segment file names: res-nnn-satell-platform____-channel__-0nnnnn___-time-C_ *)
Definition good_field (l : list Z) : Prop := trimmed l /\ without 45 l /\ without 47 l.
Definition good_product (p : product) : Prop :=
  without 45 (pr_res p) /\ without 47 (pr_res p) /\
  good_field (pr_pid1 p) /\ good_field (pr_pid2 p) /\ good_field (pr_time p) /\
  (List.length (pr_pid1 p) <= 12)%nat /\ (List.length (pr_pid2 p) <= 9)%nat.
Definition plain_product (p : product) : Prop :=
  plain (pr_res p) /\ plain (pr_pid1 p) /\ plain (pr_pid2 p) /\ plain (pr_time p).
Inductive segment_name (p : product) : list Z -> Prop :=
| seg_name : forall nnn sat id1 id2 num,
    List.length nnn = 3%nat -> without 45 nnn -> without 47 nnn ->
    List.length sat = 6%nat -> without 45 sat -> without 47 sat ->
    padded (pr_pid1 p) 12 id1 -> padded (pr_pid2 p) 9 id2 ->
    List.length num = 5%nat -> without 45 num -> without 47 num ->
    segment_name p (join 45 [pr_res p; nnn; sat; id1; id2; 48 :: num ++ repeat 95 3; pr_time p; [67; 95]]).
(** Prologue and epilogue names carry a tag instead of a segment number. *)
Inductive aux_name (tag : list Z) (p : product) : list Z -> Prop :=
| aux_name_intro : forall nnn sat id1,
    List.length nnn = 3%nat -> without 45 nnn -> without 47 nnn ->
    List.length sat = 6%nat -> without 45 sat -> without 47 sat ->
    padded (pr_pid1 p) 12 id1 ->
    aux_name tag p (join 45 [pr_res p; nnn; sat; id1; repeat 95 9; tag ++ repeat 95 6; pr_time p; [95; 95]]).
(** The same with arbitrary characters in the variable positions. *)
Inductive segment_like (p : product) : list Z -> Prop :=
| seg_like : forall nnn sat id1 id2 num,
    List.length nnn = 3%nat -> List.length sat = 6%nat -> List.length num = 5%nat ->
    padded (pr_pid1 p) 12 id1 -> padded (pr_pid2 p) 9 id2 ->
    segment_like p (join 45 [pr_res p; nnn; sat; id1; id2; 48 :: num ++ repeat 95 3; pr_time p; [67; 95]]).
Inductive aux_like (tag : list Z) (p : product) : list Z -> Prop :=
| aux_like_intro : forall nnn sat id1,
    List.length nnn = 3%nat -> List.length sat = 6%nat -> padded (pr_pid1 p) 12 id1 ->
    aux_like tag p (join 45 [pr_res p; nnn; sat; id1; repeat 95 9; tag ++ repeat 95 6; pr_time p; [95; 95]]).
