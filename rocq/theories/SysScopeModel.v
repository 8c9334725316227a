(** OverrideRlimit, sys.cc:1325-1354 and sys.h:792-803, and PreserveFileTimes, sys.cc:494-506
    and sys.h:333-342: settings changed or saved for the lifetime of an object. Destructors
    are noexcept, so an exception in one ends the program. *)
From Verif Require Import Base.

(** ** OverrideRlimit *)
Record rlimit := mk_rlimit { cur : Z; max : Z }.
Definition limits := Z -> rlimit.
Definition put_limit (l : limits) (r : Z) (v : rlimit) : limits := fun q => if q =? r then v else l q.
(** setrlimit for a process without privileges: the soft limit is at most the hard limit,
    which can only be lowered. [None] if it fails. *)
Definition setrlimit (l : limits) (r : Z) (v : rlimit) : option limits :=
  if (cur v <=? max v) && (max v <=? max (l r)) then Some (put_limit l r v) else None.

(** A program around the objects: [Override r v b] is a block with an object made with (r, v);
    [Set_ n v] calls set on the n-th object around it; [Look r] observes a soft limit;
    [Raise] throws; [Direct r v] calls setrlimit itself. *)
Inductive prog := Skip | Seq (p q : prog) | Look (r : Z) | Raise | Set_ (n : nat) (v : Z)
  | Direct (r : Z) (v : rlimit) | Override (r v : Z) (b : prog).
(** What an object keeps: resource and orig. *)
Definition object := (Z * rlimit)%type.
(** OverrideRlimit::set, sys.cc:1349-1354 *)
Definition set (o : object) (v : Z) (l : limits) : option limits := setrlimit l (fst o) (mk_rlimit v (max (snd o))).
(** What was observed, whether it threw, and the limits after. *)
Definition result := (list Z * bool * limits)%type.
Definition raising (l : limits) (m : option limits) : outcome result :=
  Ok (match m with Some l' => ([], false, l') | None => ([], true, l) end).
Fixpoint run (p : prog) (objs : list object) (l : limits) : outcome result :=
  match p with
  | Skip => Ok ([], false, l)
  | Raise => Ok ([], true, l)
  | Look r => Ok ([cur (l r)], false, l)
  | Set_ n v => match nth_error objs n with Some o => raising l (set o v l) | None => UB end
  | Direct r v => raising l (setrlimit l r v)
  | Seq p q =>
      let! a := run p objs l in
      let '(t, threw, l1) := a in
      if threw then Ok a
      else let! b := run q objs l1 in let '(t', threw', l2) := b in Ok (t ++ t', threw', l2)
  | Override r v b =>
      let o := (r, l r) in
      match set o v l with
      | None => Ok ([], true, l)                       (** sys.cc:1341, no object yet *)
      | Some l1 =>
          let! a := run b (o :: objs) l1 in
          let '(t, threw, l2) := a in
          match setrlimit l2 r (snd o) with            (** sys.cc:1344-1347 *)
          | Some l3 => Ok (t, threw, l3)
          | None => Terminate
          end
      end
  end.

(** ** PreserveFileTimes *)
(** Access and modification time of each file, the file behind each descriptor, and the
    files whose times the process may set. *)
Definition times := (Z * Z)%type.
Record files := mk_files { f_times : Z -> times; f_open : Z -> option Z; f_mine : Z -> bool }.
Inductive action := Touch (f : Z) (t : times) | CloseFd (fd : Z) | OpenFd (fd f : Z).
Definition act (w : files) (a : action) : files :=
  match a with
  | Touch f t => mk_files (fun g => if g =? f then t else f_times w g) (f_open w) (f_mine w)
  | CloseFd fd => mk_files (f_times w) (fun d => if d =? fd then None else f_open w d) (f_mine w)
  | OpenFd fd f => mk_files (f_times w) (fun d => if d =? fd then Some f else f_open w d) (f_mine w)
  end.
(** A block with an object made for [fd] in which [acts] happen. fstat and futimens throw
    when the descriptor is not open (sys.cc:301-305, 471-475). *)
Definition preserving (fd : Z) (acts : list action) (w : files) : outcome files :=
  match f_open w fd with
  | None => Throw
  | Some f =>
      let ts := f_times w f in
      let w1 := fold_left act acts w in
      match f_open w1 fd with
      | None => Terminate
      | Some g => if f_mine w1 g then Ok (act w1 (Touch g ts)) else Terminate
      end
  end.
