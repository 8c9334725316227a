(** Ownership of memory mappings and file descriptors, sys.cc:231-265, 293-299,
    523-560, 934-940.  Objects are numbered; an object is absent, empty
    (MAP_FAILED, -1) or holds a resource.  The kernel keeps the list of the
    resources in use; giving back one that is not in use is recorded in [bad]. *)
From Verif Require Import Base.

Record state := mk_state { hold : nat -> option (option Z); live : list Z; bad : bool }.
Definition init : state := mk_state (fun _ => None) [] false.
Definition set (h : nat -> option (option Z)) (s : nat) (v : option (option Z)) : nat -> option (option Z) :=
  fun i => if (i =? s)%nat then v else h i.
Definition in_use (a : Z) (l : list Z) : bool := existsb (Z.eqb a) l.
(** The system call giving a resource back. *)
Definition release (st : state) (a : Z) : state :=
  if in_use a (live st) then mk_state (hold st) (filter (fun b => negb (b =? a)) (live st)) (bad st)
  else mk_state (hold st) (live st) true.
Definition put (st : state) (s : nat) (v : option (option Z)) : state := mk_state (set (hold st) s v) (live st) (bad st).
(** A new resource: the kernel never gives one that is in use. *)
Definition acquire (st : state) (a : Z) : state := mk_state (hold st) (a :: live st) (bad st).

(** ** MMap *)
Inductive mop := Map (s : nat) (a : Z) | MMoveNew (t s : nat) | MAssign (t s : nat) | Unmap (s : nat) | MDestroy (s : nat).
(** The second component tells whether the call threw.  Operations on absent
    objects, or on an object already there, are no program: they do nothing. *)
Definition mmap_step (st : state) (o : mop) : state * bool :=
  match o with
  | Map s a =>                                  (** FileDescriptor::mmap, sys.cc:408-414 *)
      match hold st s with
      | None => if in_use a (live st) then (st, false) else (put (acquire st a) s (Some (Some a)), false)
      | Some _ => (st, false)
      end
  | MMoveNew t s =>                             (** sys.cc:236-241 *)
      match hold st t, hold st s with
      | None, Some v => (put (put st t (Some v)) s (Some None), false)
      | _, _ => (st, false)
      end
  | MAssign t s =>                              (** sys.cc:243-253 *)
      if (t =? s)%nat then (st, false)
      else match hold st t, hold st s with
           | Some None, Some _ => (st, true)    (** munmap(MAP_FAILED, ...) is EINVAL *)
           | Some (Some a), Some v => (put (put (release st a) t (Some v)) s (Some None), false)
           | _, _ => (st, false)
           end
  | Unmap s =>                                  (** sys.cc:260-265 *)
      match hold st s with
      | Some None => (st, true)
      | Some (Some a) => (put (release st a) s (Some None), false)
      | None => (st, false)
      end
  | MDestroy s =>                               (** sys.cc:255-258 *)
      match hold st s with
      | Some None => (put st s None, false)
      | Some (Some a) => (put (release st a) s None, false)
      | None => (st, false)
      end
  end.
Definition mmap_run (l : list mop) (st : state) : state := fold_left (fun s o => fst (mmap_step s o)) l st.

(** ** ManagedNamedFileDescriptor, Path, File *)
(** ::close gives the descriptor back even when it reports an error (Linux). *)
Inductive fop := Open (s : nat) (a : Z) | FMoveNew (t s : nat) | FAssign (t s : nat) (close_ok : bool)
  | Close (s : nat) (close_ok : bool) | Reopen (s : nat) (a : Z) (close_ok : bool) | FDestroy (s : nat).
(** FileDescriptor::close, sys.cc:293-299 *)
Definition fd_close (st : state) (s : nat) (close_ok : bool) : state * bool :=
  match hold st s with
  | Some (Some a) => if close_ok then (put (release st a) s (Some None), false) else (release st a, true)
  | _ => (st, false)
  end.
Definition fd_step (st : state) (o : fop) : state * bool :=
  match o with
  | Open s a =>
      match hold st s with
      | None => if in_use a (live st) then (st, false) else (put (acquire st a) s (Some (Some a)), false)
      | Some _ => (st, false)
      end
  | FMoveNew t s =>                             (** sys.cc:273-277, 518-521 *)
      match hold st t, hold st s with
      | None, Some v => (put (put st t (Some v)) s (Some None), false)
      | _, _ => (st, false)
      end
  | FAssign t s ok =>                           (** sys.cc:552-560 *)
      if (t =? s)%nat then (st, false)
      else match hold st t, hold st s with
           | Some _, Some v =>
               let '(st1, threw) := fd_close st t ok in
               if threw then (st1, true) else (put (put st1 t (Some v)) s (Some None), false)
           | _, _ => (st, false)
           end
  | Close s ok => fd_close st s ok
  | Reopen s a ok =>                            (** File::open, sys.cc:934-940; Path::open, 578-584 *)
      match hold st s with
      | None => (st, false)
      | Some _ => let '(st1, threw) := fd_close st s ok in
                  if threw then (st1, true)
                  else if in_use a (live st1) then (st1, false) else (put (acquire st1 a) s (Some (Some a)), false)
      end
  | FDestroy s =>                               (** sys.cc:547-550 *)
      match hold st s with
      | Some None => (put st s None, false)
      | Some (Some a) => (put (release st a) s None, false)
      | None => (st, false)
      end
  end.
Definition fd_run (l : list fop) (st : state) : state := fold_left (fun s o => fst (fd_step s o)) l st.
