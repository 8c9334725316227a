(** Path::iterator, sys.h:405-461 and sys.cc:586-610, 713-852: directory streams and the
    types of their entries. The answers of the system are parameters; other processes and
    the use of a stream by two iterators are left out. *)
From Verif Require Import Base IniModel SysModel.

(** A directory entry: its name, the type the file system tells with it, if it does, and
    what the name leads to. *)
Record dirent := mk_dirent { de_name : str; de_type : option kind; de_object : option entry }.
(** What readdir answers; after the last answer the directory has ended. *)
Inductive dir_answer := Entry (e : dirent) | NoMore | ReadError.
(** The directory streams and other descriptors the program holds, and what the stream of
    the iterator answers next. *)
Record held := mk_held { h_streams : Z; h_fds : Z; h_rest : list dir_answer }.
(** sys.h:413-415: whether path and dir are set, and the entry. *)
Record dir_iter := mk_iter { it_path : bool; it_dir : bool; it_cur : option dirent }.
Definition end_iter : dir_iter := mk_iter false false None.
Definition close_stream (h : held) : held := mk_held (h_streams h - 1) (h_fds h) (h_rest h).
Definition with_rest (h : held) (l : list dir_answer) : held := mk_held (h_streams h) (h_fds h) l.

(** A call: undefined, or its result and what is held; [None] if it throws. *)
Definition call (A : Type) := outcome (option A * held).
(** operator++, sys.cc:742-757. readdir of no stream, and throw_error of no path (line
    748, which reads the path), are undefined. A thrown exception leaves the iterator as
    it was, with no entry. *)
Definition advance (it : dir_iter) (h : held) : call dir_iter :=
  if it_dir it then
    match h_rest h with
    | Entry e :: l => Ok (Some (mk_iter (it_path it) true (Some e)), with_rest h l)
    | ReadError :: l => if it_path it then Ok (None, with_rest h l) else UB
    | NoMore :: l => Ok (Some (mk_iter (it_path it) false None), close_stream (with_rest h l))
    | [] => Ok (Some (mk_iter (it_path it) false None), close_stream h)
    end
  else UB.
(** fdopendir, sys.cc:586-597. *)
Inductive opening := Opens | NotOpened | NoStream.
Definition fdopendir (o : opening) (h : held) : option unit * held :=
  match o with
  | Opens => (Some tt, mk_held (h_streams h + 1) (h_fds h) (h_rest h))
  | NotOpened => (None, h)
  | NoStream => (None, mk_held (h_streams h) (h_fds h + 1) (h_rest h))
  end.
(** The constructor, sys.cc:717-722: when it throws there is no object to be destroyed. *)
Definition iter_of (o : opening) (h : held) : call dir_iter :=
  match fdopendir o h with
  | (None, h1) => Ok (None, h1)
  | (Some _, h1) => advance (mk_iter true true None) h1
  end.
(** begin, sys.cc:599-605; the object is built in place. *)
Definition begin_ (fd_open : bool) (o : opening) (h : held) : call dir_iter :=
  if fd_open then iter_of o h else Ok (Some end_iter, h).
(** The destructor, sys.cc:724-727. *)
Definition destroy_iter (it : dir_iter) (h : held) : held := if it_dir it then close_stream h else h.
(** The move constructor, sys.h:422-427: the new iterator; the old one is an end. *)
Definition move_iter (it : dir_iter) : dir_iter := mk_iter false (it_dir it) (it_cur it).
(** operator!= with end(), sys.cc:735-740. *)
Definition not_end (it : dir_iter) : bool := it_dir it.

(** for (; i != end(); ++i) body: the entries given to the body, which may throw, and how
    it ended. The iterator is destroyed on every way out. *)
Fixpoint visit (fuel : nat) (body : dirent -> bool) (it : dir_iter) (h : held) : outcome (list dirent * status * held) :=
  match fuel with
  | O => Loop
  | S f =>
      if not_end it then
        match it_cur it with
        | None => UB
        | Some e =>
            if body e then
              let! r := advance it h in
              match fst r with
              | None => Ok ([e], Threw, destroy_iter it (snd r))
              | Some it' => let! v := visit f body it' (snd r) in
                            let '(es, s, h') := v in Ok (e :: es, s, h')
              end
            else Ok ([e], Threw, destroy_iter it h)
        end
      else Ok ([], Done, destroy_iter it h)
  end.
Definition for_each (fd_open : bool) (o : opening) (body : dirent -> bool) (h : held) : outcome (list dirent * status * held) :=
  let! r := begin_ fd_open o h in
  match fst r with
  | None => Ok ([], Threw, snd r)
  | Some it => visit (S (S (List.length (h_rest h)))) body it (snd r)
  end.

(** isdir, isblk, ischr, isfifo, islnk, isreg and issock, sys.cc:759-852: fstatat (637-641)
    with no flags follows a link and throws when nothing is there. *)
Definition entry_is (k : kind) (it : dir_iter) : outcome bool :=
  match it_cur it with
  | None => UB
  | Some e =>
      match de_type e with
      | Some d => Ok (kind_eqb d k)
      | None => if it_path it then match stat_kind (de_object e) with None => Throw | Some k' => Ok (kind_eqb k' k) end else UB
      end
  end.
