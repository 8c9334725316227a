(** sys::rmtree and Path::rmtree, sys.cc:586-618, 759-771, 860-875, 1248-1276, on
    a file system of numbered objects.  A link is given with the object it
    resolves to.  Permissions, other processes and descriptor limits are left
    out; a directory stream gives the entries the directory had when it was
    opened, without "." and ".." (skipped at line 864). *)
From Verif Require Import Base IniModel.

Definition ino := Z.
Inductive obj := OFile | ODir (es : list (str * ino)) | OLink (to : option ino).
Definition fs := ino -> option obj.

Fixpoint lookup (n : str) (es : list (str * ino)) : option ino :=
  match es with
  | [] => None
  | (m, j) :: es' => if str_eqb n m then Some j else lookup n es'
  end.
Definition entries (c : fs) (i : ino) : list (str * ino) := match c i with Some (ODir es) => es | _ => [] end.
(** unlink/rmdir of a name: the entry disappears. *)
Definition remove_entry (c : fs) (i : ino) (n : str) : fs := fun j =>
  if j =? i then match c i with
                 | Some (ODir es) => Some (ODir (filter (fun e => negb (str_eqb n (fst e))) es))
                 | o => o
                 end
  else c j.
(** open with O_PATH, and fstatat with flags 0, follow a link. *)
Definition follow (c : fs) (j : ino) : option ino :=
  match c j with
  | None => None
  | Some (OLink to) => to
  | Some _ => Some j
  end.
Definition is_dir (c : fs) (j : ino) : bool := match c j with Some (ODir _) => true | _ => false end.
(** Path::iterator::isdir, sys.cc:759-771: d_type when the file system gives one
    ([known]), else fstatat, which throws when nothing is found. *)
Definition isdir (known : bool) (c : fs) (j : ino) : outcome bool :=
  if known then Ok (is_dir c j)
  else match follow c j with None => Throw | Some t => match c t with None => Throw | Some _ => Ok (is_dir c t) end end.
(** std::filesystem::remove(path): the link itself, or an empty directory; a
    missing name is no error. *)
Definition remove_path (c : fs) (p : ino) (n : str) : outcome fs :=
  match lookup n (entries c p) with
  | None => Ok c
  | Some j => match c j with
              | Some (ODir (_ :: _)) => Throw
              | _ => Ok (remove_entry c p n)
              end
  end.
(** The loop of lines 862-872; [rm] is the recursive call of line 868 on the
    Path opened at line 867. *)
Fixpoint rm_loop (rm : fs -> ino -> str -> ino -> outcome fs) (known : bool) (i : ino) (c : fs) (l : list (str * ino)) : outcome fs :=
  match l with
  | [] => Ok c
  | (n, j) :: l' =>
      let! d := isdir known c j in
      let! c1 := (if d then match follow c j with None => Throw | Some t => rm c i n t end
                  else Ok (remove_entry c i n)) in
      rm_loop rm known i c1 l'
  end.
(** Path::rmtree on the opened object [i], whose path is the name [n] of the
    directory [p]; fdopendir (lines 586-597) throws when it is no directory. *)
Fixpoint rmtree (fuel : nat) (known : bool) (c : fs) (p : ino) (n : str) (i : ino) : outcome fs :=
  match fuel with
  | O => Loop
  | S f =>
      match c i with
      | Some (ODir es) =>
          let! c1 := rm_loop (rmtree f known) known i c es in
          remove_path c1 p n
      | _ => Throw
      end
  end.
(** sys::rmtree, sys.cc:1248-1252, and rmtree_ifexists, 1264-1276. *)
Definition sys_rmtree (fuel : nat) (known : bool) (c : fs) (p : ino) (n : str) : outcome fs :=
  match lookup n (entries c p) with
  | None => Throw
  | Some j => match follow c j with None => Throw | Some i => rmtree fuel known c p n i end
  end.
Definition rmtree_ifexists (fuel : nat) (known : bool) (c : fs) (p : ino) (n : str) : outcome (fs * bool) :=
  match lookup n (entries c p) with
  | None => Ok (c, false)
  | Some j => match follow c j with
              | None => Ok (c, false)
              | Some i => let! c' := rmtree fuel known c p n i in Ok (c', true)
              end
  end.
