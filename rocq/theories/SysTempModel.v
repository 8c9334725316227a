(** Functions of msat/utils/sys.cc that take missing files as a normal case, temporary
    files and directories, and locks, on the file system of SysTreeModel.

    A path is absolute or starts at the current directory; its names are not "." or
    "..", and the last is not empty. Permissions and the errors they give are left out.
    The overloads for const char*, std::string and std::filesystem::path do the same. *)
From Verif Require Import Base IniModel SysTreeModel.

Record path := mk_path { pt_abs : bool; pt_dirs : list str; pt_name : str }.
(** The two places a path can start from. *)
Record place := mk_place { pl_root : ino; pl_cwd : ino }.
Definition start (w : place) (p : path) : ino := if pt_abs p then pl_root w else pl_cwd w.
Inductive errno := ENOENT | ENOTDIR | EOTHER.
(** ** The kernel. Walking to a directory follows links. *)
Fixpoint walk (c : fs) (i : ino) (ns : list str) : ino + errno :=
  match ns with
  | [] => inl i
  | n :: ns' =>
      match c i with
      | Some (ODir es) =>
          match lookup n es with
          | None => inr ENOENT
          | Some j => match follow c j with None => inr ENOENT | Some t => walk c t ns' end
          end
      | _ => inr ENOTDIR
      end
  end.
(** The directory of a path and the object its last name has there, if any. *)
Definition entry (c : fs) (w : place) (p : path) : (ino * option ino) + errno :=
  match walk c (start w p) (pt_dirs p) with
  | inr e => inr e
  | inl d => match c d with Some (ODir es) => inl (d, lookup (pt_name p) es) | _ => inr ENOTDIR end
  end.
Definition k_stat (c : fs) (w : place) (p : path) : ino + errno :=
  match entry c w p with
  | inr e => inr e
  | inl (_, None) => inr ENOENT
  | inl (_, Some j) => match follow c j with None => inr ENOENT | Some t => inl t end
  end.
Definition k_unlink (c : fs) (w : place) (p : path) : fs + errno :=
  match entry c w p with
  | inr e => inr e
  | inl (_, None) => inr ENOENT
  | inl (d, Some j) => if is_dir c j then inr EOTHER else inl (remove_entry c d (pt_name p))
  end.
(** A new or replaced entry. *)
Definition set_entry (c : fs) (d : ino) (n : str) (j : ino) : fs := fun i =>
  if i =? d then match c d with
                 | Some (ODir es) => Some (ODir (filter (fun e => negb (str_eqb n (fst e))) es ++ [(n, j)]))
                 | o => o
                 end
  else c i.
Section Kernel.
(** Whether a directory is another one or inside of it. *)
Variable inside : fs -> ino -> ino -> bool.
(** rename(2): two names of one object are left as they are; a directory replaces
    only an empty directory, other objects only such that are no directories. *)
Definition k_rename (c : fs) (w : place) (src dst : path) : fs + errno :=
  match entry c w src with
  | inr e => inr e
  | inl (_, None) => inr ENOENT
  | inl (d1, Some j) =>
      match entry c w dst with
      | inr e => inr e
      | inl (d2, o) =>
          if is_dir c j && inside c d2 j then inr EOTHER
          else
            let free := match o with
                        | None => true
                        | Some k => match c k with
                                    | Some (ODir []) => is_dir c j
                                    | Some (ODir _) => false
                                    | _ => negb (is_dir c j)
                                    end
                        end in
            if match o with Some k => k =? j | None => false end then inl c
            else if negb free then inr EOTHER
            else inl (set_entry (remove_entry c d1 (pt_name src)) d2 (pt_name dst) j)
      end
  end.

(** ** sys.cc *)
(** sys.cc:46-83: stat; None is the null pointer. *)
Definition stat (c : fs) (w : place) (p : path) : outcome (option obj) :=
  match k_stat c w p with
  | inl t => match c t with Some o => Ok (Some o) | None => UB end
  | inr ENOENT => Ok None
  | inr _ => Throw
  end.
(** sys.cc:157-161, 170-174, 183-187: timestamp, size and inode with a default; [get]
    is the field of the structure. *)
Definition stat_or (get : obj -> Z) (c : fs) (w : place) (p : path) (def : Z) : outcome Z :=
  let! st := stat c w p in Ok (match st with Some o => get o | None => def end).
(** sys.cc:150-155, 163-168, 176-181: the same without a default. *)
Definition stat_of (get : obj -> Z) (c : fs) (w : place) (p : path) : outcome Z :=
  match k_stat c w p with inl t => match c t with Some o => Ok (get o) | None => UB end | inr _ => Throw end.
(** sys.cc:1141-1178 *)
Definition unlink_ifexists (c : fs) (w : place) (p : path) : outcome (bool * fs) :=
  match k_unlink c w p with
  | inl c' => Ok (true, c')
  | inr ENOENT => Ok (false, c)
  | inr _ => Throw
  end.
(** sys.cc:1185-1196 *)
Definition rename_ifexists (c : fs) (w : place) (src dst : path) : outcome (bool * fs) :=
  match k_rename c w src dst with
  | inl c' => Ok (true, c')
  | inr ENOENT => Ok (false, c)
  | inr _ => Throw
  end.
End Kernel.

(** ** Temporary files, sys.cc:951-1008. mkstemp(3) puts six characters [x] after the
    prefix and makes a new file [i]; the prefix is a path whose last name may be empty. *)
Record tempfile := mk_tempfile { tf_path : path; tf_unlink : bool }.
Definition mkstemp (c : fs) (w : place) (prefix : path) (x : str) (i : ino) : outcome (tempfile * fs) :=
  let p := mk_path (pt_abs prefix) (pt_dirs prefix) (pt_name prefix ++ x) in
  match entry c w p with
  | inl (d, None) => Ok (mk_tempfile p true, set_entry (fun j => if j =? i then Some OFile else c j) d (pt_name p) i)
  | _ => Throw
  end.
(** std::filesystem::remove of a path: a missing entry is no error. *)
Definition remove (c : fs) (w : place) (p : path) : outcome fs :=
  match entry c w p with
  | inr ENOENT => Ok c
  | inr _ => Throw
  | inl (d, None) => Ok c
  | inl (d, Some j) => match c j with Some (ODir (_ :: _)) => Throw | _ => Ok (remove_entry c d (pt_name p)) end
  end.
(** sys.cc:994-998: an exception leaves a destructor. The file is closed afterwards. *)
Definition destroy (c : fs) (w : place) (t : tempfile) : outcome fs :=
  if tf_unlink t then match remove c w (tf_path t) with Throw => Terminate | r => r end else Ok c.

(** ** Locks, sys.cc:416-455. The answers of fcntl(2) in order: the lock, or errno. *)
Inductive answer := Granted | EAgain | EAcces | EIntr | EFail.
Definition ofd_setlk (a : answer) : outcome bool :=
  match a with Granted => Ok true | EAgain | EAcces => Ok false | _ => Throw end.
(** Each turn takes the next answer; Loop is waiting for ever. *)
Fixpoint ofd_setlkw (fuel : nat) (answers : nat -> answer) (k : nat) (retry : bool) : outcome (bool * nat) :=
  match fuel with
  | O => Loop
  | S f => match answers k with
           | Granted => Ok (true, S k)
           | EIntr => if retry then ofd_setlkw f answers (S k) retry else Ok (false, S k)
           | _ => Throw
           end
  end.
