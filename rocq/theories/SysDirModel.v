(** Temporary directories and the functions of an open sys::Path, msat/utils/sys.cc, on
    the file system of SysTreeModel and the paths of SysTempModel.

    As there: permissions, other processes and descriptor limits are left out; open with
    O_CREAT is not modelled. *)
From Verif Require Import Base IniModel SysTreeModel SysTempModel.

(** ** Path::rmtree, sys.cc:860-875, with the path kept in the object. The entries are
    taken from the open directory, sub-directories are opened from it (lines 572-575), but each
    directory is deleted under its path. *)
Definition sub (p : path) (n : str) : path := mk_path (pt_abs p) (pt_dirs p ++ [pt_name p]) n.
Fixpoint rmtree_path (fuel : nat) (known : bool) (w : place) (c : fs) (p : path) (i : ino) : outcome fs :=
  match fuel with
  | O => Loop
  | S f =>
      match c i with
      | Some (ODir es) =>
          let! c1 := rm_loop (fun c' _ n t => rmtree_path f known w c' (sub p n) t) known i c es in
          remove c1 w p
      | _ => Throw
      end
  end.

(** ** Tempdir, sys.cc:1015-1034, and mkdtemp, 877-908: six characters [x] after the
    prefix, a new directory [i], which is then opened under its name (lines 566-570). *)
Record tempdir := mk_tempdir { td_path : path; td_dir : ino; td_rmtree : bool }.
Definition mkdtemp (c : fs) (w : place) (prefix : path) (x : str) (i : ino) : outcome (path * fs) :=
  let p := mk_path (pt_abs prefix) (pt_dirs prefix) (pt_name prefix ++ x) in
  match entry c w p with
  | inl (d, None) => Ok (p, set_entry (fun j => if j =? i then Some (ODir []) else c j) d (pt_name p) i)
  | _ => Throw
  end.
Definition Tempdir (c : fs) (w : place) (prefix : path) (x : str) (i : ino) : outcome (tempdir * fs) :=
  let! (p, c1) := mkdtemp c w prefix x i in
  match k_stat c1 w p with
  | inl t => Ok (mk_tempdir p t true, c1)
  | inr _ => Throw
  end.
Definition rmtree_on_exit (t : tempdir) (val : bool) : tempdir := mk_tempdir (td_path t) (td_dir t) val.
(** The destructor. [None]: an exception was dropped, and what was deleted before it is
    not told. *)
Definition destroy_dir (fuel : nat) (known : bool) (c : fs) (w : place) (t : tempdir) : outcome (option fs) :=
  if td_rmtree t then
    match rmtree_path fuel known w c (td_path t) (td_dir t) with
    | Ok c' => Ok (Some c')
    | Throw => Ok None
    | Terminate => Terminate
    | UB => UB
    | Loop => Loop
    end
  else Ok (Some c).

(** ** The functions of a Path open on the directory [i]: a relative name starts there. *)
Definition from (w : place) (i : ino) : place := mk_place (pl_root w) i.
(** sys.cc:612-631, with flags that do not create: the object opened; None is -1. *)
Definition openat (c : fs) (w : place) (i : ino) (p : path) : outcome ino :=
  match k_stat c (from w i) p with inl t => Ok t | inr _ => Throw end.
Definition openat_ifexists (c : fs) (w : place) (i : ino) (p : path) : outcome (option ino) :=
  match k_stat c (from w i) p with inl t => Ok (Some t) | inr ENOENT => Ok None | inr _ => Throw end.
(** sys.cc:633-636 with mode F_OK *)
Definition faccessat (c : fs) (w : place) (i : ino) (p : path) : bool :=
  match k_stat c (from w i) p with inl _ => true | inr _ => false end.
(** sys.cc:638-669 *)
Definition fstatat_ifexists (c : fs) (w : place) (i : ino) (p : path) : outcome (option obj) := stat c (from w i) p.
Definition k_lstat (c : fs) (w : place) (p : path) : ino + errno :=
  match entry c w p with inr e => inr e | inl (_, None) => inr ENOENT | inl (_, Some j) => inl j end.
Definition lstatat_ifexists (c : fs) (w : place) (i : ino) (p : path) : outcome (option obj) :=
  match k_lstat c (from w i) p with
  | inl j => match c j with Some o => Ok (Some o) | None => UB end
  | inr ENOENT => Ok None
  | inr _ => Throw
  end.
Definition present_or_throw {A} (r : outcome (option A)) : outcome A := let! o := r in match o with Some a => Ok a | None => Throw end.
Definition fstatat (c : fs) (w : place) (i : ino) (p : path) : outcome obj := present_or_throw (fstatat_ifexists c w i p).
Definition lstatat (c : fs) (w : place) (i : ino) (p : path) : outcome obj := present_or_throw (lstatat_ifexists c w i p).
(** sys.cc:671-693; [k] is the new object. *)
Definition unlinkat (c : fs) (w : place) (i : ino) (p : path) : outcome fs :=
  match k_unlink c (from w i) p with inl c' => Ok c' | inr _ => Throw end.
Definition create (c : fs) (w : place) (p : path) (k : ino) (o : obj) : outcome fs :=
  match entry c w p with
  | inl (d, None) => Ok (set_entry (fun j => if j =? k then Some o else c j) d (pt_name p) k)
  | _ => Throw
  end.
Definition mkdirat (c : fs) (w : place) (i : ino) (p : path) (k : ino) : outcome fs := create c (from w i) p k (ODir []).
(** The target of a new link is what its text will lead to. *)
Definition symlinkat (c : fs) (w : place) (i : ino) (target : option ino) (p : path) (k : ino) : outcome fs := create c (from w i) p k (OLink target).
Definition rmdirat (c : fs) (w : place) (i : ino) (p : path) : outcome fs :=
  match entry c (from w i) p with
  | inl (d, Some j) => match c j with Some (ODir []) => Ok (remove_entry c d (pt_name p)) | _ => Throw end
  | _ => Throw
  end.
