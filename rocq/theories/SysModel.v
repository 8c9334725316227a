(** msat/utils/sys.{h,cc}: the installed wrappers around the system calls.  The
    kernel is an oracle: each system call consumes one answer, and a call for
    which no answer is left has not returned yet.  Paths are byte strings. *)
From Verif Require Import Base IniModel StringModel.

(** ** Reading and writing, sys.cc:321-400 *)
(** The answer of one ::read or ::write: how many bytes the kernel is ready to
    move, or -1 (whatever errno is, EINTR included). *)
Inductive io_answer := Gives (n : nat) | Fails.
(** How a call stands: returned, threw, or still waiting for the kernel. *)
Inductive status := Done | Threw | Waiting.

(** ::write at the end of what was written so far: the kernel takes at most
    [count] bytes. *)
Definition taken (n count : nat) : nat := Nat.min n count.

(** FileDescriptor::write_all_or_retry, sys.cc:388-393 (write, lines 356-362,
    throws when ::write answers -1).  [out] is what the device received, the
    last component the answers not yet consumed. *)
Fixpoint write_all_or_retry (ans : list io_answer) (buf : list Z) (written : nat) (out : list Z)
  : list Z * status * list io_answer :=
  if (written <? List.length buf)%nat then
    match ans with
    | [] => (out, Waiting, [])
    | Fails :: ans' => (out, Threw, ans')
    | Gives n :: ans' =>
        let k := taken n (List.length buf - written) in
        write_all_or_retry ans' buf (written + k) (out ++ firstn k (skipn written buf))
    end
  else (out, Done, ans).

(** FileDescriptor::write_all_or_throw, sys.cc:395-400: one call. *)
Definition write_all_or_throw (a : io_answer) (buf out : list Z) : list Z * status :=
  match a with
  | Fails => (out, Threw)
  | Gives n => let k := taken n (List.length buf) in
               (out ++ firstn k buf, if (k <? List.length buf)%nat then Threw else Done)
  end.

(** ::read with [src] the bytes not yet read: nothing only at the end of the
    file, else at least one byte and at most [remaining]. *)
Definition given (n remaining : nat) (src : list Z) : nat :=
  Nat.max (Nat.min 1 (List.length src)) (Nat.min n (Nat.min remaining (List.length src))).

(** FileDescriptor::read_all_or_retry, sys.cc:329-347.  [buf] is what was stored
    so far. *)
Inductive read_result := RTrue | RFalse | RPartial | RError | RWaiting.
Fixpoint read_all_or_retry (ans : list io_answer) (src : list Z) (count remaining : nat) (buf : list Z)
  : list Z * list Z * read_result :=
  if (0 <? remaining)%nat then
    match ans with
    | [] => (buf, src, RWaiting)
    | Fails :: _ => (buf, src, RError)
    | Gives n :: ans' =>
        let res := given n remaining src in
        if (res =? 0)%nat then (buf, src, if (remaining =? count)%nat then RFalse else RPartial)
        else read_all_or_retry ans' (skipn res src) count (remaining - res) (buf ++ firstn res src)
    end
  else (buf, src, RTrue).

(** FileDescriptor::read_all_or_throw, sys.cc:349-354: one call. *)
Definition read_all_or_throw (a : io_answer) (src : list Z) (count : nat) : list Z * list Z * status :=
  match a with
  | Fails => ([], src, Threw)
  | Gives n => let res := if (count =? 0)%nat then 0%nat else given n count src in
               (firstn res src, skipn res src, if (res =? count)%nat then Done else Threw)
  end.

(** ** Whole files, sys.cc:1045-1130 *)
(** What a name stands for: bytes, permissions, and whether the file is a
    regular one (st_size is then the number of bytes; for /proc files and FIFOs
    st_size is 0). *)
Record file := mk_file { f_data : list Z; f_mode : Z; f_regular : bool }.
Definition dir := str -> option file.
Definition put (d : dir) (p : str) (f : option file) : dir := fun q => if str_eqb p q then f else d q.
Definition st_size (f : file) : nat := if f_regular f then List.length (f_data f) else 0.

(** read_file, sys.cc:1045-1060: fstat, then mmap of st_size bytes. *)
Definition read_file (d : dir) (p : str) : outcome (list Z) :=
  match d p with
  | None => Throw
  | Some f => if (st_size f =? 0)%nat then Ok [] else Ok (firstn (st_size f) (f_data f))
  end.

(** umask: the permission bits of a new file. *)
Definition masked (mode mask : Z) : Z := Z.land mode (Z.lnot mask).

(** open(path, O_WRONLY|O_CREAT|O_TRUNC, mode) *)
Definition open_trunc (d : dir) (p : str) (mode mask : Z) : dir :=
  put d p (Some match d p with
                | Some f => mk_file [] (f_mode f) (f_regular f)
                | None => mk_file [] (masked mode mask) true
                end).
Definition set_data (d : dir) (p : str) (b : list Z) : dir :=
  put d p (match d p with Some f => Some (mk_file b (f_mode f) (f_regular f)) | None => None end).

(** write_file, sys.cc:1087-1092 *)
Definition write_file (d : dir) (p : str) (data : list Z) (mode mask : Z) (open_ok : bool) (ans : list io_answer) (close_ok : bool)
  : dir * status :=
  if negb open_ok then (d, Threw)
  else
    let d1 := open_trunc d p mode mask in
    let '(out, st, _) := write_all_or_retry ans data 0 [] in
    let d2 := set_data d1 p out in
    match st with Done => (d2, if close_ok then Done else Threw) | _ => (d2, st) end.

(** write_file_atomically, sys.cc:1114-1130, with the state of the directory
    after every system call that changes it (the last one is the current one).
    [tmp] is the name mkstemp found, [None] when it failed. *)
Fixpoint growing (d : dir) (p : str) (ans : list io_answer) (buf : list Z) (written : nat) (out : list Z) : list dir :=
  if (written <? List.length buf)%nat then
    match ans with
    | Gives n :: ans' =>
        let k := taken n (List.length buf - written) in
        let out' := out ++ firstn k (skipn written buf) in
        set_data d p out' :: growing d p ans' buf (written + k) out'
    | _ => []
    end
  else [].
Record atomic_oracle := mk_oracle
  { o_tmp : option str; o_chmod : bool; o_write : list io_answer; o_close : bool; o_rename : bool }.
Definition write_file_atomically (d : dir) (p : str) (data : list Z) (mode mask : Z) (o : atomic_oracle) : list dir * status :=
  match o_tmp o with
  | None => ([d], Threw)
  | Some tmp =>
      (** mkstemp creates the file with mode 0600 *)
      let d1 := put d tmp (Some (mk_file [] 384 true)) in
      if negb (o_chmod o) then ([d; d1], Threw)
      else
        let d2 := put d tmp (Some (mk_file [] (masked mode mask) true)) in
        let '(out, st, _) := write_all_or_retry (o_write o) data 0 [] in
        let trace := [d; d1; d2] ++ growing d2 tmp (o_write o) data 0 [] in
        match st with
        | Done =>
            if negb (o_close o) then (trace, Threw)
            else if negb (o_rename o) then (trace, Threw)
            else let d3 := set_data d2 tmp out in
                 (trace ++ [put (put d3 p (d3 tmp)) tmp None], Done)
        | _ => (trace, st)
        end
  end.

(** ** Path::readlinkat, sys.cc:695-710; ::readlinkat stores at most the size of
    the buffer and answers how many bytes it stored. *)
Fixpoint readlinkat_loop (fuel : nat) (target : str) (size : nat) : outcome str :=
  match fuel with
  | O => Loop
  | S f =>
      let sz := Nat.min size (List.length target) in
      if (sz <? size)%nat then Ok (firstn sz target) else readlinkat_loop f target (size * 2)
  end.
Definition readlinkat (fuel : nat) (target : option str) : outcome str :=
  match target with None => Throw | Some t => readlinkat_loop fuel t 256 end.

(** ** timesec_elapsed, sys.cc:1285-1301; long is 64 bits, overflow is undefined,
    the result is converted to unsigned long long. *)
Record timespec := mk_ts { tv_sec : Z; tv_nsec : Z }.
Definition long (v : Z) : outcome Z := if (-2 ^ 63 <=? v) && (v <? 2 ^ 63) then Ok v else UB.
Definition ull (v : Z) : Z := v mod 2 ^ 64.
Definition timesec_elapsed (b u : timespec) : outcome Z :=
  if tv_sec b >? tv_sec u then Ok 0
  else if tv_sec b =? tv_sec u then
    if tv_nsec b >? tv_nsec u then Ok 0
    else let! r := long (tv_nsec u - tv_nsec b) in Ok (ull r)
  else if tv_nsec u <? tv_nsec b then
    let! s := long (tv_sec u - tv_sec b) in
    let! s1 := long (s - 1) in
    let! m := long (s1 * 1000000000) in
    let! n := long (tv_nsec u + 1000000000) in
    let! n1 := long (n - tv_nsec b) in
    let! r := long (m + n1) in Ok (ull r)
  else
    let! s := long (tv_sec u - tv_sec b) in
    let! m := long (s * 1000000000) in
    let! m1 := long (m + tv_nsec u) in
    let! r := long (m1 - tv_nsec b) in Ok (ull r).

(** ** which, sys.cc:1215-1234 *)
(** std::filesystem: path / name for a name without a root, and absolute. *)
Definition slash_join (d name : str) : str :=
  match rev d with
  | [] => name
  | c :: _ => if c =? 47 then d ++ name else d ++ 47 :: name
  end.
Definition absolute (cwd p : str) : str := match p with 47 :: _ => p | _ => slash_join cwd p end.
Definition has_slash (s : str) : bool := existsb (Z.eqb 47) s.
(** access(candidate, X_OK) is the oracle [exec]. *)
Fixpoint which_loop (cwd name : str) (exec : str -> bool) (l : list str) : str :=
  match l with
  | [] => name
  | i :: l' => let candidate := slash_join i name in
               if exec candidate then absolute cwd candidate else which_loop cwd name exec l'
  end.
Definition which (cwd name : str) (path : option str) (exec : str -> bool) : outcome str :=
  if has_slash name then Ok (absolute cwd name)
  else match path with
       | None => Ok name
       | Some p => let! l := split p (codes ":") true in Ok (which_loop cwd name exec l)
       end.

(** ** The type tests, sys.cc:103-146 *)
Inductive kind := KDir | KBlk | KChr | KFifo | KLnk | KReg | KSock.
(** What a name leads to: an object that is not a link, or a link with what it
    resolves to ([None]: nothing). *)
Inductive entry := Object (k : kind) | Link (to : option kind).
(** ::stat follows links; the answer is never a link. *)
Definition stat_kind (e : option entry) : option kind :=
  match e with
  | None => None
  | Some (Object k) => Some k
  | Some (Link to) => to
  end.
Definition kind_eqb (a b : kind) : bool :=
  match a, b with
  | KDir, KDir | KBlk, KBlk | KChr, KChr | KFifo, KFifo | KLnk, KLnk | KReg, KReg | KSock, KSock => true
  | _, _ => false
  end.
(** common_stat_body with ENOENT the only error: isdir, isblk, ischr, isfifo,
    islnk, isreg, issock. *)
Definition is_kind (k : kind) (e : option entry) : bool :=
  match stat_kind e with None => false | Some k' => kind_eqb k k' end.
