(** msat/utils/subprocess.{h,cc}: child processes.  A descriptor table maps a
    descriptor to the open file it stands for. *)
From Verif Require Import Base IniModel GribModel.
Open Scope string_scope.
Open Scope list_scope.
Open Scope Z_scope.

(** ** Descriptor tables *)
Definition table := Z -> option Z.
Definition upd (t : table) (fd : Z) (f : option Z) : table := fun i => if i =? fd then f else t i.
(** dup2(a, b): EBADF when [a] is closed; a no-op when they are equal. *)
Definition dup2 (t : table) (a b : Z) : outcome table :=
  match t a with None => Throw | Some f => Ok (upd t b (Some f)) end.
(** close as used with its result checked. *)
Definition close (t : table) (fd : Z) : outcome table :=
  match t fd with None => Throw | Some _ => Ok (upd t fd None) end.
(** close with the result ignored. *)
Definition close_any (t : table) (fd : Z) : table := upd t fd None.

(** ** Configuration, subprocess.h:11-29, 35-75 *)
Inductive action := PIPE | DEVNULL | STDOUT | FD | UNCHANGED.
(** m_stdin, m_stdout and m_stderr: the two ends, with -1 for none. *)
Record stream := mk_stream { act : action; rd : Z; wr : Z }.
Definition no_stream : stream := mk_stream UNCHANGED (-1) (-1).
Record child := mk_child { s_in : stream; s_out : stream; s_err : stream }.
Definition new_child : child := mk_child no_stream no_stream no_stream.
(** set_stdin(fd), set_stdout(fd), set_stderr(fd), lines 68-93 *)
Definition fd_in (fd : Z) : stream := mk_stream FD fd (-1).
Definition fd_out (fd : Z) : stream := mk_stream FD (-1) fd.
(** set_...(Redirect), lines 95-114 *)
Definition set_action (s : stream) (a : action) : stream := mk_stream a (rd s) (wr s).

(** pipe(): the two descriptors and the two files behind them, [None] on failure. *)
Record pipe_answer := mk_pipe { p_rd : Z; p_wr : Z; p_rfile : Z; p_wfile : Z }.
Definition make_pipe (t : table) (s : stream) (a : option pipe_answer) : table * stream * bool :=
  match act s with
  | PIPE => match a with
            | None => (t, s, false)
            | Some p => (upd (upd t (p_rd p) (Some (p_rfile p))) (p_wr p) (Some (p_wfile p)), mk_stream PIPE (p_rd p) (p_wr p), true)
            end
  | _ => (t, s, true)
  end.
(** Child::pre_fork, lines 134-165: the boolean tells whether it returned. *)
Definition pre_fork (t : table) (c : child) (a b e : option pipe_answer) : table * child * bool :=
  let '(t1, i, ok1) := make_pipe t (s_in c) a in
  if negb ok1 then (t1, c, false)
  else let '(t2, o, ok2) := make_pipe t1 (s_out c) b in
       if negb ok2 then (t2, mk_child i (s_out c) (s_err c), false)
       else let '(t3, r, ok3) := make_pipe t2 (s_err c) e in
            (t3, mk_child i o r, ok3).

(** Child::post_fork_parent, lines 167-201 *)
Definition parent_in (t : table) (s : stream) : outcome (table * stream) :=
  match act s with PIPE => let! t1 := close t (rd s) in Ok (t1, mk_stream PIPE (-1) (wr s)) | _ => Ok (t, s) end.
Definition parent_out (t : table) (s : stream) : outcome (table * stream) :=
  match act s with PIPE => let! t1 := close t (wr s) in Ok (t1, mk_stream PIPE (rd s) (-1)) | _ => Ok (t, s) end.
Definition post_fork_parent (t : table) (c : child) : outcome (table * child) :=
  let! (t1, i) := parent_in t (s_in c) in
  let! (t2, o) := parent_out t1 (s_out c) in
  let! (t3, e) := parent_out t2 (s_err c) in
  Ok (t3, mk_child i o e).
(** close_stdin, close_stdout, close_stderr, lines 116-132 *)
Inductive which_stream := In_ | Out_ | Err_.
Definition close_stream (tc : table * child) (w : which_stream) : table * child :=
  let '(t, c) := tc in
  match w with
  | In_ => (close_any t (wr (s_in c)), mk_child (mk_stream (act (s_in c)) (rd (s_in c)) (-1)) (s_out c) (s_err c))
  | Out_ => (close_any t (rd (s_out c)), mk_child (s_in c) (mk_stream (act (s_out c)) (-1) (wr (s_out c))) (s_err c))
  | Err_ => (close_any t (rd (s_err c)), mk_child (s_in c) (s_out c) (mk_stream (act (s_err c)) (-1) (wr (s_err c))))
  end.
(** Child::~Child, lines 18-46 *)
Definition destroy_end (t : table) (a : action) (fd : Z) : table :=
  match a with PIPE => if fd =? -1 then t else close_any t fd | _ => t end.
Definition destroy (t : table) (c : child) : table :=
  destroy_end (destroy_end (destroy_end t (act (s_in c)) (wr (s_in c))) (act (s_out c)) (rd (s_out c))) (act (s_err c)) (rd (s_err c)).
(** Child::fork in the parent, lines 310-336; a failed ::fork throws. *)
Definition fork_parent (t : table) (c : child) (a b e : option pipe_answer) (fork_ok : bool) : table * child * bool :=
  let '(t1, c1, ok) := pre_fork t c a b e in
  if negb ok then (t1, c1, false)
  else if negb fork_ok then (t1, c1, false)
  else match post_fork_parent t1 c1 with Ok (t2, c2) => (t2, c2, true) | _ => (t1, c1, false) end.

(** ** The child, lines 203-308 *)
Definition redirect (t : table) (newfd oldfd : Z) : outcome table :=
  let! t1 := dup2 t newfd oldfd in close t1 newfd.
(** fd_devnull: opened once; [fresh] is the descriptor open gives, [null] the
    file. *)
Definition with_devnull (fresh : table -> Z) (null : Z) (t : table) (dn : option Z) : table * Z :=
  match dn with Some fd => (t, fd) | None => (upd t (fresh t) (Some null), fresh t) end.
Definition child_stream (fresh : table -> Z) (null : Z) (t : table) (dn : option Z) (s : stream) (mine other target : Z) (to_stdout : bool)
  : outcome (table * option Z) :=
  match act s with
  | FD => let! t1 := redirect t mine target in Ok (t1, dn)
  | PIPE => let! t0 := close t other in let! t1 := redirect t0 mine target in Ok (t1, dn)
  | DEVNULL => let '(t0, fd) := with_devnull fresh null t dn in
               let! t1 := dup2 t0 fd target in Ok (t1, Some fd)
  | STDOUT => if to_stdout then let! t1 := dup2 t 1 2 in Ok (t1, dn) else Ok (t, dn)
  | UNCHANGED => Ok (t, dn)
  end.
(** for (int i = 3; i < max; ++i), lines 287-292 *)
Fixpoint close_from (n : nat) (i : Z) (pass : list Z) (t : table) : table :=
  match n with
  | O => t
  | S m => close_from m (i + 1) pass (if existsb (Z.eqb i) pass then t else close_any t i)
  end.
Definition close_others (max : option Z) (pass : list Z) (t : table) : table :=
  match max with None => t | Some m => close_from (Z.to_nat (m - 3)) 3 pass t end.
(** Child::post_fork_child; chdir and setsid are left out. *)
Definition post_fork_child (fresh : table -> Z) (null : Z) (t : table) (c : child) (close_fds : bool) (max : option Z) (pass : list Z) : outcome table :=
  let! (t1, dn1) := child_stream fresh null t None (s_in c) (rd (s_in c)) (wr (s_in c)) 0 false in
  let! (t2, dn2) := child_stream fresh null t1 dn1 (s_out c) (wr (s_out c)) (rd (s_out c)) 1 false in
  let! (t3, dn3) := child_stream fresh null t2 dn2 (s_err c) (wr (s_err c)) (rd (s_err c)) 2 true in
  let t4 := match dn3 with Some fd => close_any t3 fd | None => t3 end in
  Ok (if close_fds then close_others max pass t4 else t4).
(** lines 312-313: pass_fds implies close_fds. *)
Definition effective_close (close_fds : bool) (pass : list Z) : bool := match pass with [] => close_fds | _ => true end.

(** ** Waiting, lines 48-51, 339-378, 407-456 *)
(** The status word of wait(2). *)
Definition WEXITSTATUS (raw : Z) : Z := Z.land (Z.shiftr raw 8) 255.
Definition WTERMSIG (raw : Z) : Z := Z.land raw 127.
Definition WIFEXITED (raw : Z) : bool := WTERMSIG raw =? 0.
Definition WIFSIGNALED (raw : Z) : bool := (1 <=? WTERMSIG raw) && (WTERMSIG raw <=? 126).
Record proc := mk_proc { m_pid : Z; m_raw : Z; m_terminated : bool }.
Definition returncode (p : proc) : Z := WEXITSTATUS (m_raw p).
(** waitpid with WNOHANG: error, still running, or the status word. *)
Inductive wait_answer := WError | WRunning | WStatus (raw : Z).
Definition poll (p : proc) (w : wait_answer) : outcome (bool * proc) :=
  if m_pid p =? 0 then Throw
  else if m_terminated p then Ok (true, p)
  else match w with
       | WError => Throw
       | WRunning => Ok (false, p)
       | WStatus raw => Ok (true, mk_proc (m_pid p) raw true)
       end.
(** Child::wait(): waitpid returns only when the child has ended, or fails. *)
Definition wait (p : proc) (w : option Z) : outcome (Z * proc) :=
  if m_pid p =? 0 then Throw
  else if m_terminated p then Ok (returncode p, p)
  else match w with
       | None => Throw
       | Some raw => let p' := mk_proc (m_pid p) raw true in Ok (returncode p', p')
       end.
(** Child::wait(int): nanosleep ends, is interrupted with some time left (in
    nanoseconds), or fails.  One pair of answers per turn of the loop; the
    sleep of a turn that ends in waitpid is not used.  The list tells how many
    nanoseconds each nanosleep was asked for. *)
Inductive sleep_answer := SElapsed | SInterrupted (rest : Z) | SError.
Fixpoint wait_loop (p : proc) (timeout : Z) (l : list (wait_answer * sleep_answer)) : list Z * outcome (bool * proc) :=
  match l with
  | [] => ([], Loop)
  | (w, s) :: l' =>
      match w with
      | WError => ([], Throw)
      | WStatus raw => ([], Ok (true, mk_proc (m_pid p) raw true))
      | WRunning =>
          if timeout =? 0 then ([], Ok (false, p))
          else let '(z, o) := match s with
                              | SElapsed => wait_loop p 0 l'
                              | SInterrupted rest => wait_loop p rest l'
                              | SError => ([], Throw)
                              end in (timeout :: z, o)
      end
  end.
(** Line 413 converts the return code to bool. *)
Definition wait_ms (p : proc) (msecs : Z) (l : list (wait_answer * sleep_answer)) : list Z * outcome (bool * proc) :=
  if m_pid p =? 0 then ([], Throw)
  else if m_terminated p then ([], Ok (negb (returncode p =? 0), p))
  else wait_loop p (Z.quot msecs 1000 * 1000000000 + Z.rem msecs 1000 * 1000000) l.
(** send_signal, lines 458-464: what kill(2) signals. *)
Inductive target := Process (pid : Z) | OwnGroup.
Definition send_signal (p : proc) : target := if m_pid p =? 0 then OwnGroup else Process (m_pid p).
(** format_raw_returncode, lines 470-492 *)
Definition format_raw_returncode (raw : Z) : str :=
  if WIFEXITED raw then
    if WEXITSTATUS raw =? 0 then codes "terminated successfully"
    else codes "exited with code " ++ print (WEXITSTATUS raw)
  else codes "was interrupted, killed by signal " ++ print (if WIFSIGNALED raw then WTERMSIG raw else 0) ++
       (if negb (Z.land raw 128 =? 0) then codes " (core dumped)" else []).

(** ** Popen, lines 500-582 *)
(** strncmp(env[i], key, key.size()) == 0 *)
Fixpoint same_prefix (key e : str) : bool :=
  match key, e with
  | [], _ => true
  | k :: key', c :: e' => (k =? c) && same_prefix key' e'
  | _ :: _, [] => false
  end.
Definition is_key (key e : str) : bool :=
  (List.length key + 1 <=? List.length e)%nat && (nth (List.length key) e 0 =? 61) && same_prefix key e.
Definition assignment (key val : str) : str := key ++ 61 :: val.
(** setenv, lines 506-523 *)
Fixpoint setenv (key val : str) (env : list str) : list str :=
  match env with
  | [] => [assignment key val]
  | e :: env' => if is_key key e then assignment key val :: env' else e :: setenv key val env'
  end.
(** copy_env_from_parent, lines 500-504 *)
Definition copy_env_from_parent (environ env : list str) : list str := env ++ environ.
(** main, lines 525-582: what is passed to execvp or execvpe: the path, the
    arguments, and the environment of the new program. *)
Definition exec_call (args : list str) (executable : str) (env environ : list str) : outcome (str * list str * list str) :=
  let! path := match executable with
               | [] => match args with [] => UB | a :: _ => Ok a end
               | _ => Ok executable
               end in
  Ok (path, args, match env with [] => environ | _ => env end).
