(** msat/Progress.{h,cpp}: progress messages. The depth of tasks stays below 2^31. *)
From Verif Require Import Base IniModel GribModel.
Open Scope list_scope.

(** A handler object: the one that does nothing (Progress.h:9-15), or one that writes on a
    stream (Progress.h:49-61), with its indent. Handlers are numbered by address; [None]
    once deleted. *)
Inductive handler := Silent | Stream (indent : Z).
Record progress := mk_progress { p_handlers : Z -> option handler; p_current : option Z; p_out : list str }.
(** outputIndent, Progress.cpp:55-59; endl ends a line, which is kept without it. *)
Definition indented (n : Z) (s : str) : str := repeat 32 (Z.to_nat n) ++ s.
(** An int through operator<<. *)
Definition shown (z : Z) : str := if z <? 0 then 45 :: print (- z) else print z.
(** StreamProgressHandler::activity, Progress.cpp:61-70; the parameters are int, -1 stands
    for none. *)
Definition activity_text (s : str) (perc tot : Z) : str :=
  s ++ (if negb (perc =? -1) && negb (tot =? -1) then codes " (" ++ shown perc ++ [47] ++ shown tot ++ [41]
        else if negb (perc =? -1) then [32] ++ shown perc ++ [37] else []).
(** The calls on the handler, Progress.cpp:27-40: through a null pointer or a deleted object
    they are undefined. *)
Definition on_handler (w : progress) (f : handler -> handler * list str) : outcome progress :=
  match p_current w with
  | None => UB
  | Some a => match p_handlers w a with
              | None => UB
              | Some h => let '(h', o) := f h in
                          Ok (mk_progress (fun b => if b =? a then Some h' else p_handlers w b) (p_current w) (p_out w ++ o))
              end
  end.
Definition activity (s : str) (perc tot : Z) (w : progress) : outcome progress :=
  on_handler w (fun h => match h with Silent => (Silent, []) | Stream n => (Stream n, [indented n (activity_text s perc tot)]) end).
(** Progress.cpp:72-83 *)
Definition push_task (s : str) (w : progress) : outcome progress :=
  on_handler w (fun h => match h with Silent => (Silent, []) | Stream n => (Stream (n + 1), [indented n (s ++ codes "...")]) end).
Definition pop_task (w : progress) : outcome progress :=
  on_handler w (fun h => match h with Silent => (Silent, []) | Stream n => (Stream (n - 1), []) end).
(** setHandler, Progress.cpp:21-25: the old one is deleted, the new pointer kept. Deleting a
    deleted object is undefined. *)
Definition set_handler (a : option Z) (w : progress) : outcome progress :=
  match p_current w with
  | None => Ok (mk_progress (p_handlers w) a (p_out w))
  | Some c => match p_handlers w c with
              | None => UB
              | Some _ => Ok (mk_progress (fun b => if b =? c then None else p_handlers w b) a (p_out w))
              end
  end.

(** A program reporting its progress: [Task d b] is a block with a ProgressTask
    (Progress.cpp:43-46), left by its end or an exception; [Act], [Raise], [Handler a]. *)
Inductive report := Nothing | Then (p q : report) | Act (s : str) (perc tot : Z) | Raise | Handler (a : option Z) | Task (d : str) (b : report).
(** Whether it threw, and the state after. *)
Fixpoint run (p : report) (w : progress) : outcome (bool * progress) :=
  match p with
  | Nothing => Ok (false, w)
  | Raise => Ok (true, w)
  | Act s perc tot => let! w := activity s perc tot w in Ok (false, w)
  | Handler a => let! w := set_handler a w in Ok (false, w)
  | Then p q => let! r := run p w in if fst r then Ok r else run q (snd r)
  | Task d b => let! w := push_task d w in
                let! r := run b w in
                let! w := pop_task (snd r) in Ok (fst r, w)
  end.
