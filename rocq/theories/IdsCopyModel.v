(** tools/omtp-ids/OpenMTP-IDS_write.cc: copying an OpenMTP-IDS file. Standard output
    is left out. How the system takes the bytes written is a parameter. *)
From Verif Require Import Base IdsModel IdsToolModel.
Open Scope string_scope.
Open Scope Z_scope.

(** The name given in OpenMTP-IDS_write.cc:63. *)
Definition COPY : string := "test.omtp-ids".
(** OpenMTP-IDS.cc:124-147: the bytes are kept in a buffer; the system refuses some of
    them before os.good() is asked, or only when the file is closed, after k were stored. *)
Inductive device := Accepts | FailsEarly (k : nat) | FailsAtClose (k : nat).
(** The outcome of write: [Ok true] when it returns, [Ok false] when it throws, and the
    bytes in the file. *)
Definition write_file_ids (dev : device) (x : ids) : outcome (bool * list Z) :=
  let! w := write_ids x in
  Ok (match dev with
      | Accepts => (true, w)
      | FailsEarly k => (false, firstn k w)
      | FailsAtClose k => (true, firstn k w)
      end).
(** OpenMTP-IDS_write.cc:46-70 with one argument: the exit status and the directory. The
    texts thrown by OpenMTP-IDS.cc:99-106 and 126-143 are destroyed before line 65 prints
    them; those thrown while reading are literals. *)
Definition copy_main (can : bool) (dev : device) (name : string) (d : directory) : outcome (Z * directory) :=
  if String.eqb name "-V" then Ok (0, d)
  else match d name with
       | None => UB
       | Some content =>
           match read_file content with
           | Throw => Ok (1, d)
           | m => let! x := m in
                  if can then
                    let! p := write_file_ids dev x in
                    if fst p then Ok (0, put_file d COPY (snd p)) else UB
                  else UB
           end
       end.
