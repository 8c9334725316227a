(** msat/msg-native: the lines of MSG native files. long has 64 bits. *)
From Verif Require Import Base MachineModel.

(** ** MSG_native_line.cpp:159-184, MSG_native_linedata::to_sample: [d] is the
    data, [room] the number of samples the destination can take. Each turn of
    the loop reads 5 bytes and writes 4 samples. ipos (32 bits) does not wrap:
    a data size is below 2^32 - 42. Result: the samples written. *)
Fixpoint to_sample (d : list Z) (room : Z) : outcome (list Z) :=
  match d with
  | [] => Ok []
  | a :: b :: c :: e :: f :: r =>
      if room <? 4 then UB
      else let! s := to_sample r (room - 4) in
           Ok (Z.lor (Z.shiftl a 2) (Z.shiftr b 6)
               :: Z.lor (Z.shiftl (Z.land b 63) 4) (Z.shiftr c 4)
               :: Z.lor (Z.shiftl (Z.land c 15) 6) (Z.shiftr e 2)
               :: Z.lor (Z.shiftl (Z.land e 3) 8) f :: s)
  | _ => UB
  end.
(** The number of samples announced, and allocated when *samples is null. *)
Definition nsample (d : list Z) : Z := Z.of_nat (List.length d) * 8 / 10.
Definition to_new_sample (d : list Z) : outcome (list Z) := to_sample d (nsample d).

(** ** Lines. The heap gives for each data buffer ever allocated its content, or
    None once deleted. A line has a header, of which three fields are kept, and
    a pointer to its data (its own size field equals that of the buffer). *)
Definition heap := list (option (list Z)).
Record nline := mk_nline { nl_satellite : Z; nl_number : Z; nl_channel : Z; nl_ptr : nat }.
(** MSG_native_line.cpp:186-218 with MSG_native_packetheader.cpp:27-55 (38 bytes,
    PacketLength at 18) and MSG_native_line.cpp:145-157 (27 bytes). [throw;] outside
    a handler terminates. A size over 2^63 cannot be allocated; smaller ones are
    assumed to succeed. The test datasize < 0 never holds. No call of
    check_endianess precedes: the flag of MSG_machine.cpp:33 has its initial value
    false. *)
Definition num (hs : host) (bs : list Z) : Z := get_ui hs false bs.
Definition read_line (hs : host) (h : heap) (s : list Z) : outcome (nline * heap * list Z) :=
  if (List.length s <? 38)%nat then Terminate
  else
    let! packet_length := bytes_at s 18 4 in
    let size := (num hs packet_length - 15 - 27) mod 2 ^ 64 in
    let s := skipn 38 s in
    if 2 ^ 63 <=? size then Throw
    else if (List.length s <? 27)%nat then Terminate
    else
      let! satellite := bytes_at s 1 2 in
      let! number := bytes_at s 13 4 in
      let! channel := rd1 s 17 in
      let line := mk_nline (num hs satellite) (num hs number) (get_ui1 hs channel) (List.length h) in
      let s := skipn 27 s in
      if Z.of_nat (List.length s) <? size then Terminate
      else Ok (line, h ++ [Some (firstn (Z.to_nat size) s)], skipn (Z.to_nat size) s).

(** ** MSG_native.cpp:80-159, MSG_native::read from the line loop on: [sel] is
    selected_channel, the stream stands at datapos. SEVIRI_CHANNELS is 12,
    HRV_CHANNEL 11. *)
Record native := mk_native { nt_heap : heap; nt_lines : list (list nline); nt_rest : list Z }.
Definition read_push (hs : host) (ic : nat) (x : native) : outcome native :=
  let! p := read_line hs (nt_heap x) (nt_rest x) in
  let '(l, h, s) := p in
  Ok (mk_native h (set_nth (nt_lines x) ic (nth ic (nt_lines x) [] ++ [l])) s).
Definition read_channel (hs : host) (sel : list bool) (ic : nat) (x : native) : outcome native :=
  if nth ic sel false then
    let! x := read_push hs ic x in
    if (ic =? 11)%nat then let! x := read_push hs ic x in read_push hs ic x else Ok x
  else Ok x.
Fixpoint read_row (hs : host) (sel : list bool) (ics : list nat) (x : native) : outcome native :=
  match ics with
  | [] => Ok x
  | ic :: ics' => let! x := read_channel hs sel ic x in read_row hs sel ics' x
  end.
Fixpoint read_rows (hs : host) (sel : list bool) (n : nat) (x : native) : outcome native :=
  match n with
  | O => Ok x
  | S m => let! x := read_row hs sel (seq 0 12) x in read_rows hs sel m x
  end.
(** The local [aline], whose pointer is that of the last line read, is destroyed
    on return: MSG_native_line.cpp:34-42. The lines pushed are shallow copies. *)
Definition drop_local (x : native) : native :=
  match List.length (nt_heap x) with
  | O => x
  | S k => mk_native (set_nth (nt_heap x) k None) (nt_lines x) (nt_rest x)
  end.
Definition read_native (hs : host) (sel : list bool) (n : nat) (s : list Z) : outcome native :=
  let! x := read_rows hs sel n (mk_native [] (repeat [] 12) s) in Ok (drop_local x).

(** ** MSG_native.cpp:55-73, close: every line is destroyed, channel by channel. *)
Fixpoint free_all (ls : list nline) (h : heap) : outcome heap :=
  match ls with
  | [] => Ok h
  | l :: ls' => match nth (nl_ptr l) h None with
                | Some _ => free_all ls' (set_nth h (nl_ptr l) None)
                | None => UB
                end
  end.
Definition close (x : native) : outcome heap := free_all (List.concat (nt_lines x)) (nt_heap x).

(** ** MSG_native.cpp:221-243, data(channel) for a selected channel: an array of
    [rows] times [px] samples, not initialised, receives line [count] at
    count * px. *)
Fixpoint write_at (off : nat) (s : list Z) (m : list (option Z)) : list (option Z) :=
  match s with
  | [] => m
  | v :: s' => write_at (S off) s' (set_nth m off (Some v))
  end.
Fixpoint data_loop (h : heap) (px : nat) (ls : list nline) (count : nat) (m : list (option Z)) : outcome (list (option Z)) :=
  match ls with
  | [] => Ok m
  | l :: ls' =>
      match nth (nl_ptr l) h None with
      | None => UB
      | Some d =>
          let! s := to_sample d (Z.of_nat (List.length m) - Z.of_nat (count * px)) in
          data_loop h px ls' (S count) (write_at (count * px) s m)
      end
  end.
Definition data (x : native) (ic rows px : nat) : outcome (list (option Z)) :=
  data_loop (nt_heap x) px (nth ic (nt_lines x) []) 0 (repeat None (rows * px)).
