(** Specification of OpenMTP-IDS files: which byte strings hold which object. *)
From Verif Require Import Base IdsModel.

Definition word (v : Z) : Prop := 0 <= v < 65536.
(** Big-endian 16-bit words. *)
Definition words (l : list Z) : list Z := flat_map (be 2) l.

Inductive line_bytes : scan_line -> list Z -> Prop :=
| line_bytes_intro len line start chan qual p0 p1 px fill :
    Forall word [len; line; start; Z.of_nat (List.length px); chan; qual; p0; p1] ->
    bytes_ok px -> bytes_ok fill ->
    len = 16 + Z.of_nat (List.length px) + Z.of_nat (List.length fill) ->
    line_bytes (mk_scan_line (mk_line_header len line start (Z.of_nat (List.length px)) chan qual p0 p1) px)
               (words [len; line; start; Z.of_nat (List.length px); chan; qual; p0; p1] ++ px ++ fill).
(** A sequence of items, one after the other. *)
Inductive seq_bytes {A} (P : A -> list Z -> Prop) : list A -> list Z -> Prop :=
| seq_nil : seq_bytes P [] []
| seq_cons x xs b bs : P x b -> seq_bytes P xs bs -> seq_bytes P (x :: xs) (b ++ bs).
Inductive record_bytes : record -> list Z -> Prop :=
| record_bytes_intro f hlen rlen zero ls b :
    List.length f = 2%nat -> bytes_ok f ->
    Forall word [hlen; Z.of_nat (List.length ls); rlen; zero] ->
    seq_bytes line_bytes ls b ->
    record_bytes (mk_record (mk_record_header f hlen (Z.of_nat (List.length ls)) rlen zero) ls)
                 (f ++ words [hlen; Z.of_nat (List.length ls); rlen; zero] ++ b).
Inductive ids_bytes : ids -> list Z -> Prop :=
| ids_bytes_intro f nrec y d h m py pd ph pm nch vis wv ir sat sid rlen nv nw ni avg smp irc wvc fine irs wvs rs fill b :
    List.length f = 2%nat -> bytes_ok f -> List.length sat = 8%nat -> bytes_ok sat -> bytes_ok fill ->
    Forall word [nrec; y; d; h; m; py; pd; ph; pm; nch; vis; wv; ir] ->
    Forall word [sid; rlen; nv; nw; ni; avg; smp; irc; wvc; fine; irs; wvs] ->
    nrec = Z.of_nat (List.length rs) + 1 -> rlen = 58 + Z.of_nat (List.length fill) ->
    seq_bytes record_bytes rs b ->
    ids_bytes (mk_ids (mk_file_header f nrec y d h m py pd ph pm nch vis wv ir sat sid rlen nv nw ni avg smp irc wvc fine irs wvs) rs)
              (f ++ words [nrec; y; d; h; m; py; pd; ph; pm; nch; vis; wv; ir] ++ sat
               ++ words [sid; rlen; nv; nw; ni; avg; smp; irc; wvc; fine; irs; wvs] ++ fill ++ b).
