(** msat/hrit/MSG_data_ImageProdStats.cpp and msat/hrit/MSG_data_TimelinComple.cpp: two records
    of the level 1.5 trailer, read and listed.

    Fields of one kind that follow each other in a C++ object, and arrays, are lists here, in
    the order of the file. *)
From Verif Require Import Base IniModel MachineModel HeaderModel GribModel MsgModel ConvModel HeadListModel.
Open Scope string_scope.
Open Scope list_scope.
Open Scope Z_scope.

(** for (int i = 0; i < n; i ++), a value at each step. *)
Fixpoint each {A} (f : nat -> outcome A) (i n : nat) : outcome (list A) :=
  match n with O => Ok [] | S n' => let! x := f i in let! l := each f (S i) n' in Ok (x :: l) end.
(** n one byte fields; n fields of four bytes, without and with sign; n of two bytes. *)
Definition read_bytes (b : list Z) (off n : nat) : outcome (list Z) := each (fun i => rd1 b (off + i)%nat) 0 n.
Definition read_ui4s (h : host) (b : list Z) (off n : nat) : outcome (list Z) := each (fun i => rd_ui h b (off + i * 4)%nat 4) 0 n.
Definition read_i4s (h : host) (b : list Z) (off n : nat) : outcome (list Z) := each (fun i => rd_i h b (off + i * 4)%nat 4) 0 n.
Definition read_ui2s (h : host) (b : list Z) (off n : nat) : outcome (list Z) := each (fun i => rd_ui h b (off + i * 2)%nat 2) 0 n.

(** Lines of names and values. *)
Definition fields (names : list string) (show : Z -> str) (l : list Z) : str := flat_map (fun p => field (fst p) (show (snd p))) (combine names l).
(** The line before what is told of channel i. *)
Definition channel_line (i : nat) : str := field "Channel " (zpad 2 (Z.of_nat i + 1)).

(** MSG_data_ImageProdStats.cpp:35-52 *)
Record scanning := mk_scanning { sc_flags : list Z; sc_start : cds_short; sc_end : cds_short }.
Definition read_scanning (h : host) (b : list Z) (off : nat) : outcome scanning :=
  let! f := read_bytes b off 2 in let! s := read_cds_short h b (off + 2) in let! e := read_cds_short h b (off + 8) in Ok (mk_scanning f s e).
Definition scanning_text (s : scanning) : str :=
  fields ["Nominal Image Scan. : "; "Reduced Scan        : "] print (sc_flags s) ++
  field "Forw. Scan Start    : " (timestring (sc_start s)) ++ field "Forw. Scan End      : " (timestring (sc_end s)).
(** MSG_data_ImageProdStats.cpp:72-92 *)
Definition behaviour_text (l : list Z) : str :=
  fields ["Nominal Behaviour   : "; "Rad Scan Irregular. : "; "Rad Stoppage        : "; "Repeat not complete : "; "Gain change         : "; "Decontamination     : ";
          "No BB Calibration   : "; "Incorrect Temp.     : "; "Invalid BB data     : "; "Invalid Aux HKTM    : "; "Refocusing actuated : "; "Mirror back ref.    : "] print l.
(** MSG_data_ImageProdStats.cpp:94-119 *)
Record reception := mk_reception { rc_planned : list Z; rc_missing : list Z; rc_corrupted : list Z; rc_replaced : list Z }.
Definition read_reception (h : host) (b : list Z) (off : nat) : outcome reception :=
  let! p := read_ui4s h b off 12 in let! m := read_ui4s h b (off + 48) 12 in let! c := read_ui4s h b (off + 96) 12 in let! r := read_ui4s h b (off + 144) 12 in Ok (mk_reception p m c r).
Definition reception_text (r : reception) : str :=
  flat_map (fun i => channel_line i ++
    fields ["Planned L10 lines   : "; "Missing L10 lines   : "; "Corrupted L10 lines : "; "Replaced L10 lines  : "] print
      [nth i (rc_planned r) 0; nth i (rc_missing r) 0; nth i (rc_corrupted r) 0; nth i (rc_replaced r) 0]) (seq 0 12).
(** MSG_data_ImageProdStats.cpp:121-143 *)
Record validity := mk_validity { va_nominal : Z; va_incomplete : Z; va_radiometric : Z; va_geometric : Z; va_timeliness : Z; va_l15 : Z }.
Definition read_validity (b : list Z) (off : nat) : outcome validity :=
  let! n := rd1 b off in let! i := rd1 b (off + 1) in let! r := rd1 b (off + 2) in let! g := rd1 b (off + 3) in let! t := rd1 b (off + 4) in let! l := rd1 b (off + 5) in Ok (mk_validity n i r g t l).
Definition validity_text (v : validity) : str :=
  fields ["Nominal Image       : "; "Incomplete Image    : "; "Non Radiometric OK  : "; "Non Geometric OK    : "; "Incomplete L 1.5    : "] print
    [va_nominal v; va_incomplete v; va_radiometric v; va_geometric v; va_l15 v].
(** MSG_data_ImageProdStats.cpp:154-161 and 176-188 *)
Definition ir_text (l : list Z) : str := fields ["Southern Line IR    : "; "Northern Line IR    : "; "Eastern Column IR   : "; "Western Column IR   : "] print_int l.
Definition hrv_text (l : list Z) : str :=
  fields ["Low South Line HRV  : "; "Low North Line HRV  : "; "Low East Column HRV : "; "Low West Column HRV : ";
          "Up South Line HRV   : "; "Up North Line HRV   : "; "Up East Column HRV  : "; "Up West Column HRV  : "] print_int l.
(** MSG_data_ImageProdStats.cpp:198-211; the readers of the parts are at 55-70, 145-152 and
    163-174. *)
Record stats := mk_stats { st_sat : Z; st_scanning : scanning; st_behaviour : list Z; st_reception : reception; st_validity : list validity; st_ir : list Z; st_hrv : list Z }.
Definition read_stats (h : host) (b : list Z) : outcome stats :=
  let! sat := rd_ui h b 0 2 in let! s := read_scanning h b 2 in let! w := read_bytes b 16 12 in let! r := read_reception h b 28 in
  let! v := each (fun i => read_validity b (220 + i * 6)%nat) 0 12 in let! ir := read_i4s h b 292 4 in let! hrv := read_i4s h b 308 8 in
  Ok (mk_stats sat s w r v ir hrv).
Definition no_validity : validity := mk_validity 0 0 0 0 0 0.
(** MSG_data_ImageProdStats.cpp:213-229 *)
Definition stats_text (s : stats) : str :=
  title "-         MSG IMAGE PRODUCTION STATISTICS            -" ++
  field "Satellite Id        : " (MSG_spacecraft_name (st_sat s)) ++ scanning_text (st_scanning s) ++ behaviour_text (st_behaviour s) ++ reception_text (st_reception s) ++
  flat_map (fun i => channel_line i ++ validity_text (nth i (st_validity s) no_validity)) (seq 0 12) ++ ir_text (st_ir s) ++ hrv_text (st_hrv s).

(** MSG_data_TimelinComple.cpp:34-86. A float is the number of its four bytes. *)
Record timeliness := mk_timeliness { tl_delays : list Z; tl_lines : list (list Z) }.
Definition read_timeliness (h : host) (b : list Z) : outcome timeliness :=
  let! d := read_ui4s h b 0 3 in let! l := each (fun i => read_ui2s h b (12 + i * 10)%nat 5) 0 12 in Ok (mk_timeliness d l).
(** MSG_data_TimelinComple.cpp:42-48, 60-68 and 88-98; [real] prints a float. *)
Definition timeliness_text (real : Z -> str) (t : timeliness) : str :=
  title "-         MSG IMAGE PRODUCTION STATISTICS            -" ++
  fields ["Max Delay           : "; "Min Delay           : "; "Mean Delay          : "] real (tl_delays t) ++
  flat_map (fun i => channel_line i ++
    fields ["Planned Image Lines : "; "Generated Lines     : "; "Valid Lines         : "; "Dummy Lines         : "; "Corrupted Lines     : "] print (nth i (tl_lines t) [])) (seq 0 12).
