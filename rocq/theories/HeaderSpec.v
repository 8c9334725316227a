(** Independent description of HRIT header records: what a conforming file
    contains ([rec]), how it is laid out in bytes ([encode_*]), and what a
    reader should report ([report_*]). Written from the format description in
    the headers of msat/hrit (record type codes and lengths), without using the
    functions of HeaderModel; only the result record types are shared. *)
From Verif Require Import Base MachineModel HeaderModel.

Record raw_lq := { rq_line : Z; rq_day : Z; rq_msec : Z; rq_v : Z; rq_r : Z; rq_g : Z }.

Inductive rec :=
| RImage (bpp cols lines comp : Z)
| RNavig (name : list Z) (cfac lfac coff loff : Z)
| RFunc (text : list Z)
| RAnnot (text : list Z)
| RTime (reserved day msec : Z)
| RAnc (text : list Z)
| RKey (num seed : Z)
| RSeg (sc ch seq first last fmt : Z)
| RQual (lines : list raw_lq) (padding : list Z).

(** unsigned representation of a signed field *)
Definition unsigned32 (v : Z) : Z := v mod 2 ^ 32.

Definition encode_lq (q : raw_lq) : list Z :=
  be 4 (unsigned32 (rq_line q)) ++ be 2 (rq_day q) ++ be 4 (rq_msec q)
  ++ [rq_v q; rq_r q; rq_g q].

(** type, 2-byte length of the whole record, body *)
Definition framed_rec (t : Z) (body : list Z) : list Z :=
  t :: be 2 (3 + Z.of_nat (List.length body)) ++ body.

Definition encode_rec (r : rec) : list Z :=
  match r with
  | RImage bpp cols lines comp =>
      framed_rec 1 ([bpp] ++ be 2 cols ++ be 2 lines ++ [comp])
  | RNavig name cfac lfac coff loff =>
      framed_rec 2 (name ++ be 4 (unsigned32 cfac) ++ be 4 (unsigned32 lfac)
                         ++ be 4 (unsigned32 coff) ++ be 4 (unsigned32 loff))
  | RFunc text => framed_rec 3 text
  | RAnnot text => framed_rec 4 text
  | RTime resv day msec => framed_rec 5 ([resv] ++ be 2 day ++ be 4 msec)
  | RAnc text => framed_rec 6 text
  | RKey num seed => framed_rec 7 ([num] ++ be 8 seed)
  | RSeg sc ch seq first last fmt =>
      framed_rec 128 (be 2 sc ++ [ch] ++ be 2 seq ++ be 2 first ++ be 2 last ++ [fmt])
  | RQual lines padding => framed_rec 129 (flat_map encode_lq lines ++ padding)
  end.

Definition encode_recs (rs : list rec) : list Z := flat_map encode_rec rs.

Definition encode_header (ft dfl : Z) (rs : list rec) : list Z :=
  let body := encode_recs rs in
  [0] ++ be 2 16 ++ [ft] ++ be 4 (16 + Z.of_nat (List.length body)) ++ be 8 dfl ++ body.

(** Longest prefix without a byte satisfying [stop]. *)
Fixpoint take_until (stop : Z -> bool) (l : list Z) : list Z :=
  match l with
  | [] => []
  | b :: l' => if stop b then [] else b :: take_until stop l'
  end.
Definition nul_or (c : Z) (b : Z) : bool := (b =? 0) || (b =? c).

(** What a reader should report for a time stamp: CDS day 0 is 1958-01-01,
    4383 days before the Unix epoch. *)
Definition report_time (day msec : Z) : cds_short :=
  mk_cds day msec (86400 * (day - 4383) + msec / 1000) (msec mod 1000).

Definition report_image (r : rec) : option img_struct :=
  match r with
  | RImage bpp cols lines comp =>
      Some (mk_is bpp cols lines comp (cols * lines) ((cols * lines * bpp + 7) / 8))
  | _ => None end.
Definition report_navig (r : rec) : option navig :=
  match r with
  | RNavig name cfac lfac coff loff =>
      Some (match name with
            | 71 :: _ => mk_nv (take_until (Z.eqb 0) (firstn 4 name))
                           (Some (take_until (nul_or 41) (skipn 5 name))) cfac lfac coff loff
            | 80 :: 83 :: _ => mk_nv (codes "PSD") None cfac lfac coff loff
            | 77 :: _ => mk_nv (codes "MERCATOR") None cfac lfac coff loff
            | _ => mk_nv [] None cfac lfac coff loff
            end)
  | _ => None end.
Definition report_func (r : rec) : option (list Z) :=
  match r with RFunc t => Some (take_until (Z.eqb 0) t) | _ => None end.
Definition piece (pos n : nat) (t : list Z) : list Z := firstn n (skipn pos t).
Definition report_annot (r : rec) : option annot :=
  match r with
  | RAnnot t => Some (mk_an t (piece 0 1 t) (piece 2 3 t) (piece 6 6 t) (piece 13 12 t)
                        (piece 26 9 t) (piece 36 9 t) (piece 46 12 t) (piece 59 2 t))
  | _ => None end.
Definition report_stamp (r : rec) : option cds_short :=
  match r with RTime _ d m => Some (report_time d m) | _ => None end.
Definition report_anc (r : rec) : option (list Z) :=
  match r with RAnc t => Some t | _ => None end.
Definition report_key (r : rec) : option (Z * Z) :=
  match r with RKey n s => Some (n, s) | _ => None end.
Definition report_seg (r : rec) : option seg_id :=
  match r with RSeg a b c d e f => Some (mk_si a b c d e f) | _ => None end.
Definition report_lq (q : raw_lq) : line_q :=
  mk_lq (rq_line q) (report_time (rq_day q) (rq_msec q)) (rq_v q) (rq_r q) (rq_g q).
Definition report_qual (r : rec) : option (list line_q) :=
  match r with RQual ls _ => Some (map report_lq ls) | _ => None end.

(** The last record of a kind wins; with none, what the object held before. *)
Definition last_of {A} (f : rec -> option A) (before : option A) (rs : list rec) : option A :=
  fold_left (fun acc r => match f r with Some x => Some x | None => acc end) rs before.

Definition expected (before : header) (ft dfl : Z) (rs : list rec) : header :=
  let total := 16 + Z.of_nat (List.length (encode_recs rs)) in
  mk_h ft total dfl (total + dfl / 8)
    (last_of report_image (h_image before) rs)
    (last_of report_navig (h_navig before) rs)
    (last_of report_func (h_datafunc before) rs)
    (last_of report_annot (h_annot before) rs)
    (last_of report_stamp (h_time before) rs)
    (last_of report_anc (h_anc before) rs)
    (last_of report_key (h_key before) rs)
    (last_of report_seg (h_seg before) rs)
    (last_of report_qual (h_quality before) rs).

(** Well formed records. [cur] is the number of lines announced by the image
    structure record in force, needed for the line quality record. *)
Definition fits (bits v : Z) : bool := (0 <=? v) && (v <? 2 ^ bits).
Definition fits_signed32 (v : Z) : bool := (- 2 ^ 31 <=? v) && (v <? 2 ^ 31).
Definition all_bytes (l : list Z) : bool := forallb (fits 8) l.
Definition wf_lq (q : raw_lq) : bool :=
  fits_signed32 (rq_line q) && fits 16 (rq_day q) && fits 32 (rq_msec q)
  && fits 8 (rq_v q) && fits 8 (rq_r q) && fits 8 (rq_g q).
Definition wf_name (name : list Z) : bool :=
  (List.length name =? 32)%nat && all_bytes name &&
  match name with
  | 71 :: _ => existsb (nul_or 41) (skipn 5 name)
  | 80 :: 79 :: _ => false
  | _ => true
  end.
Definition wf_rec (cur : option Z) (r : rec) : bool :=
  match r with
  | RImage bpp cols lines comp =>
      fits 8 bpp && fits 16 cols && fits 16 lines && fits 8 comp && (cols * lines <? 2 ^ 31)
  | RNavig name cfac lfac coff loff =>
      wf_name name && fits_signed32 cfac && fits_signed32 lfac
      && fits_signed32 coff && fits_signed32 loff
  | RFunc t => all_bytes t && (Z.of_nat (List.length t) <? 2 ^ 16 - 3)
  | RAnnot t => all_bytes t && (List.length t =? 61)%nat && negb (existsb (Z.eqb 0) t)
  | RTime resv d m => fits 8 resv && fits 16 d && fits 32 m
  | RAnc t => all_bytes t && (0 <? Z.of_nat (List.length t)) && (Z.of_nat (List.length t) <? 2 ^ 16 - 3)
  | RKey n s => fits 8 n && fits 64 s
  | RSeg sc ch seq f l fmt =>
      fits 16 sc && fits 8 ch && fits 16 seq && fits 16 f && fits 16 l && fits 8 fmt
  | RQual ls pad =>
      match cur with
      | Some n => (Z.of_nat (List.length ls) =? n) && forallb wf_lq ls && all_bytes pad
                  && (3 + 13 * n + Z.of_nat (List.length pad) <? 2 ^ 16)
      | None => false
      end
  end.
Definition next_lines (cur : option Z) (r : rec) : option Z :=
  match r with RImage _ _ lines _ => Some lines | _ => cur end.
Fixpoint wf_recs (cur : option Z) (rs : list rec) : bool :=
  match rs with
  | [] => true
  | r :: rs' => wf_rec cur r && wf_recs (next_lines cur r) rs'
  end.
Definition wf_header (cur : option Z) (ft dfl : Z) (rs : list rec) : bool :=
  fits 8 ft && fits 64 dfl && wf_recs cur rs
  && (16 + Z.of_nat (List.length (encode_recs rs)) <? 2 ^ 32).

(** Validation of a raw header body, byte by byte: records tile the body, each
    length field is at least 3, and the conditions without which reading a
    record is not memory safe hold. *)
Definition reclen (b : list Z) : Z := be_val (firstn 2 (skipn 1 b)).
Definition safe_rec (cur : option Z) (b : list Z) (len : Z) : bool :=
  match b with
  | 1 :: _ => (len <? 9) ||
      (be_val (piece 4 2 b) * be_val (piece 6 2 b) <? 2 ^ 31)
  | 2 :: _ => (len <? 51) ||
      match piece 3 32 b with
      | 71 :: _ => existsb (nul_or 41) (skipn 5 (piece 3 32 b))
      | 80 :: 79 :: _ => false
      | _ => true
      end
  | 129 :: _ => match cur with Some n => 3 + 13 * n <=? len | None => false end
  | _ => true
  end.
Definition raw_next (cur : option Z) (b : list Z) : option Z :=
  match b with 1 :: _ => Some (be_val (piece 6 2 b)) | _ => cur end.
Inductive framed (cur : option Z) : list Z -> Prop :=
| framed_nil : framed cur []
| framed_cons (b rest : list Z) :
    3 <= reclen b -> Z.of_nat (List.length b) = reclen b ->
    safe_rec cur b (reclen b) = true ->
    framed (raw_next cur b) rest -> framed cur (b ++ rest).

(** Weaker tiling reported by an accepted header: following the length fields
    from the start lands exactly on the end. *)
Inductive tiled : list Z -> Prop :=
| tiled_nil : tiled []
| tiled_step (l : list Z) :
    1 <= reclen l <= Z.of_nat (List.length l) ->
    tiled (skipn (Z.to_nat (reclen l)) l) -> tiled l.
