(** What a user of DataAccess should see, independently of the cache. *)
From Verif Require Import Base MachineModel HeaderModel HeaderSpec DataAccessModel.

(** The file recorded for a segment number, if any. *)
Definition recorded (names : list fname) (idx : Z) : option fname :=
  match nth_error names (Z.to_nat idx) with
  | Some (c :: f) => if idx <? 0 then None else Some (c :: f)
  | _ => None
  end.

(** Reading the recorded file afresh. *)
Definition fresh (names : list fname) (ld : loader) (idx : Z) : outcome (option (list Z)) :=
  match recorded names idx with
  | None => Ok None
  | Some f => let! d := ld f in Ok (Some d)
  end.

(** What the caller of segment() sees through the returned pointer. *)
Definition observe (r : da * outcome (option Z)) : outcome (option (list Z)) :=
  match snd r with
  | Ok None => Ok None
  | Ok (Some p) => match heap_get (da_heap (fst r)) p with Some d => Ok (Some d) | None => UB end
  | Throw => Throw | Terminate => Terminate | UB => UB | Loop => Loop
  end.

(** Histories: each request comes with the behaviour of the file system at that
    moment, so that a load may fail at one time and succeed at another. *)
Definition history := list (loader * Z).
Fixpoint run (names : list fname) (st : da) (h : history) : da :=
  match h with
  | [] => st
  | (ld, idx) :: h' => run names (fst (segment names ld st idx)) h'
  end.
(** Requests are non-negative (size_t). *)
Definition requests_ok (h : history) : Prop := Forall (fun r => 0 <= snd r) h.
(** File contents do not change: every successful load of [f] gives [content f]. *)
Definition faithful (content : fname -> list Z) (ld : loader) : Prop :=
  forall f d, ld f = Ok d -> d = content f.
(** Every recorded file can be loaded. *)
Definition loads_all (names : list fname) (ld : loader) : Prop :=
  forall idx f, recorded names idx = Some f -> exists d, ld f = Ok d.

(** Numbers of the segments delivered by a history, latest first. *)
Fixpoint delivered_from (names : list fname) (st : da) (h : history) (acc : list Z) : list Z :=
  match h with
  | [] => acc
  | (ld, idx) :: h' =>
      let r := segment names ld st idx in
      delivered_from names (fst r) h' (match snd r with Ok (Some _) => idx :: acc | _ => acc end)
  end.
Definition delivered names h := delivered_from names da_init h [].
(** The latest delivered segment and the latest different one. *)
Definition two_latest (l : list Z) : list Z :=
  match l with
  | [] => []
  | a :: l' => match find (fun b => negb (b =? a)) l' with Some b => [a; b] | None => [a] end
  end.
(** Number of failed loads of a history. *)
Fixpoint failures_from (names : list fname) (st : da) (h : history) : nat :=
  match h with
  | [] => 0
  | (ld, idx) :: h' =>
      let r := segment names ld st idx in
      ((if is_ok (snd r) then 0 else 1) + failures_from names (fst r) h')%nat
  end.

(** ** Images *)
Definition row := list Z.
(** The segments of a product, south to north: their rows, or missing. *)
Definition segments := list (option (list row)).
Definition zero_row (cols : Z) : row := repeat 0 (Z.to_nat cols).
(** Row number [r] (from the south) of the product. *)
Definition phys_row (seglines cols : Z) (segs : segments) (r : Z) : row :=
  match nth (Z.to_nat (r / seglines)) segs None with
  | Some rows => nth (Z.to_nat (r mod seglines)) rows []
  | None => zero_row cols
  end.
(** The files hold the segments: a present segment is a file with its rows
    one after the other, a missing one has no file. *)
Definition holds (names : list fname) (ld : loader) (seglines cols : Z) (segs : segments) : Prop :=
  forall k, 0 <= k ->
  match nth (Z.to_nat k) segs None with
  | Some rows => exists f, recorded names k = Some f /\ ld f = Ok (List.concat rows) /\
                 Z.of_nat (List.length rows) = seglines /\
                 Forall (fun r => Z.of_nat (List.length r) = cols) rows
  | None => recorded names k = None
  end.
Definition orient (swapX : bool) (r : row) : row := if swapX then rev r else r.
(** All rows of a complete product, south to north. *)
Fixpoint whole_image (segs : segments) : list row :=
  match segs with
  | [] => []
  | Some rows :: s => rows ++ whole_image s
  | None :: s => whole_image s
  end.
(** Reading several rows one after the other. *)
Fixpoint read_lines names g w ld (st : da) (ls : list Z) : da * list (outcome row) :=
  match ls with
  | [] => (st, [])
  | l :: ls' =>
      let '(st1, r) := line_read names g w ld st l in
      let '(st2, rs) := read_lines names g w ld st1 ls' in
      (st2, r :: rs)
  end.
Definition range (a n : Z) : list Z := map (fun i => a + Z.of_nat i) (seq 0 (Z.to_nat n)).

(** Number of image rows. *)
Definition image_rows (g : geometry) (w : windows) : Z := if g_hrv g then MaxLine w else 3712.

(** ** HRV windows *)
Definition in_window (south north r : Z) : bool := (south <=? r) && (r <=? north).
(** Windows inside the 11136 x 11136 reference grid, the lower one south of the
    upper one; an absent upper window (rapid scan) has all fields 0. *)
Definition window_ok (e s w n : Z) : Prop := 1 <= e <= w /\ w <= 11136 /\ 1 <= s <= n /\ n <= 11136.
Definition windows_ok (w : windows) (cols : Z) : Prop :=
  window_ok (LowerEast w) (LowerSouth w) (LowerWest w) (LowerNorth w) /\
  LowerWest w - LowerEast w + 1 = cols /\
  ((window_ok (UpperEast w) (UpperSouth w) (UpperWest w) (UpperNorth w) /\
    UpperWest w - UpperEast w + 1 = cols /\ LowerNorth w < UpperSouth w) \/
   (UpperEast w = 0 /\ UpperSouth w = 0 /\ UpperWest w = 0 /\ UpperNorth w = 0)).

(** ** Scanning *)
Record seg_file := mk_sf {
  sf_name : fname; sf_type : Z; sf_dfl : Z; sf_recs : list rec; sf_payload : list Z }.
Definition sf_bytes (f : seg_file) : fname * list Z :=
  (sf_name f, encode_header (sf_type f) (sf_dfl f) (sf_recs f) ++ sf_payload f).
(** Sequence number and common description laid out in the header. *)
Definition sf_seg (f : seg_file) : option seg_id := last_of report_seg None (sf_recs f).
Definition sf_image (f : seg_file) : option img_struct := last_of report_image None (sf_recs f).
Definition sf_navig (f : seg_file) : option navig := last_of report_navig None (sf_recs f).
Definition sf_seq (f : seg_file) : Z := match sf_seg f with Some s => si_seq s | None => 0 end.
(** planned end, channel, lines, columns, orientation *)
Definition sf_common (f : seg_file) : option (Z * Z * Z * Z * bool * bool) :=
  match sf_seg f, sf_image f, sf_navig f with
  | Some s, Some i, Some n =>
      if si_format s =? 0 then None
      else Some (si_last s, si_channel s, is_lines i, is_cols i, nv_cfac n <? 0, nv_lfac n <? 0)
  | _, _, _ => None
  end.
(** A consistent product: headers well formed, each file has a non-empty name,
    all files describe the same image, sequence numbers are distinct. *)
Definition consistent (fs : list seg_file) : Prop :=
  (exists c, Forall (fun f => sf_common f = Some c) fs) /\
  Forall (fun f => wf_header None (sf_type f) (sf_dfl f) (sf_recs f) = true /\ sf_name f <> [] /\ 1 <= sf_seq f) fs /\
  NoDup (map sf_seq fs).

(** ** Raster rows *)
(** A row of [xsize] samples: [row] placed at column [off], [z] elsewhere. *)
Definition placed {A} (z : A) (xsize off : nat) (row : list A) : list A :=
  repeat z off ++ row ++ repeat z (xsize - off - List.length row).
(** Physical value of a sample: NaN and negative values become 0. *)
Definition physical (cal : list fval) (x : Z) : fval :=
  match nth_error cal (Z.to_nat x) with
  | Some (Fin q) => if 0 <? q then Fin q else Fin 0
  | _ => Fin 0
  end.
Definition in_table (cal : list fval) (x : Z) : Prop := 0 <= x < Z.of_nat (List.length cal).

(** The file table of a scanned product: it ends at the highest segment number
    present, and records under each number the file announcing it. *)
Definition names_of (fs : list seg_file) (names : list fname) : Prop :=
  (forall f, In f fs -> sf_seq f <= Z.of_nat (List.length names)) /\
  (exists f, In f fs /\ sf_seq f = Z.of_nat (List.length names)) /\
  (forall k n, recorded names k = Some n <-> exists f, In f fs /\ sf_seq f = k + 1 /\ sf_name f = n).
