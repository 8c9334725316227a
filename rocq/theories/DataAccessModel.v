(** msat/xrit/dataaccess.{h,cpp} and gdal/xrit/rasterband.cpp. *)
From Verif Require Import Base MachineModel HeaderModel.

Definition wrap64 (z : Z) : Z := z mod 2 ^ 64.

Definition fname := list Z.
(** Opening and decoding a segment file, DataAccess::read_file with data
    (dataaccess.cpp:54-65): an oracle returning the samples of [image->data]
    (decompression is done by external libraries) or a failure. *)
Definition loader := fname -> outcome (list Z).

(** The mutable part of a DataAccess: [segcache] (dataaccess.h:66-72) as a list of
    (segno, pointer), front first; the MSG_data objects alive on the heap, by
    pointer; the next fresh pointer; and, for observation only, the segment
    numbers whose file was read so far (latest first). *)
Record da := mk_da {
  da_cache : list (Z * Z);
  da_heap : list (Z * list Z);
  da_next : Z;
  da_reads : list Z }.

(** dataaccess.cpp:33-35: empty cache. *)
Definition da_init : da := mk_da [] [] 1 [].

(** [delete p]: UB unless [p] is alive. *)
Fixpoint heap_get (h : list (Z * list Z)) (p : Z) : option (list Z) :=
  match h with
  | [] => None
  | (q, d) :: h' => if q =? p then Some d else heap_get h' p
  end.
Fixpoint heap_remove (h : list (Z * list Z)) (p : Z) : list (Z * list Z) :=
  match h with
  | [] => []
  | (q, d) :: h' => if q =? p then h' else (q, d) :: heap_remove h' p
  end.
Definition heap_free (h : list (Z * list Z)) (p : Z) : option (list (Z * list Z)) :=
  match heap_get h p with Some _ => Some (heap_remove h p) | None => None end.

(** First entry with the given number, and what is before and after it:
    dataaccess.cpp:160-163. *)
Fixpoint find_split (c : list (Z * Z)) (idx : Z) : option (list (Z * Z) * (Z * Z) * list (Z * Z)) :=
  match c with
  | [] => None
  | e :: c' => if fst e =? idx then Some ([], e, c') else
      match find_split c' idx with
      | Some (pre, x, post) => Some (e :: pre, x, post)
      | None => None
      end
  end.

(** dataaccess.cpp:166-188: the miss path. The new MSG_data is allocated before
    the file is read and is not released when reading throws. *)
Definition segment_miss (segnames : list fname) (ld : loader) (st : da) (idx : Z)
  : da * outcome (option Z) :=
  if Z.of_nat (List.length segnames) <=? idx then (st, Ok None) else
  match nth (Z.to_nat idx) segnames [] with
  | [] => (st, Ok None)
  | name =>
      let evicted :=
        if (List.length (da_cache st) =? 2)%nat then
          match rev (da_cache st) with
          | (_, p) :: rest =>
              match heap_free (da_heap st) p with
              | Some h => Some (rev rest, h)
              | None => None
              end
          | [] => None
          end
        else Some (da_cache st, da_heap st) in
      match evicted with
      | None => (st, UB)
      | Some (cache, heap) =>
          let p := da_next st in
          let reads := idx :: da_reads st in
          match ld name with
          | Ok d => (mk_da ((idx, p) :: cache) ((p, d) :: heap) (p + 1) reads, Ok (Some p))
          | Throw => (mk_da cache ((p, []) :: heap) (p + 1) reads, Throw)
          | Terminate => (mk_da cache ((p, []) :: heap) (p + 1) reads, Terminate)
          | UB => (mk_da cache ((p, []) :: heap) (p + 1) reads, UB)
          | Loop => (mk_da cache ((p, []) :: heap) (p + 1) reads, Loop)
          end
      end
  end.

(** dataaccess.cpp:153-196 *)
Definition segment (segnames : list fname) (ld : loader) (st : da) (idx : Z)
  : da * outcome (option Z) :=
  let slow :=
    match find_split (da_cache st) idx with
    | None => segment_miss segnames ld st idx
    | Some (pre, e, post) =>
        (mk_da (e :: pre ++ post) (da_heap st) (da_next st) (da_reads st), Ok (Some (snd e)))
    end in
  match da_cache st with
  | (k, p) :: _ => if k =? idx then (st, Ok (Some p)) else slow
  | [] => slow
  end.

(** dataaccess.cpp:37-43, the destructor: the heap after deleting every cached
    segment in order, or UB. *)
Fixpoint free_all (c : list (Z * Z)) (h : list (Z * list Z)) : outcome (list (Z * list Z)) :=
  match c with
  | [] => Ok h
  | (_, p) :: c' => match heap_free h p with Some h' => free_all c' h' | None => UB end
  end.
Definition destroy (st : da) : outcome (list (Z * list Z)) := free_all (da_cache st) (da_heap st).

(** The fields set by scan (dataaccess.h:48-100). *)
Record geometry := mk_geo {
  g_seglines : Z; g_columns : Z; g_lines : Z; g_npixperseg : Z;
  g_hrv : bool; g_swapX : bool; g_swapY : bool }.
Record windows := mk_win {
  LowerEast : Z; LowerSouth : Z; LowerWest : Z; LowerNorth : Z;
  UpperEast : Z; UpperSouth : Z; UpperWest : Z; UpperNorth : Z }.
(** dataaccess.cpp:130 *)
Definition MaxLine (w : windows) : Z := Z.max (LowerNorth w) (UpperNorth w).
(** dataaccess.cpp:148-149 *)
Definition WestColumnActual : Z := 1.
Definition SouthLineActual : Z := 1.

(** dataaccess.cpp:198-211. size_t arithmetic. *)
Definition line_start (hrv : bool) (w : windows) (line : Z) : Z :=
  if negb hrv then wrap64 (WestColumnActual - 1)
  else if MaxLine w <=? line then 0
  else
    let line := wrap64 (MaxLine w - line) in
    if line <? LowerSouth w then 0
    else if line <=? LowerNorth w then wrap64 (11136 - LowerWest w)
    else if line <? UpperSouth w then 0
    else if line <=? UpperNorth w then wrap64 (11136 - UpperWest w)
    else 0.

(** dataaccess.cpp:241-246: copying row [segline] of [data] into [buf], a buffer
    of [columns] samples; mirrored copy element by element when swapX. *)
Definition copy_row (swapX : bool) (data : list Z) (segline columns : nat) : outcome (list Z) :=
  if (List.length data <? segline * columns + columns)%nat then UB
  else if swapX then
    Ok (fold_left (fun buf i => set_nth buf (columns - i - 1) (nth (segline * columns + i) data 0))
          (seq 0 columns) (repeat 0 columns))
  else Ok (firstn columns (skipn (segline * columns) data)).

(** dataaccess.cpp:213-247. Division by zero when seglines is 0: UB. *)
Definition phys_line (g : geometry) (w : windows) (line : Z) : Z :=
  if g_hrv g then wrap64 (wrap64 (MaxLine w - line) - 1)
  else wrap64 (wrap64 (3712 - line) - SouthLineActual).

Definition line_read (segnames : list fname) (g : geometry) (w : windows) (ld : loader)
    (st : da) (line : Z) : da * outcome (list Z) :=
  if g_seglines g =? 0 then (st, UB) else
  let r := phys_line g w line in
  let segnum := r / g_seglines g in
  let segline := r mod g_seglines g in
  let '(st', d) := segment segnames ld st segnum in
  (st',
   match d with
   | Ok None => Ok (repeat 0 (Z.to_nat (g_columns g)))
   | Ok (Some p) =>
       match heap_get (da_heap st') p with
       | Some data => copy_row (g_swapX g) data (Z.to_nat segline) (Z.to_nat (g_columns g))
       | None => UB
       end
   | Throw => Throw | Terminate => Terminate | UB => UB | Loop => Loop
   end).

(** * Scanning the segment headers *)
(** dataaccess.cpp:99-112, one file: name and contents. *)
Definition resize (l : list fname) (n : nat) : list fname :=
  firstn n l ++ repeat [] (n - List.length l).
Definition scan_file (h : host) (acc : list fname * header) (f : fname * list Z)
  : outcome (list fname * header) :=
  let '(names, hd) := acc in
  let! r := read_header h hd (snd f) in
  let '(hd', _) := r in
  match h_seg hd' with
  | None => UB
  | Some sg =>
      if si_format sg =? 0 then Throw                       (* MSG_NO_FORMAT *)
      else
        let idx := si_seq sg - 1 in
        if idx <? 0 then Ok (names, hd')
        else
          let names1 := if Z.of_nat (List.length names) <=? idx
                        then resize names (Z.to_nat (idx + 1)) else names in
          Ok (set_nth names1 (Z.to_nat idx) (fst f), hd')
  end.
Fixpoint scan_files (h : host) (acc : list fname * header) (fs : list (fname * list Z))
  : outcome (list fname * header) :=
  match fs with
  | [] => Ok acc
  | f :: fs' => let! acc' := scan_file h acc f in scan_files h acc' fs'
  end.

(** dataaccess.cpp:67-84. The products are computed in size_t. *)
Definition scan_segment (hd : header) : outcome geometry :=
  match h_seg hd, h_image hd, h_navig hd with
  | Some sg, Some im, Some nv =>
      Ok (mk_geo (is_lines im) (is_cols im) (wrap64 (is_lines im * si_last sg))
            (wrap64 (is_cols im * is_lines im)) (si_channel sg =? 12)
            (nv_cfac nv <? 0) (nv_lfac nv <? 0))
  | _, _, _ => UB
  end.

(** dataaccess.cpp:98-117, starting from an empty table ([segnames] of a fresh
    DataAccess) and a fresh header. Prologue and epilogue reading (89-96) and the
    coverage copy (119-150) are not part of it. *)
Definition scan (h : host) (fs : list (fname * list Z)) : outcome (list fname * geometry) :=
  let! r := scan_files h ([], empty_header) fs in
  let '(names, hd) := r in
  match names with
  | [] => Throw
  | _ => let! g := scan_segment hd in Ok (names, g)
  end.

(** * gdal/xrit/rasterband.cpp:71-103 IReadBlock *)
(** Overwriting part of a buffer; writing outside it is UB. *)
Definition write_at {A} (buf : list A) (off : nat) (xs : list A) : outcome (list A) :=
  if (off + List.length xs <=? List.length buf)%nat
  then Ok (firstn off buf ++ xs ++ skipn (off + List.length xs) buf) else UB.

(** Linear bands: lines 83-84. [row] is what line_read delivers; the whole block
    buffer has [xsize] samples with previous contents [buf]. *)
Definition read_block_linear (xsize : nat) (buf : list Z) (linestart : Z) (row : list Z)
  : outcome (list Z) :=
  let! z := write_at buf 0 (repeat 0 xsize) in
  write_at z (Z.to_nat linestart) row.

(** Calibrated values: a finite number or NaN. *)
Inductive fval := Fin (q : Z) (* scaled; only its sign matters here *) | NaN.
(** lines 86-99: the three loops, writing element by element. *)
Definition clean (v : fval) : fval :=
  match v with Fin q => if q <? 0 then Fin 0 else Fin q | NaN => Fin 0 end.
Fixpoint fill_loop (buf : list fval) (i n : nat) : outcome (list fval) :=
  match n with
  | O => Ok buf
  | S n' => let! b := write_at buf i [Fin 0] in fill_loop b (S i) n'
  end.
Fixpoint cal_loop (cal : list fval) (buf : list fval) (i : nat) (row : list Z) : outcome (list fval) :=
  match row with
  | [] => Ok buf
  | x :: row' =>
      match nth_error cal (Z.to_nat x) with
      | None => UB
      | Some v => let! b := write_at buf i [clean v] in cal_loop cal b (S i) row'
      end
  end.
Definition read_block_calibrated (xsize : nat) (cal : list fval) (buf : list fval)
    (linestart : Z) (row : list Z) : outcome (list fval) :=
  let ls := Z.to_nat linestart in
  let! b1 := fill_loop buf 0 ls in
  let! b2 := cal_loop cal b1 ls row in
  fill_loop b2 (ls + List.length row) (xsize - (ls + List.length row)).

(** rasterband.cpp:71-103, whole call for a band: [None] is CE_Failure. *)
Definition iread_block_linear (segnames : list fname) (g : geometry) (w : windows) (ld : loader)
    (xsize : nat) (st : da) (xblock yblock : Z) (buf : list Z) : da * outcome (option (list Z)) :=
  if negb (xblock =? 0) then (st, Ok None) else
  let linestart := line_start (g_hrv g) w yblock in
  let '(st', row) := line_read segnames g w ld st yblock in
  (st', let! row := row in let! b := read_block_linear xsize buf linestart row in Ok (Some b)).
Definition iread_block_calibrated (segnames : list fname) (g : geometry) (w : windows) (ld : loader)
    (xsize : nat) (cal : list fval) (st : da) (xblock yblock : Z) (buf : list fval)
    : da * outcome (option (list fval)) :=
  if negb (xblock =? 0) then (st, Ok None) else
  let linestart := line_start (g_hrv g) w yblock in
  let '(st', row) := line_read segnames g w ld st yblock in
  (st', let! row := row in let! b := read_block_calibrated xsize cal buf linestart row in Ok (Some b)).
