(** Properties C01 to C09 and C61 to C63: segment cache, row placement, scanning, raster rows. *)
From Verif Require Import BaseFacts MachineModel HeaderModel HeaderSpec DataAccessModel DataAccessSpec
  DataAccessProofs DataAccessScan DataAccessBlocks.
From Coq Require Import Sorted Permutation.

(** C01: with a fixed file system, whatever was requested before, a request
    shows exactly what reading the recorded file now would give: its contents,
    the failure of reading it, or no segment when none is recorded. *)
Theorem C01_cache_transparent : forall (names : list fname) (ld : loader) (before : list Z) (idx : Z),
  Forall (fun i => 0 <= i) before -> 0 <= idx ->
  observe (segment names ld (run names da_init (map (fun i => (ld, i)) before)) idx) = fresh names ld idx.
Proof. exact cache_transparent. Qed.
Print Assumptions C01_cache_transparent.

(** C01 when loads may fail at some moments and succeed at others: the answer is
    never stale or someone else's data. *)
Theorem C01_cache_transparent_with_failures :
  forall (names : list fname) (content : fname -> list Z) (h : history) (ld : loader) (idx : Z),
  requests_ok h -> 0 <= idx -> faithful content ld ->
  (forall ld' i, In (ld', i) h -> faithful content ld') ->
  let r := observe (segment names ld (run names da_init h) idx) in
  match recorded names idx with
  | None => r = Ok None
  | Some f => r = Ok (Some (content f)) \/ (is_ok (ld f) = false /\ r = (let! d := ld f in Ok (Some d)))
  end.
Proof. exact cache_transparent_failures. Qed.
Print Assumptions C01_cache_transparent_with_failures.

(** C02: bounded, duplicate free, and coherent with the recorded files. *)
Theorem C02_cache_bounded : forall (names : list fname) (content : fname -> list Z) (h : history),
  requests_ok h -> (forall ld i, In (ld, i) h -> faithful content ld) ->
  let st := run names da_init h in
  (List.length (da_cache st) <= 2)%nat /\ NoDup (map fst (da_cache st)) /\
  forall k p, In (k, p) (da_cache st) ->
    exists f, recorded names k = Some f /\ heap_get (da_heap st) p = Some (content f).
Proof. exact cache_bounded. Qed.
Print Assumptions C02_cache_bounded.

(** C03: no file is read for one of the two latest delivered segments. *)
Theorem C03_no_reload_in_working_set : forall (names : list fname) (h : history) (ld : loader) (idx : Z),
  requests_ok h -> 0 <= idx ->
  (forall ld' i, In (ld', i) h -> loads_all names ld') ->
  In idx (two_latest (delivered names h)) ->
  let st := run names da_init h in
  da_reads (fst (segment names ld st idx)) = da_reads st.
Proof. exact working_set. Qed.
Print Assumptions C03_no_reload_in_working_set.

(** C03: reading rows in increasing or decreasing order, from any earlier state,
    reads each segment file at most once. *)
Theorem C03_one_load_per_segment :
  forall (names : list fname) (g : geometry) (w : windows) (ld : loader) (h0 : history) (ls : list Z),
  requests_ok h0 -> loads_all names ld -> 0 < g_seglines g ->
  image_rows g w < 2 ^ 32 ->
  Forall (fun l => 0 <= l < image_rows g w) ls ->
  StronglySorted (fun x y => x <= y) ls \/ StronglySorted (fun x y => y <= x) ls ->
  let st := run names da_init h0 in
  exists new, da_reads (fst (read_lines names g w ld st ls)) = new ++ da_reads st /\ NoDup new.
Proof. exact raster_scan. Qed.
Print Assumptions C03_one_load_per_segment.

(** ** A small product used as an instance: 8 segments of 464 rows of 3 samples,
    the third one missing. *)
Definition demo_rows (k : Z) : list row := map (fun i => [k; Z.of_nat i; k + 1]) (seq 0 464).
Definition demo_segs : segments :=
  map (fun k => if k =? 2 then None else Some (demo_rows k)) [0; 1; 2; 3; 4; 5; 6; 7].
Definition demo_names : list fname := [[100]; [101]; []; [103]; [104]; [105]; [106]; [107]].
Definition demo_ld : loader := fun f =>
  match f with [c] => Ok (List.concat (demo_rows (c - 100))) | _ => Throw end.
Definition demo_geo (hrv : bool) : geometry := mk_geo 464 3 3712 1392 hrv true true.
Definition demo_win : windows := mk_win 1 1 5568 8128 2064 8129 7631 11136.

Lemma demo_recorded k f : recorded demo_names k = Some f ->
  0 <= k < 8 /\ k <> 2 /\ f = [100 + k].
Proof.
  intros H. unfold recorded in H.
  destruct (nth_error demo_names (Z.to_nat k)) as [n|] eqn:E; [|discriminate].
  assert (Hk : (Z.to_nat k < 8)%nat) by (apply (nth_error_Some demo_names); congruence).
  destruct n as [|c n]; [discriminate|]. destruct (Z.ltb_spec k 0); [discriminate|].
  assert (C : k = 0 \/ k = 1 \/ k = 2 \/ k = 3 \/ k = 4 \/ k = 5 \/ k = 6 \/ k = 7) by lia.
  destruct C as [->|[->|[->|[->|[->|[->|[->| ->]]]]]]]; cbn in E; injection E as <- <- || discriminate;
    injection H as <-; repeat split; lia || reflexivity.
Qed.
Example demo_loads_all : loads_all demo_names demo_ld.
Proof. intros k f H. apply demo_recorded in H as (_ & _ & ->). eexists. reflexivity. Qed.
Example demo_holds : holds demo_names demo_ld 464 3 demo_segs.
Proof.
  intros k Hk. destruct (Z_lt_le_dec k 8) as [Hlt|Hge].
  - assert (C : k = 0 \/ k = 1 \/ k = 2 \/ k = 3 \/ k = 4 \/ k = 5 \/ k = 6 \/ k = 7) by lia.
    assert (F : forall c, Forall (fun r => Z.of_nat (List.length r) = 3) (demo_rows c)).
    { intros c. apply Forall_forall. intros r Hr. apply in_map_iff in Hr as (i & <- & _). reflexivity. }
    assert (L : forall c, Z.of_nat (List.length (demo_rows c)) = 464).
    { intros c. unfold demo_rows. rewrite map_length, seq_length. reflexivity. }
    destruct C as [->|[->|[->|[->|[->|[->|[->| ->]]]]]]];
      match goal with
      | |- context [nth ?i demo_segs None] =>
          let v := eval cbv - [demo_rows] in (nth i demo_segs None) in change (nth i demo_segs None) with v
      end; cbn iota; try reflexivity;
      (eexists; split; [reflexivity|]; split; [reflexivity|]; split; [apply L|apply F]).
  - rewrite nth_overflow by (change (List.length demo_segs) with 8%nat; lia).
    destruct (recorded demo_names k) eqn:E; [|reflexivity]. apply demo_recorded in E. lia.
Qed.

Example C01_case :
  observe (segment demo_names demo_ld (run demo_names da_init (map (fun i => (demo_ld, i)) [7; 3; 7; 2; 0])) 3)
  = Ok (Some (List.concat (demo_rows 3))) /\
  observe (segment demo_names demo_ld (run demo_names da_init (map (fun i => (demo_ld, i)) [7; 3; 7; 2; 0])) 2) = Ok None.
Proof. split; vm_compute; reflexivity. Qed.
(** a history with a failing load in it *)
Definition demo_hist : history := [(demo_ld, 0); ((fun _ => Throw), 1); (demo_ld, 5); (demo_ld, 0)].
Example C01_C02_case : requests_ok demo_hist /\
  (forall ld i, In (ld, i) demo_hist -> faithful (fun f => match f with [c] => List.concat (demo_rows (c - 100)) | _ => [] end) ld) /\
  map fst (da_cache (run demo_names da_init demo_hist)) = [0; 5].
Proof.
  split; [repeat constructor; cbn; lia|]. split; [|vm_compute; reflexivity].
  assert (F : faithful (fun f => match f with [c] => List.concat (demo_rows (c - 100)) | _ => [] end) demo_ld).
  { intros f d H. destruct f as [|c [|]]; cbn [demo_ld] in H; try discriminate. apply Ok_inj in H. congruence. }
  intros ld i [H|[H|[H|[H|[]]]]]; injection H as <- <-; auto. intros f d E. discriminate.
Qed.
Example C03_case : two_latest (delivered demo_names (map (fun i => (demo_ld, i)) [7; 3; 7; 2; 0])) = [0; 7].
Proof. vm_compute. reflexivity. Qed.
Example C03_scan_case : da_reads (fst (read_lines demo_names (demo_geo false) demo_win demo_ld da_init (range 400 200)))
  = [6; 7].
Proof. vm_compute. reflexivity. Qed.

(** C04: row L of a non-HRV image, whatever was read before, is the row counted
    3711-L from the south, mirrored exactly when the column scaling is negative. *)
Theorem C04_row_placement :
  forall (names : list fname) (g : geometry) (w : windows) (ld : loader) (segs : segments) (h : history) (line : Z),
  requests_ok h -> (forall ld' i, In (ld', i) h -> ld' = ld) ->
  0 < g_seglines g -> 0 <= g_columns g -> g_hrv g = false -> 0 <= line < 3712 ->
  holds names ld (g_seglines g) (g_columns g) segs ->
  snd (line_read names g w ld (run names da_init h) line) =
    Ok (orient (g_swapX g) (phys_row (g_seglines g) (g_columns g) segs (3711 - line))).
Proof. exact placement_nonhrv. Qed.
Print Assumptions C04_row_placement.

(** C04: reading all rows of a complete image delivers each physical row exactly
    once, north to south. *)
Theorem C04_whole_image :
  forall (names : list fname) (g : geometry) (w : windows) (ld : loader) (segs : segments) (h : history),
  requests_ok h -> (forall ld' i, In (ld', i) h -> ld' = ld) ->
  0 < g_seglines g -> 0 <= g_columns g -> g_hrv g = false ->
  holds names ld (g_seglines g) (g_columns g) segs ->
  Forall (fun s => exists rows, s = Some rows /\ Z.of_nat (List.length rows) = g_seglines g) segs ->
  g_seglines g * Z.of_nat (List.length segs) = 3712 ->
  snd (read_lines names g w ld (run names da_init h) (range 0 3712)) =
    map (fun r => Ok (orient (g_swapX g) r)) (rev (whole_image segs)).
Proof. exact whole_image_nonhrv. Qed.
Print Assumptions C04_whole_image.
Example C04_case : holds demo_names demo_ld (g_seglines (demo_geo false)) (g_columns (demo_geo false)) demo_segs /\
  snd (line_read demo_names (demo_geo false) demo_win demo_ld da_init 0) = Ok [8; 463; 7] /\
  snd (line_read demo_names (demo_geo false) demo_win demo_ld da_init 3711) = Ok [1; 0; 0].
Proof. split; [exact demo_holds|]. split; vm_compute; reflexivity. Qed.

(** C05: take the file of segment k away ([names'], with [segs'] what is left):
    its rows become zeros, all others are delivered as with the file. Any subset
    of missing segments is covered by [segs] having missing entries already. *)
Theorem C05_missing_segment_is_zero :
  forall (names names' : list fname) (g : geometry) (w : windows) (ld : loader) (segs : segments) (k : Z) (h h' : history) (line : Z),
  requests_ok h -> (forall ld' i, In (ld', i) h -> ld' = ld) ->
  requests_ok h' -> (forall ld' i, In (ld', i) h' -> ld' = ld) ->
  0 < g_seglines g -> 0 <= g_columns g -> image_rows g w < 2 ^ 32 -> 0 <= line < image_rows g w ->
  0 <= k < Z.of_nat (List.length segs) ->
  holds names ld (g_seglines g) (g_columns g) segs ->
  holds names' ld (g_seglines g) (g_columns g) (set_nth segs (Z.to_nat k) None) ->
  snd (line_read names' g w ld (run names' da_init h') line) =
    if (image_rows g w - 1 - line) / g_seglines g =? k
    then Ok (zero_row (g_columns g))
    else snd (line_read names g w ld (run names da_init h) line).
Proof. exact missing_file. Qed.
Print Assumptions C05_missing_segment_is_zero.
Theorem C05_missing_rows_are_zero :
  forall (names : list fname) (g : geometry) (w : windows) (ld : loader) (segs : segments) (h : history) (line : Z),
  requests_ok h -> (forall ld' i, In (ld', i) h -> ld' = ld) ->
  0 < g_seglines g -> 0 <= g_columns g -> image_rows g w < 2 ^ 32 -> 0 <= line < image_rows g w ->
  holds names ld (g_seglines g) (g_columns g) segs ->
  nth (Z.to_nat ((image_rows g w - 1 - line) / g_seglines g)) segs None = None ->
  snd (line_read names g w ld (run names da_init h) line) = Ok (zero_row (g_columns g)).
Proof. exact missing_rows. Qed.
Print Assumptions C05_missing_rows_are_zero.
Example C05_case : snd (line_read demo_names (demo_geo false) demo_win demo_ld da_init (3711 - 1000)) = Ok [0; 0; 0]
  /\ nth (Z.to_nat (1000 / 464)) demo_segs None = None.
Proof. split; vm_compute; reflexivity. Qed.

(** C06: column offset of an HRV row. [cols] is the width of the windows. *)
Theorem C06_window_placement : forall (w : windows) (cols line : Z), windows_ok w cols -> 0 <= line ->
  let r := MaxLine w - line in
  let s := line_start true w line in
  (in_window (LowerSouth w) (LowerNorth w) r = true -> s = 11136 - LowerWest w) /\
  (in_window (UpperSouth w) (UpperNorth w) r = true -> 1 <= r -> s = 11136 - UpperWest w) /\
  (in_window (LowerSouth w) (LowerNorth w) r = false ->
   (in_window (UpperSouth w) (UpperNorth w) r = false \/ r <= 0) -> s = 0) /\
  0 <= s /\ s + cols <= 11136.
Proof. exact window_placement. Qed.
Print Assumptions C06_window_placement.
Example C06_case : windows_ok demo_win 5568 /\ line_start true demo_win 0 = 3505 /\
  line_start true demo_win 3008 = 5568 /\ line_start true demo_win 3007 = 3505 /\ line_start true demo_win 11136 = 0.
Proof.
  split; [|repeat split; vm_compute; reflexivity].
  unfold windows_ok, window_ok. cbn [demo_win LowerEast LowerSouth LowerWest LowerNorth UpperEast UpperSouth UpperWest UpperNorth]. lia.
Qed.

(** C07: row mapping for HRV. *)
Theorem C07_hrv_row_mapping :
  forall (names : list fname) (g : geometry) (w : windows) (ld : loader) (segs : segments) (h : history) (line : Z),
  requests_ok h -> (forall ld' i, In (ld', i) h -> ld' = ld) ->
  0 < g_seglines g -> 0 <= g_columns g -> g_hrv g = true -> MaxLine w < 2 ^ 32 -> 0 <= line < MaxLine w ->
  holds names ld (g_seglines g) (g_columns g) segs ->
  snd (line_read names g w ld (run names da_init h) line) =
    Ok (orient (g_swapX g) (phys_row (g_seglines g) (g_columns g) segs (MaxLine w - 1 - line))).
Proof. exact placement_hrv. Qed.
Print Assumptions C07_hrv_row_mapping.
(** The mapping is a bijection: all rows of a complete product, once each. *)
Theorem C07_hrv_whole_image :
  forall (names : list fname) (g : geometry) (w : windows) (ld : loader) (segs : segments) (h : history),
  requests_ok h -> (forall ld' i, In (ld', i) h -> ld' = ld) ->
  0 < g_seglines g -> 0 <= g_columns g -> g_hrv g = true -> MaxLine w < 2 ^ 32 ->
  holds names ld (g_seglines g) (g_columns g) segs ->
  Forall (fun s => exists rows, s = Some rows /\ Z.of_nat (List.length rows) = g_seglines g) segs ->
  g_seglines g * Z.of_nat (List.length segs) = MaxLine w ->
  snd (read_lines names g w ld (run names da_init h) (range 0 (MaxLine w))) =
    map (fun r => Ok (orient (g_swapX g) r)) (rev (whole_image segs)).
Proof. exact whole_image_hrv. Qed.
Print Assumptions C07_hrv_whole_image.
(** Past the end the row number wraps around 2^64; with any table of fewer than
    2^62 rows the answer is a row of zeros, never a row of the image. *)
Theorem C07_rows_past_the_end_are_zero :
  forall (names : list fname) (g : geometry) (w : windows) (ld : loader) (h : history) (line : Z),
  requests_ok h -> (forall ld' i, In (ld', i) h -> ld' = ld) ->
  0 < g_seglines g -> 0 <= g_columns g -> 0 <= image_rows g w < 2 ^ 32 ->
  image_rows g w <= line < 2 ^ 62 -> g_seglines g * Z.of_nat (List.length names) <= 2 ^ 62 ->
  snd (line_read names g w ld (run names da_init h) line) = Ok (zero_row (g_columns g)).
Proof. exact past_end. Qed.
Print Assumptions C07_rows_past_the_end_are_zero.
Example C07_case :
  snd (line_read demo_names (demo_geo true) demo_win demo_ld da_init 11135) = Ok [1; 0; 0] /\
  snd (line_read demo_names (demo_geo true) demo_win demo_ld da_init 11136) = Ok [0; 0; 0].
Proof. split; vm_compute; reflexivity. Qed.

(** C08: the outcome of scanning does not depend on the order of the files. *)
Theorem C08_scan_order_independent : forall (h h' : host) (fs fs' : list seg_file),
  consistent fs -> Permutation fs fs' ->
  scan h (map sf_bytes fs) = scan h' (map sf_bytes fs').
Proof. exact scan_order_independent. Qed.
Print Assumptions C08_scan_order_independent.
(** C08: and it is the right one. *)
Theorem C08_scan_result : forall (h : host) (fs : list seg_file), consistent fs -> fs <> [] ->
  exists names last ch lines cols sx sy,
    Forall (fun f => sf_common f = Some (last, ch, lines, cols, sx, sy)) fs /\
    scan h (map sf_bytes fs) =
      Ok (names, mk_geo lines cols (wrap64 (lines * last)) (wrap64 (cols * lines)) (ch =? 12) sx sy) /\
    names_of fs names.
Proof. exact scan_result. Qed.
Print Assumptions C08_scan_result.
Definition demo_file (seq : Z) : seg_file :=
  mk_sf (codes "seg" ++ [48 + seq]) 0 80
    [RImage 10 3 464 0; RNavig (codes "GEOS(+000.0)" ++ repeat 0 20) (-5) (-5) 1856 1856; RSeg 321 4 seq 1 8 3] [1; 2].
Example C08_case : consistent (map demo_file [3; 1; 8]) /\
  scan LE (map sf_bytes (map demo_file [3; 1; 8])) =
  Ok ([sf_name (demo_file 1); []; sf_name (demo_file 3); []; []; []; []; sf_name (demo_file 8)], mk_geo 464 3 3712 1392 false true true).
Proof.
  split; [|vm_compute; reflexivity].
  split; [eexists; repeat constructor|]. split.
  - repeat constructor; cbn; try discriminate; try reflexivity.
  - repeat constructor; cbn; intuition discriminate.
Qed.

(** C09: a linear row; and exactly when it stays inside the buffer. *)
Theorem C09_linear_row : forall (xsize : nat) (buf : list Z) (ls : Z) (row : list Z),
  List.length buf = xsize -> 0 <= ls ->
  read_block_linear xsize buf ls row =
  if (Z.to_nat ls + List.length row <=? xsize)%nat then Ok (placed 0 xsize (Z.to_nat ls) row) else UB.
Proof. exact linear_block. Qed.
Print Assumptions C09_linear_row.
Theorem C09_calibrated_row : forall (xsize : nat) (cal buf : list fval) (ls : Z) (row : list Z),
  List.length buf = xsize -> 0 <= ls -> (Z.to_nat ls + List.length row <= xsize)%nat -> Forall (in_table cal) row ->
  read_block_calibrated xsize cal buf ls row = Ok (placed (Fin 0) xsize (Z.to_nat ls) (map (physical cal) row)).
Proof. exact calibrated_block. Qed.
Print Assumptions C09_calibrated_row.
Theorem C09_calibrated_row_outside : forall (xsize : nat) (cal buf : list fval) (ls : Z) (row : list Z),
  List.length buf = xsize -> 0 <= ls -> Forall (fun x => 0 <= x) row -> row <> [] ->
  (xsize < Z.to_nat ls + List.length row)%nat \/ Exists (fun x => ~ in_table cal x) row ->
  read_block_calibrated xsize cal buf ls row = UB.
Proof. exact calibrated_block_UB. Qed.
Print Assumptions C09_calibrated_row_outside.
Theorem C09_row_size : forall (A : Type) (z : A) (xsize off : nat) (row : list A),
  (off + List.length row <= xsize)%nat -> List.length (placed z xsize off row) = xsize.
Proof. exact @placed_length. Qed.
Print Assumptions C09_row_size.
(** C09 end to end, HRV with valid windows of the scanned width on the 11136
    column raster: reading block (0, L) after any earlier reads. *)
Theorem C09_hrv_raster_row :
  forall (names : list fname) (g : geometry) (w : windows) (ld : loader) (segs : segments) (h : history) (line : Z) (buf : list Z),
  requests_ok h -> (forall ld' i, In (ld', i) h -> ld' = ld) ->
  0 < g_seglines g -> g_hrv g = true -> windows_ok w (g_columns g) -> 0 <= line < MaxLine w ->
  holds names ld (g_seglines g) (g_columns g) segs -> Z.of_nat (List.length buf) = 11136 ->
  snd (iread_block_linear names g w ld (List.length buf) (run names da_init h) 0 line buf) =
    Ok (Some (placed 0 (List.length buf) (Z.to_nat (line_start true w line))
      (orient (g_swapX g) (phys_row (g_seglines g) (g_columns g) segs (MaxLine w - 1 - line))))).
Proof. exact block_linear_hrv. Qed.
Print Assumptions C09_hrv_raster_row.
(** The same for a calibrated non-HRV band as wide as its segments. *)
Theorem C09_calibrated_raster_row :
  forall (names : list fname) (g : geometry) (w : windows) (ld : loader) (segs : segments) (h : history)
         (cal : list fval) (line : Z) (buf : list fval),
  requests_ok h -> (forall ld' i, In (ld', i) h -> ld' = ld) ->
  0 < g_seglines g -> g_hrv g = false -> 0 <= line < 3712 ->
  holds names ld (g_seglines g) (g_columns g) segs -> Z.of_nat (List.length buf) = g_columns g ->
  Forall (in_table cal) (phys_row (g_seglines g) (g_columns g) segs (3711 - line)) ->
  snd (iread_block_calibrated names g w ld (List.length buf) cal (run names da_init h) 0 line buf) =
    Ok (Some (map (physical cal)
      (orient (g_swapX g) (phys_row (g_seglines g) (g_columns g) segs (3711 - line))))).
Proof. exact block_calibrated_nonhrv. Qed.
Print Assumptions C09_calibrated_raster_row.
Example C09_case :
  read_block_linear 6 [9; 9; 9; 9; 9; 9] 2 [1; 2; 3] = Ok [0; 0; 1; 2; 3; 0] /\
  read_block_linear 4 [9; 9; 9; 9] 2 [1; 2; 3] = UB /\
  read_block_calibrated 5 [Fin 7; Fin (-1); NaN] [NaN; NaN; NaN; NaN; NaN] 1 [0; 1; 2] =
    Ok [Fin 0; Fin 7; Fin 0; Fin 0; Fin 0] /\
  read_block_calibrated 5 [Fin 7] [NaN; NaN; NaN; NaN; NaN] 1 [1] = UB.
Proof. repeat split; vm_compute; reflexivity. Qed.
Example C09_end_to_end_case :
  snd (iread_block_calibrated demo_names (demo_geo false) demo_win demo_ld 3
        (Fin (-3) :: map Fin (map Z.of_nat (seq 100 600))) da_init 0 0 [NaN; NaN; NaN])
  = Ok (Some [Fin 107; Fin 562; Fin 106]).
Proof. vm_compute. reflexivity. Qed.

(** C61 is false: a failed load throws out a segment of the working set, so a
    segment among the two latest delivered is read again. *)
Theorem C61_refuted_failed_load_evicts : exists (names : list fname) (h : history) (ld : loader) (idx : Z),
  requests_ok h /\ In idx (two_latest (delivered names h)) /\
  let st := run names da_init h in
  da_reads (fst (segment names ld st idx)) <> da_reads st.
Proof.
  exists [[1]; [2]; [3]], [((fun _ => Ok [5]), 0); ((fun _ => Ok [5]), 1); ((fun _ => Throw), 2)], (fun _ => Ok [5]), 0.
  split; [repeat constructor; cbn; lia|]. split; [vm_compute; tauto|]. vm_compute. discriminate.
Qed.
Print Assumptions C61_refuted_failed_load_evicts.
(** C61 (partial): the latest delivered segment survives any failed loads.
    Missing: the second latest one, see the refutation. *)
Theorem C61_latest_survives_failures_partial : forall (names : list fname) (h : history) (ld : loader) (idx : Z),
  requests_ok h -> 0 <= idx -> hd_error (delivered names h) = Some idx ->
  let st := run names da_init h in
  da_reads (fst (segment names ld st idx)) = da_reads st.
Proof. exact latest_no_reload. Qed.
Print Assumptions C61_latest_survives_failures_partial.
Example C61_case : hd_error (delivered demo_names (demo_hist ++ [((fun _ => Throw), 7); ((fun _ => Throw), 6)])) = Some 0.
Proof. vm_compute. reflexivity. Qed.

(** C62: a segment handed to the caller stays alive and unchanged during the
    next request. *)
Theorem C62_segment_survives_next_request :
  forall (names : list fname) (h : history) (ld1 : loader) (idx1 p : Z) (ld2 : loader) (idx2 : Z) (d : list Z),
  requests_ok h -> 0 <= idx1 -> 0 <= idx2 ->
  snd (segment names ld1 (run names da_init h) idx1) = Ok (Some p) ->
  let st1 := fst (segment names ld1 (run names da_init h) idx1) in
  heap_get (da_heap st1) p = Some d ->
  heap_get (da_heap (fst (segment names ld2 st1 idx2))) p = Some d.
Proof. exact pointer_survives. Qed.
Print Assumptions C62_segment_survives_next_request.
(** but not longer: two further requests may free it *)
Example C62_limit : exists p,
  snd (segment demo_names demo_ld da_init 0) = Ok (Some p) /\
  heap_get (da_heap (run demo_names da_init (map (fun i => (demo_ld, i)) [0; 1; 3]))) p = None /\
  heap_get (da_heap (run demo_names da_init (map (fun i => (demo_ld, i)) [0; 1]))) p = Some (List.concat (demo_rows 0)).
Proof. eexists. repeat split; vm_compute; reflexivity. Qed.

(** C63 (partial): destroying the object frees every cached segment, each once,
    and what stays allocated is exactly one object per failed load. Missing:
    those objects are never freed, see the refutation. *)
Theorem C63_destruction_frees_cache_partial : forall (names : list fname) (h : history), requests_ok h ->
  exists leaked, destroy (run names da_init h) = Ok leaked /\
    List.length leaked = failures_from names da_init h.
Proof. exact destroy_ok. Qed.
Print Assumptions C63_destruction_frees_cache_partial.
Theorem C63_refuted_leak : exists (names : list fname) (h : history) (x : Z * list Z) (l : list (Z * list Z)),
  requests_ok h /\ destroy (run names da_init h) = Ok (x :: l).
Proof.
  exists [[1]], [((fun _ => Throw), 0)]. eexists _, _. split; [repeat constructor; cbn; lia|]. vm_compute. reflexivity.
Qed.
Print Assumptions C63_refuted_leak.
Example C63_case : failures_from demo_names da_init demo_hist = 1%nat.
Proof. vm_compute. reflexivity. Qed.
