(** tools/image.cpp, tools/msat.cpp and msat/gdal/gdaltranslate.cpp: contrast
    stretch, size cap, band selection, output names and the translation of
    datasets.

    Simplified: doubles are exact rationals ([StretchFloat.v] treats the rounding
    of the float stretch); metadata, ground control points, projections, -scale,
    colour expansion and the options msat never sets are left out of the
    translation; the pixels of a virtual dataset are those of its source window,
    as GDAL defines. *)
From Verif Require Import Base IniModel GeoModel FactsModel.
From Coq Require Import QArith Qround.
Open Scope list_scope.
Open Scope Z_scope.

(** ** Conversions *)
(** C truncation of a double. *)
Definition Qtrunc (q : Q) : Z := if Qle_bool 0 q then Qfloor q else - Qfloor (- q).
(** Conversion of a double to an unsigned type of [n] bits and to int: undefined
    when the truncated value does not fit. *)
Definition cast_u (n : Z) (q : Q) : outcome Z := if (0 <=? Qtrunc q) && (Qtrunc q <? 2 ^ n) then Ok (Qtrunc q) else UB.
Definition cast_int (q : Q) : outcome Z := if int_fits (Qtrunc q) then Ok (Qtrunc q) else UB.

(** ** Contrast stretch, integer samples *)
(** image.h:32-37; None: compute. *)
Definition stretch := option (Q * Q).
(** image.cpp:25-38 *)
Fixpoint range_loop (missing vmin vmax : Z) (vals : list Z) : Z * Z :=
  match vals with
  | [] => (vmin, vmax)
  | v :: l =>
      if v =? missing then range_loop missing vmin vmax l
      else if vmin =? missing then range_loop missing v v l
      else range_loop missing (if v <? vmin then v else vmin) (if vmax <? v then v else vmax) l
  end.
(** image.cpp:11-40, for an unsigned type of [n] bits. [nodata] is what
    GetNoDataValue returns (-1e10 for bands without one, as in GDAL). *)
Definition compute_if_needed (n : Z) (s : stretch) (nodata : Q) (vals : list Z) : outcome (Z * Z) :=
  match s with
  | Some (lo, hi) => let! a := cast_u n lo in let! b := cast_u n hi in Ok (a, b)
  | None => let! missing := cast_u n nodata in Ok (range_loop missing missing missing vals)
  end.
(** image.cpp:42-66. The arithmetic is in int and does not overflow for 8 and 16
    bits; results are stored modulo 256. *)
Definition rescale1 (vmin vmax v : Z) : Z :=
  if vmax =? vmin then vmin mod 256
  else if v <? vmin then 0
  else if vmax <? v then 255
  else ((v - vmin) * 255 / (vmax - vmin)) mod 256.
Definition rescale (vmin vmax : Z) (vals : list Z) : list Z := map (rescale1 vmin vmax) vals.
(** image.cpp:68-118: the pixels of the picture. *)
Definition picture (n : Z) (s : stretch) (nodata : Q) (vals : list Z) : outcome (list Z) :=
  let! r := compute_if_needed n s nodata vals in Ok (rescale (fst r) (snd r) vals).
(** image.cpp:147-176: [pixels] is None when RasterIO fails. export_image does
    not look at the pointer. *)
Definition imageToMagick (n : Z) (s : stretch) (nodata : Q) (pixels : option (list Z)) : outcome (option (list Z)) :=
  match pixels with
  | None => Ok None
  | Some vals => let! r := picture n s nodata vals in Ok (Some r)
  end.
Definition has_extension (name : str) : bool := existsb (fun c => c =? 46) name.
Definition export_image (n : Z) (s : stretch) (nodata : Q) (pixels : option (list Z)) (name : str) : outcome bool :=
  if negb (has_extension name) then Ok false
  else let! image := imageToMagick n s nodata pixels in
       match image with None => UB | Some _ => Ok true end.
Definition display_image (n : Z) (s : stretch) (nodata : Q) (pixels : option (list Z)) : outcome bool :=
  let! image := imageToMagick n s nodata pixels in
  match image with None => Ok false | Some _ => Ok true end.

(** ** Size cap *)
(** msat.cpp:337-353; the sizes are far below the range of size_t. *)
Definition scaled_size (maxx maxy sx sy : Z) : Z * Z :=
  let '(tx, ty) := if negb (maxx =? 0) && (maxx <? sx) then (maxx, sy * maxx / sx) else (sx, sy) in
  if negb (maxy =? 0) && (maxy <? ty) then (tx * maxy / ty, maxy) else (tx, ty).

(** ** Datasets *)
(** Size, band descriptions, geotransform if any. *)
Record dset := mk_dset { xs : Z; ys : Z; names : list str; dgeo : option geo }.
Definition count (d : dset) : Z := Z.of_nat (List.length (names d)).

(** ** Band selection *)
Definition isdigit (c : Z) : bool := (48 <=? c) && (c <=? 57).
Fixpoint digit_run (s : str) : str :=
  match s with
  | c :: s' => if isdigit c then c :: digit_run s' else []
  | [] => []
  end.
(** strtoul(3), base 10: the value and the number of characters used. *)
Definition strtoul (s : str) : Z * nat :=
  let r := strskp s in
  let spaces := (List.length s - List.length r)%nat in
  let '(neg, r', sign) := match r with
                          | c :: r' => if c =? 45 then (true, r', 1%nat) else if c =? 43 then (false, r', 1%nat) else (false, r, 0%nat)
                          | [] => (false, [], 0%nat)
                          end in
  let ds := digit_run r' in
  match ds with
  | [] => (0, 0%nat)
  | _ => let v := digits 0 ds in
         (if 2 ^ 64 <=? v then 2 ^ 64 - 1 else if neg : bool then (- v) mod 2 ^ 64 else v, (spaces + sign + List.length ds)%nat)
  end.
(** msat.cpp:548-559: 0 when there is no such band. *)
Fixpoint rbindex_from (i : Z) (l : list str) (name : str) : Z :=
  match l with
  | [] => 0
  | d :: l' => if str_eqb d name then i else rbindex_from (i + 1) l' name
  end.
Definition rbindex_by_name (d : dset) (name : str) : Z := rbindex_from 1 (names d) name.
(** msat.cpp:585-606: the band of one argument of --band. *)
Definition band_of (d : dset) (b : str) : list Z :=
  match b with
  | [] => []
  | c :: rest =>
      let '(idx, used) := strtoul b in
      if (used =? List.length b)%nat then [to_int idx]
      else let name := if c =? 33 then rest else b in
           let i := rbindex_by_name d name in
           if i =? 0 then [] else [i]
  end.
Definition select_bands (d : dset) (l : list str) : list Z := flat_map (band_of d) l.
(** 1, 2, ..., n *)
Definition first_bands (n : Z) : list Z := map Z.of_nat (seq 1 (Z.to_nat n)).
(** msat.cpp:616-627 *)
Definition def_bands (d : dset) (l : list Z) : bool := if list_eq_dec Z.eq_dec l (first_bands (count d)) then true else false.

(** ** Translation *)
(** -outsize arguments, already parsed by atoi or atof. *)
Inductive osz := Pixels (n : Z) | Percent (q : Q).
(** gdaltranslate.h, the members msat uses; [bands] = [] is nBandCount = 0. *)
Record trans := mk_trans { bands : list Z; bDefBands : bool; win : rect; proj : Q * Q * Q * Q; outsize : option (osz * osz) }.
Definition no_rect : rect := mk_rect 0 0 0 0.
(** gdaltranslate.cpp:48-86 *)
Definition trans0 : trans := mk_trans [] true no_rect (0, 0, 0, 0)%Q None.

(** A virtual dataset: its size, window on the source, source bands and
    geotransform. *)
Record vds := mk_vds { v_xs : Z; v_ys : Z; v_win : rect; v_bands : list Z; v_geo : option geo }.
(** What translate returns: NULL, the dataset itself, a virtual dataset. *)
Inductive tres := Null | Itself | Virtual (v : vds).

(** gdaltranslate.cpp:283-298 (with [strict], which also refuses empty windows)
    and 266-277. The sums are of ints. *)
Definition window_ok (strict : bool) (w : rect) (d : dset) : outcome bool :=
  if (rx w <? 0) || (ry w <? 0) then Ok false
  else if strict && ((rw w <=? 0) || (rh w <=? 0)) then Ok false
  else if negb (int_fits (rx w + rw w)) then UB
  else if xs d <? rx w + rw w then Ok false
  else if negb (int_fits (ry w + rh w)) then UB
  else Ok (negb (ys d <? ry w + rh w)).

Definition proj_given (p : Q * Q * Q * Q) : bool :=
  let '(a, b, c, e) := p in negb (Qeq_bool a 0 && Qeq_bool b 0 && Qeq_bool c 0 && Qeq_bool e 0).
(** GDALGetGeoTransform leaves the identity when there is none. *)
Definition geo_or_default (d : dset) : geo := match dgeo d with Some g => g | None => mk_geo 0 1 0 0 0 1 end.
(** gdaltranslate.cpp:250-256; a division by zero gives an infinity or
    not-a-number, which does not fit. *)
Definition proj_window (p : Q * Q * Q * Q) (g : geo) : outcome rect :=
  let '(ulx, uly, lrx, lry) := p in
  if Qeq_bool (g1 g) 0 || Qeq_bool (g5 g) 0 then UB
  else let! x := cast_int ((ulx - g0 g) / g1 g + (1 # 1000))%Q in
       let! y := cast_int ((uly - g3 g) / g5 g + (1 # 1000))%Q in
       let! w := cast_int ((lrx - ulx) / g1 g + (1 # 2))%Q in
       let! h := cast_int ((lry - uly) / g5 g + (1 # 2))%Q in
       Ok (mk_rect x y w h).

(** gdaltranslate.cpp:320-331 *)
Definition out_len (o : osz) (len : Z) : outcome Z :=
  match o with
  | Pixels n => Ok n
  | Percent q => cast_int (q / 100 * inject_Z len)%Q
  end.
(** gdaltranslate.cpp:369-384 *)
Definition moved_geo (g : geo) (w : rect) (ox oy : Z) : geo :=
  let fx := (inject_Z (rw w) / inject_Z ox)%Q in
  let fy := (inject_Z (rh w) / inject_Z oy)%Q in
  {| g0 := (g0 g + (inject_Z (rx w) * g1 g + inject_Z (ry w) * g2 g))%Q;
     g3 := (g3 g + (inject_Z (rx w) * g4 g + inject_Z (ry w) * g5 g))%Q;
     g1 := (g1 g * fx)%Q; g2 := (g2 g * fy)%Q; g4 := (g4 g * fx)%Q; g5 := (g5 g * fy)%Q |}.

(** gdaltranslate.cpp:189-193: no window means the whole dataset. The members
    are changed for good. *)
Definition fill_win (t : trans) (d : dset) : trans :=
  if (rw (win t) =? 0) && (rh (win t) =? 0)
  then mk_trans (bands t) (bDefBands t) (mk_rect (rx (win t)) (ry (win t)) (xs d) (ys d)) (proj t) (outsize t)
  else t.
(** gdaltranslate.cpp:198-226: None is NULL. *)
Definition check_bands (t : trans) (d : dset) : option trans :=
  match bands t with
  | [] => if count d =? 0 then None else Some (mk_trans (first_bands (count d)) (bDefBands t) (win t) (proj t) (outsize t))
  | l => if existsb (fun b => (b <? 1) || (count d <? b)) l then None
         else Some (mk_trans l (bDefBands t && (Z.of_nat (List.length l) =? count d)) (win t) (proj t) (outsize t))
  end.
Definition set_win (t : trans) (w : rect) : trans := mk_trans (bands t) (bDefBands t) w (proj t) (outsize t).
(** gdaltranslate.cpp:304-315 *)
Definition nothing_to_do (t : trans) (d : dset) : bool :=
  bDefBands t && (rx (win t) =? 0) && (ry (win t) =? 0) && (rw (win t) =? xs d) && (rh (win t) =? ys d) &&
  match outsize t with None => true | Some _ => false end.
(** gdaltranslate.cpp:304-551, once everything is checked. *)
Definition build (t : trans) (d : dset) : outcome tres :=
  if nothing_to_do t d then Ok Itself
  else
    let! ox := match outsize t with None => Ok (rw (win t)) | Some (a, _) => out_len a (rw (win t)) end in
    let! oy := match outsize t with None => Ok (rh (win t)) | Some (_, b) => out_len b (rh (win t)) end in
    Ok (Virtual (mk_vds ox oy (win t) (bands t) (match dgeo d with Some g => Some (moved_geo g (win t) ox oy) | None => None end))).
(** gdaltranslate.cpp:280-298: verify the window. *)
Definition verify (t : trans) (d : dset) : outcome (tres * trans) :=
  let! ok := window_ok true (win t) d in
  if ok : bool then let! r := build t d in Ok (r, t) else Ok (Null, t).
(** gdaltranslate.cpp:99-551: the result and the members afterwards. *)
Definition translate (t : trans) (d : dset) : outcome (tres * trans) :=
  let t := fill_win t d in
  match check_bands t d with
  | None => Ok (Null, t)
  | Some t =>
      if proj_given (proj t) then
        let g := geo_or_default d in
        if negb (Qeq_bool (g2 g) 0 && Qeq_bool (g4 g) 0) then Ok (Null, t)
        else let! w := proj_window (proj t) g in
             let! ok := window_ok false w d in
             if ok : bool then verify (set_win t w) d else Ok (Null, set_win t w)
      else verify t d
  end.

(** ** msat *)
(** The options main uses: --band, --Area (the corners it gives on a dataset)
    and the size cap. *)
Record opts := mk_opts { o_bands : list str; o_area : option (dset -> list (option (Z * Z))); o_maxx : Z; o_maxy : Z }.
(** msat.cpp:354-364 *)
Definition scale_if_needed (o : opts) (t : trans) (d : dset) : trans :=
  let '(tx, ty) := scaled_size (o_maxx o) (o_maxy o) (xs d) (ys d) in
  if negb (tx =? xs d) && negb (ty =? ys d)
  then mk_trans (bands t) (bDefBands t) (win t) (proj t) (Some (Pixels tx, Pixels ty))
  else t.
(** What becomes of one input file. *)
Inductive step_result := Skip | Fail | Result (r : tres).
(** msat.cpp:580-666: one file, up to the translation. A NULL result is used as
    a pointer by everything that follows (output names, printing). *)
Definition step (o : opts) (t : trans) (d : dset) : outcome (step_result * trans) :=
  let sel := select_bands d (o_bands o) in
  match o_bands o, sel with
  | _ :: _, [] => Ok (Skip, t)
  | bl, _ =>
      let t := match bl with [] => t | _ => mk_trans sel (def_bands d sel) (win t) (proj t) (outsize t) end in
      let! a := match o_area o with
                | None => Ok (Some t)
                | Some f => let! w := area_window (xs d) (ys d) (f d) in
                            Ok (match w with Some w => Some (set_win t w) | None => None end)
                end in
      match a with
      | None => Ok (Fail, t)
      | Some t =>
          let! r := translate (scale_if_needed o t d) d in
          match fst r with
          | Null => UB
          | res => Ok (Result res, snd r)
          end
      end
  end.
(** msat.cpp:562-764: the inputs (None: cannot be opened), the results obtained
    and the exit status. Writing the outputs is not modelled. *)
Fixpoint run (o : opts) (t : trans) (files : list (option dset)) : outcome (list tres * Z) :=
  match files with
  | [] => Ok ([], 0)
  | None :: _ => Ok ([], 1)
  | Some d :: l =>
      let! s := step o t d in
      match fst s with
      | Fail => Ok ([], 1)
      | Skip => run o (snd s) l
      | Result r => let! rest := run o (snd s) l in Ok (r :: fst rest, snd rest)
      end
  end.

(** ** Output names *)
(** msat.cpp:210-215 *)
Definition escapeSpacesAndDots (s : str) : str := map (fun c => if (c =? 32) || (c =? 46) then 95 else c) s.
(** msat.cpp:241-254 *)
Definition format_time (s : str) : str :=
  flat_map (fun c => if (c =? 45) || (c =? 58) then [] else if c =? 32 then [95] else [c]) (firstn 16 s).
Record metadata := mk_metadata { spacecraft_id : option str; spacecraft : option str; datetime : option str }.
Record band_metadata := mk_band_metadata { channel_id : option str; channel : option str }.
(** strtoul put into an int; -1 when the item is missing. *)
Definition md_id (v : option str) : Z := match v with Some s => to_int (fst (strtoul s)) | None => -1 end.
(** msat.cpp:217-282; [rb] is None for datasets with several bands. *)
Definition output_file_name (ds : metadata) (rb : option band_metadata) : str :=
  let id := md_id (spacecraft_id ds) in
  let name := match spacecraft ds with Some s => s | None => codes "unknown" end in
  let time := match datetime ds with Some s => format_time s | None => [] end in
  escapeSpacesAndDots name ++ [95] ++ escapeSpacesAndDots (codes (sensorName id)) ++ [95] ++
  match rb with
  | None => []
  | Some b =>
      let level := escapeSpacesAndDots (codes (channelLevel id (md_id (channel_id b)))) in
      (if (match level with [] => true | _ => false end) then [] else level ++ [95]) ++
      escapeSpacesAndDots (match channel b with Some s => s | None => [] end) ++ [95]
  end ++ time.
