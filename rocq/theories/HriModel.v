(** msat/hri/HRI.cpp and the subframes: reading an HRI file. *)
From Verif Require Import Base MachineModel HriImageModel HriFloatModel.
From Coq Require Import QArith.
#[local] Open Scope string_scope.
#[local] Open Scope list_scope.
#[local] Open Scope Z_scope.

(** ** The input stream: what is left of the file, and failbit. istream::read of
    [n] bytes: once the stream failed nothing is read; when fewer than [n] bytes
    are left they are stored and the stream fails. *)
Record stream := mk_stream { left : list Z; failed : bool }.
Definition sread (s : stream) (n : nat) : list Z * stream :=
  if failed s then ([], s)
  else if (n <=? List.length (left s))%nat then (firstn n (left s), mk_stream (skipn n (left s)) false)
  else (left s, mk_stream [] true).
(** The buffer, zeroed or not before, after the read. *)
Definition over (old new : list Z) : list Z := new ++ skipn (List.length new) old.

(** HRI.cpp:511-534 mod_getbuff and 536-557 getbuff: two shorts copied from the
    frame are compared in the byte order of the host; a failed read is reported
    on cerr and ignored. *)
Definition sync_error (hs : host) (buff : list Z) (offset : nat) : outcome bool :=
  let! c0 := bytes_at buff offset 2 in
  let! c1 := bytes_at buff (offset + 2) 2 in
  Ok (negb (load_u hs c0 =? 0x0C05) && negb (Z.land (load_u hs c1) 255 =? 0xDF)).
Definition getbuff_n (hs : host) (framesize offset : nat) (s : stream) : outcome (list Z * stream) :=
  let '(bs, s) := sread s framesize in
  let buff := over (repeat 0 framesize) bs in
  if failed s then Ok (buff, s)
  else let! bad := sync_error hs buff offset in
       if bad then Terminate else Ok (buff, s).
Definition getbuff (hs : host) (s : stream) : outcome (list Z * stream) := getbuff_n hs 364 0 s.
Definition mod_getbuff (hs : host) (offset : nat) (s : stream) : outcome (list Z * stream) := getbuff_n hs 2048 offset s.

(** memcpy(dst + at, src, n) between byte buffers, [bs] being the n bytes. *)
Definition copy_to (dst : list Z) (at_ : nat) (bs : list Z) : outcome (list Z) :=
  if (at_ + List.length bs <=? List.length dst)%nat
  then Ok (firstn at_ dst ++ bs ++ skipn (at_ + List.length bs) dst) else UB.

(** ** HRI.cpp:433-473, get_dataline: [lb] is the static line buffer with its
    former content. Each entry of the table is a frame to get and the copy made
    from it: place in the line, place in the frame, size. *)
Fixpoint get_frames (hs : host) (t : list (nat * nat * nat)) (s : stream) (lb : list Z) : outcome (list Z * stream) :=
  match t with
  | [] => Ok (lb, s)
  | (dst, src, n) :: t' =>
      let! bs := getbuff hs s in
      let '(fb, s) := bs in
      let! d := bytes_at fb src n in
      let! lb := copy_to lb dst d in
      get_frames hs t' s lb
  end.
Definition a_table : list (nat * nat * nat) :=
  [(0, 68, 296); (296, 4, 360); (656, 4, 360); (1016, 4, 360); (1376, 4, 360); (1736, 4, 360); (2096, 4, 360); (2456, 4, 44)]%nat.
Definition bx_table : list (nat * nat * nat) := [(0, 36, 328); (328, 4, 360); (688, 4, 360); (1048, 4, 202)]%nat.
Definition get_dataline (hs : host) (format : Z) (s : stream) (lb : list Z) : outcome (list Z * stream) :=
  if format =? 112 then get_frames hs a_table s lb
  else if format =? 48 then get_frames hs bx_table s lb
  else Terminate.
(** HRI.cpp:475-509, mod_get_dataline. *)
Definition mod_get_dataline (hs : host) (format : Z) (s : stream) (lb : list Z) : outcome (list Z * stream) :=
  if format =? 112 then
    let! bs := mod_getbuff hs 0 s in
    let '(fb, s) := bs in
    let! d := bytes_at fb (68 + 320) 1660 in
    let! lb := copy_to lb 0 d in
    let '(bs, s) := sread s 1024 in
    if failed s then Terminate
    else let! d := bytes_at (over fb bs) 0 840 in
         let! lb := copy_to lb 1660 d in Ok (lb, s)
  else if format =? 48 then
    let! bs := getbuff hs s in
    let '(fb, s) := bs in
    let! d := bytes_at fb (36 + 160) 168 in
    let! lb := copy_to lb 0 d in
    let '(bs, s) := sread s 1172 in
    if failed s then Terminate
    else let! d := bytes_at (over (repeat 0 2048) bs) 0 1082 in
         let! lb := copy_to lb 168 d in Ok (lb, s)
  else Terminate.
Definition dataline (tecnavia : bool) (hs : host) (format : Z) (s : stream) (lb : list Z) : outcome (list Z * stream) :=
  if tecnavia then mod_get_dataline hs format s lb else get_dataline hs format s lb.

(** ** HRI_subframe_label.cpp:37-62, readfrom. The numbers are unsigned. *)
Record label := mk_label {
  l_frames : Z; l_total : Z; l_current : Z; l_line : Z; l_image : Z;
  l_format : Z; l_viss : Z; l_visn : Z; l_ir : Z; l_wv : Z; l_grid : Z; l_encryption : Z; l_scan : Z }.
Definition read_label (hs : host) (b : list Z) : outcome label :=
  let! n0 := i2_from_buff hs b in
  let! n1 := i2_from_buff hs (skipn 2 b) in
  let! n2 := i2_from_buff hs (skipn 4 b) in
  let! n3 := i2_from_buff hs (skipn 6 b) in
  let! n4 := i4_from_buff hs (skipn 8 b) in
  let! c := bytes_at b 12 12 in
  let at_ i := nth i c 0 in
  Ok (mk_label (n0 mod 2 ^ 16) (n1 mod 2 ^ 16) (n2 mod 2 ^ 16) (n3 mod 2 ^ 16) (n4 mod 2 ^ 32)
        (at_ 0%nat) (at_ 1%nat) (at_ 2%nat) (at_ 3%nat) (at_ 4%nat) (at_ 5%nat) (at_ 6%nat) (at_ 7%nat)).
(** HRI_subframe_label.cpp:196-215, format_code, with the predicates of 64-194. *)
Definition format_code (l : label) : outcome string :=
  let! tmp := (if l_format l =? 0 then Ok "A" else if l_format l =? 255 then Ok "B" else if l_format l =? 15 then Ok "X" else Terminate) in
  let tmp := if negb (l_ir l =? 0) then append tmp "I" else tmp in
  let hasv := negb (l_viss l =? 0) || negb (l_visn l =? 0) in
  let tmp := if hasv then append tmp "V" else tmp in
  Ok (if negb (l_wv l =? 0) then append tmp "W"
      else if hasv && ((l_viss l =? 255) || (l_visn l =? 255)) then append tmp "H" else tmp).

(** ** HRI_subframe_identification.cpp:39-77, the satellite. The date and the
    remaining fields are not modelled (mktime, gmtime, asctime). *)
Definition read_satellite (b : list Z) : outcome (Z * Z) :=
  let! s := bytes_at b 0 2 in
  let s0 := nth 0 s 0 in let s1 := nth 1 s 0 in
  if s0 =? 212 then Ok (s0, s1)
  else if (s0 =? 0) && ((s1 =? 0) || (s1 =? 1) || (s1 =? 2) || (s1 =? 3)) then Ok (s0, s1)
  else Terminate.

(** ** HRI_subframe_interpretation.cpp:37-173, readfrom: the fields in the order
    they are read, how, and where. The administrative message (560, 800 bytes) is
    not kept. *)
Inductive kind := C6 | C3 | CF3 | C5 | CF5 | I3 | I2c | R8 | R4 | I4 | I2 | B1.
Inductive fval := FQ (q : Q) | FZ (z : Z) | FD (hi lo : Z) | FB (b : bool).
Definition interp_table : list (string * kind * nat) :=
  [("bbc1ir", C6, 0%nat); ("bbsd1i", C3, 6%nat); ("bbc1wv", C6, 9%nat); ("bbsd1w", C3, 15%nat); ("bb1t", C5, 18%nat);
   ("bb2t", C5, 23%nat); ("bbc2ir", C6, 28%nat); ("bbsd2i", C3, 34%nat); ("bbc2wv", C6, 37%nat); ("bbsd2w", C3, 43%nat);
   ("time1_day", I3, 46%nat); ("time1_slot", I2c, 49%nat); ("calir", CF5, 51%nat); ("irspc", CF3, 56%nat); ("time2_day", I3, 59%nat);
   ("time2_slot", I2c, 62%nat); ("calwv", CF5, 64%nat); ("wvspc", CF3, 69%nat); ("time3_day", I3, 72%nat); ("time3_slot", I2c, 75%nat);
   ("ir_gain", I2c, 92%nat); ("wv_gain", I2c, 94%nat); ("v1_gain", I2c, 96%nat); ("v2_gain", I2c, 98%nat); ("degsra", R8, 104%nat);
   ("degsde", R8, 112%nat); ("degnra", R8, 120%nat); ("degnde", R8, 128%nat); ("finatt_x", R8, 136%nat); ("finatt_y", R8, 144%nat);
   ("finatt_z", R8, 152%nat); ("farade_1", R8, 160%nat); ("farade_2", R8, 168%nat); ("nrslot", I4, 176%nat); ("spndur", R4, 180%nat);
   ("flecl", B1, 184%nat); ("fldec", B1, 185%nat); ("flman", B1, 186%nat); ("flmode", B1, 187%nat); ("flir1", B1, 188%nat);
   ("flir2", B1, 189%nat); ("flwv1", B1, 190%nat); ("flwv2", B1, 191%nat); ("flvis1", B1, 192%nat); ("flvis2", B1, 193%nat);
   ("flvis3", B1, 194%nat); ("flvis4", B1, 195%nat); ("imstat_1", B1, 232%nat); ("imstat_2", B1, 233%nat); ("imstat_3", B1, 234%nat);
   ("imstat_4", B1, 235%nat); ("imstat_5", B1, 236%nat); ("imstat_6", B1, 237%nat); ("imstat_7", B1, 238%nat); ("imstat_8", B1, 239%nat);
   ("imstat_9", B1, 240%nat); ("imstat_10", B1, 241%nat); ("imstat_11", B1, 242%nat); ("limhor_1", I2, 248%nat); ("limhor_2", I2, 250%nat);
   ("limhor_3", I2, 252%nat); ("limhor_4", I2, 254%nat); ("limhor_5", I2, 256%nat); ("limhor_6", I2, 258%nat); ("limhor_7", I2, 260%nat);
   ("limhor_8", I2, 262%nat); ("limhor_9", I2, 264%nat); ("limhor_10", I2, 266%nat); ("limhor_11", I2, 268%nat); ("limhor_12", I2, 270%nat);
   ("satdis", R8, 272%nat); ("sorbof_x", R8, 280%nat); ("sorbof_y", R8, 288%nat); ("sorbof_z", R8, 296%nat); ("norbof_x", R8, 304%nat);
   ("norbof_y", R8, 312%nat); ("norbof_z", R8, 320%nat); ("xddifm", R4, 328%nat); ("yddifm", R4, 332%nat); ("xscm", R4, 336%nat);
   ("yscm", R4, 340%nat); ("conds_1", B1, 344%nat); ("conds_2", B1, 345%nat); ("conds_3", B1, 346%nat); ("conds_4", B1, 347%nat);
   ("lowdyn_ir", I2, 348%nat); ("lowdyn_v1", I2, 350%nat); ("lowdyn_v2", I2, 352%nat); ("lowdyn_wv", I2, 354%nat); ("higdyn_ir", I2, 356%nat);
   ("higdyn_v1", I2, 358%nat); ("higdyn_v2", I2, 360%nat); ("higdyn_wv", I2, 362%nat); ("mvis1", R4, 364%nat); ("mvis2", R4, 368%nat);
   ("snnom_ir", R4, 372%nat); ("snnom_v1", R4, 376%nat); ("snnom_v2", R4, 380%nat); ("snnom_wv", R4, 384%nat); ("snnlin", I4, 388%nat);
   ("snrep_ir", R4, 392%nat); ("snrep_v1", R4, 396%nat); ("snrep_v2", R4, 400%nat); ("snrep_wv", R4, 404%nat); ("snrwp_ir", R4, 408%nat);
   ("snrwp_v1", R4, 412%nat); ("snrwp_v2", R4, 416%nat); ("snrwp_wv", R4, 420%nat); ("swmnep_ir", R4, 424%nat); ("swmnep_v1", R4, 428%nat);
   ("swmnep_v2", R4, 432%nat); ("swmnep_wv", R4, 436%nat); ("swmnwp_ir", R4, 440%nat); ("swmnwp_v1", R4, 444%nat); ("swmnwp_v2", R4, 448%nat);
   ("swmnwp_wv", R4, 452%nat); ("snmxep_ir", I2, 456%nat); ("snmxep_v1", I2, 458%nat); ("snmxep_v2", I2, 460%nat); ("snmxep_wv", I2, 462%nat);
   ("snmxwp_ir", I2, 466%nat); ("snmxwp_v1", I2, 466%nat); ("snmxwp_v2", I2, 468%nat); ("snmxwp_wv", I2, 470%nat)].
Definition read_field (w : nat) (hs : host) (buf : list Z) (k : kind) (off : nat) : outcome fval :=
  let b := skipn off buf in
  match k with
  | C6 => let! q := r4_from_char6 b in Ok (FQ q)
  | C3 => let! q := r4_from_char3 b in Ok (FQ q)
  | CF3 => let! q := r4f_from_char3 b in Ok (FQ q)
  | C5 => let! q := r4_from_char5 b in Ok (FQ q)
  | CF5 => let! q := r4f_from_char5 b in Ok (FQ q)
  | I3 => let! z := i2_from_char3 b in Ok (FZ z)
  | I2c => let! z := i2_from_char2 b in Ok (FZ z)
  | R8 => let! d := r8_from_buff w hs b in Ok (FD (fst d) (snd d))
  | R4 => let! z := r4_from_buff w hs b in Ok (FZ z)
  | I4 => let! z := i4_from_buff hs b in Ok (FZ z)
  | I2 => let! z := i2_from_buff hs b in Ok (FZ z)
  | B1 => let! z := rd1 buf off in Ok (FB (negb (z =? 0)))
  end.
Fixpoint read_fields (w : nat) (hs : host) (buf : list Z) (t : list (string * kind * nat)) : outcome (list (string * fval)) :=
  match t with
  | [] => Ok []
  | (name, k, off) :: t' =>
      let! v := read_field w hs buf k off in
      let! vs := read_fields w hs buf t' in Ok ((name, v) :: vs)
  end.
Definition read_interp (w : nat) (hs : host) (buf : list Z) : outcome (list (string * fval)) := read_fields w hs buf interp_table.

(** ** HRI_geolocation.h:44-83, set_format. *)
Definition one_of (f : string) (l : list string) : bool := existsb (String.eqb f) l.
Definition geolocation (f : string) : outcome (Z * Z * Z * Z) :=
  if one_of f ["AW"; "AIW"; "AIVH"; "AVH"] then Ok (-9102222, -9102222, 1248, 1249)
  else if one_of f ["AV"] then Ok (-18204444, -18204444, 2500, 2500)
  else if one_of f ["BW"; "BIV"; "BIW"; "BIVH"] then Ok (-18204444, -18204444, 1248, -1118)
  else if one_of f ["XI"; "XVH"; "XW"] then Ok (-9102222, -9102222, 1250, 1250)
  else Terminate.

(** ** HRI.cpp:126-379: what is done for each format: the images prepared, the
    number of turns of the loop, and the data lines got in turn [i]: image, line,
    whole line or half. *)
Inductive part := All | First | Second.
Record plan := mk_plan { p_images : list (hformat * hband); p_turns : nat; p_body : nat -> list (nat * nat * part) }.
Definition halves (im i : nat) : list (nat * nat * part) :=
  [(im, i * 2, First); (im, i * 2, Second); (im, i * 2 + 1, First); (im, i * 2 + 1, Second)]%nat.
Definition plan_of (f : string) : outcome plan :=
  if (f =? "AV")%string then Ok (mk_plan [(A_FORMAT, VIS_BAND)] (Z.to_nat 2500) (halves 0))
  else if (f =? "AVH")%string then Ok (mk_plan [(A_FORMAT, VH_BAND)] (Z.to_nat 2500) (fun i => [(0%nat, i, All)]))
  else if (f =? "AW")%string then Ok (mk_plan [(A_FORMAT, WV_BAND)] (Z.to_nat 2500) (fun i => [(0%nat, i, All)]))
  else if (f =? "AIW")%string then Ok (mk_plan [(A_FORMAT, IR_BAND); (A_FORMAT, WV_BAND)] (Z.to_nat 2500) (fun i => [(0%nat, i, All); (1%nat, i, All)]))
  else if (f =? "AIVH")%string then Ok (mk_plan [(A_FORMAT, IR_BAND); (A_FORMAT, VH_BAND)] (Z.to_nat 2500) (fun i => [(0%nat, i, All); (1%nat, i, All)]))
  else if (f =? "BW")%string then Ok (mk_plan [(B_FORMAT, WV_BAND)] (Z.to_nat 625) (fun i => [(0%nat, i, All)]))
  else if (f =? "BIV")%string || (f =? "BIVH")%string then
    Ok (mk_plan [(B_FORMAT, IR_BAND); (B_FORMAT, VIS_BAND)] (Z.to_nat 625) (fun i => (0%nat, i, All) :: halves 1 i))
  else if (f =? "BIW")%string then Ok (mk_plan [(B_FORMAT, IR_BAND); (B_FORMAT, WV_BAND)] (Z.to_nat 625) (fun i => [(0%nat, i, All); (1%nat, i, All)]))
  else if (f =? "XI")%string then Ok (mk_plan [(X_FORMAT, IR_BAND)] (Z.to_nat 1250) (fun i => [(0%nat, i, All)]))
  else if (f =? "XW")%string then Ok (mk_plan [(X_FORMAT, WV_BAND)] (Z.to_nat 1250) (fun i => [(0%nat, i, All)]))
  else if (f =? "XVH")%string then Ok (mk_plan [(X_FORMAT, VH_BAND)] (Z.to_nat 1250) (fun i => [(0%nat, i, All)]))
  else Terminate.

Fixpoint prepare (l : list (hformat * hband)) : outcome (list image) :=
  match l with
  | [] => Ok []
  | (f, b) :: l' => let! im := set_format_band f b in let! ims := prepare l' in Ok (im :: ims)
  end.
(** The line size passed is npixels of the image, or half of it (mpixels). (For
    "BIW" it is npixels of image[0] for both, the same number.) *)
Definition put_part (im : image) (lb : list Z) (l : nat) (p : part) : outcome image :=
  match p with
  | All => put_line im lb (npixels im) (Z.of_nat l)
  | First => put_halfline im lb (npixels im / 2) (Z.of_nat l) true
  | Second => put_halfline im lb (npixels im / 2) (Z.of_nat l) false
  end.
Record state := mk_state { st_stream : stream; st_buf : list Z; st_images : list image }.
Fixpoint run_body (tecnavia : bool) (hs : host) (id : Z) (body : list (nat * nat * part)) (x : state) : outcome state :=
  match body with
  | [] => Ok x
  | (k, l, p) :: body' =>
      let! d := dataline tecnavia hs id (st_stream x) (st_buf x) in
      let '(lb, s) := d in
      let! im := put_part (nth k (st_images x) no_image) lb l p in
      run_body tecnavia hs id body' (mk_state s lb (set_nth (st_images x) k im))
  end.
Fixpoint run_turns (tecnavia : bool) (hs : host) (id : Z) (body : nat -> list (nat * nat * part)) (i n : nat) (x : state) : outcome state :=
  match n with
  | O => Ok x
  | S m => let! x := run_body tecnavia hs id (body i) x in run_turns tecnavia hs id body (S i) m x
  end.

(** ** HRI.cpp:40-383, readfrom. The file is open; [lb] is the former content of
    the static line buffer. [None] as keys: not set by this call. An A format
    TECNAVIA file whose second block cannot be read makes it return early,
    without image. Calibration coefficients are left out. *)
Record hri := mk_hri {
  h_id : Z; h_label : label; h_seed : list Z; h_satellite : Z * Z; h_interp : list (string * fval);
  h_keys : option (list keyslot); h_format : string; h_images : list image; h_geo : option (Z * Z * Z * Z) }.
Definition get_four (hs : host) (s : stream) : outcome (list Z * stream) :=
  let! b := getbuff hs s in let '(f1, s) := b in let! d1 := bytes_at f1 4 360 in
  let! b := getbuff hs s in let '(f2, s) := b in let! d2 := bytes_at f2 4 360 in
  let! b := getbuff hs s in let '(f3, s) := b in let! d3 := bytes_at f3 4 360 in
  let! b := getbuff hs s in let '(f4, s) := b in let! d4 := bytes_at f4 4 360 in
  Ok (d1 ++ d2 ++ d3 ++ d4, s).
(** HRI.cpp:52-81: the first frame(s). *)
Definition read_head (w : nat) (hs : host) (tecnavia : bool) (s : stream) : outcome (Z * label * list Z * (Z * Z) * list (string * fval) * stream) :=
  if tecnavia then
    let offset := 512%nat in
    let! b := mod_getbuff hs offset s in
    let '(fb, s) := b in
    let! id := rd1 fb (3 + offset) in
    let! lbl := bytes_at fb (4 + offset) 24 in let! lab := read_label hs lbl in
    let! seed := bytes_at fb (28 + offset) 8 in
    let! idn := bytes_at fb (36 + offset) 48 in let! sat := read_satellite idn in
    let! itp := bytes_at fb (84 + offset) 1360 in
    let! interp := read_interp w hs itp in
    Ok (id, lab, seed, sat, interp, s)
  else
    let! b := getbuff hs s in
    let '(fb, s) := b in
    let! id := rd1 fb 3 in
    let! lbl := bytes_at fb 4 24 in let! lab := read_label hs lbl in
    let! seed := bytes_at fb 28 8 in
    let! idn := bytes_at fb 36 48 in let! sat := read_satellite idn in
    let! i0 := bytes_at fb 84 280 in
    let! b := getbuff hs s in let '(f1, s) := b in let! i1 := bytes_at f1 4 360 in
    let! b := getbuff hs s in let '(f2, s) := b in let! i2 := bytes_at f2 4 360 in
    let! b := getbuff hs s in let '(f3, s) := b in let! i3 := bytes_at f3 4 360 in
    let! interp := read_interp w hs (i0 ++ i1 ++ i2 ++ i3) in
    Ok (id, lab, seed, sat, interp, s).
(** HRI.cpp:83-112: the keys of A format files; whether to return early. *)
Definition read_keyblock (hs : host) (tecnavia : bool) (id : Z) (s : stream) : outcome (option (list keyslot) * bool * stream) :=
  if id =? 112 then
    if tecnavia then let '(_, s) := sread s 1536 in Ok (None, failed s, s)
    else let! b := get_four hs s in
         let '(kb, s) := b in
         let! ks := read_keys kb in Ok (Some ks, false, s)
  else Ok (None, false, s).
Definition readfrom (w : nat) (hs : host) (tecnavia : bool) (lb : list Z) (file : list Z) : outcome hri :=
  let! head := read_head w hs tecnavia (mk_stream file false) in
  let '(id, lab, seed, sat, interp, s) := head in
  let! keyed := read_keyblock hs tecnavia id s in
  let '(keys, early, s) := keyed in
  if (early : bool) then Ok (mk_hri id lab seed sat interp keys "" [] None)
  else
    let! format := format_code lab in
    let! p := plan_of format in
    let! ims := prepare (p_images p) in
    let! x := run_turns tecnavia hs id (p_body p) 0 (p_turns p) (mk_state s lb ims) in
    let! geo := geolocation format in
    Ok (mk_hri id lab seed sat interp keys format (st_images x) (Some geo)).
