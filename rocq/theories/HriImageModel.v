(** msat/hri/HRI_image.cpp, HRI_subframe_keyslot.cpp and the ASCII decoders of
    HRI_machine.cpp. *)
From Verif Require Import Base.
From Coq Require Import QArith.
#[local] Open Scope Z_scope.

(** ** HRI_image.h:47-58, formats and bands. *)
Inductive hformat := A_FORMAT | B_FORMAT | X_FORMAT.
Inductive hband := IR_BAND | WV_BAND | VIS_BAND | VH_BAND.

(** HRI_image.h:77-99. [data] is the array of [size] bytes: None is a byte that
    was never written, whose value is indeterminate. The names, units, sampling
    factors and calibration of the image are not modelled. *)
Record image := mk_image {
  npixels : Z; nlines : Z; lastpix : Z; lastlin : Z; halflin : Z; size : Z; data : list (option Z) }.
(** HRI_image.cpp:35-46, the default constructor. *)
Definition no_image : image := mk_image 0 0 0 0 0 0 [].

(** HRI_image.cpp:61-238, set_format_band: the dimensions, then two arrays from
    new unsigned char[], not initialised. Undefined combinations reach a bare
    [throw;]. *)
Definition fresh (np nl lp ll hl sz : Z) : outcome image :=
  Ok (mk_image np nl lp ll hl sz (repeat None (Z.to_nat sz))).
Definition set_format_band (f : hformat) (b : hband) : outcome image :=
  match f with
  | A_FORMAT =>
      match b with
      | IR_BAND => fresh 2500 2500 2499 2499 1250 6250000
      | WV_BAND => fresh 2500 2500 2499 2499 1250 6250000
      | VH_BAND => fresh 2500 2500 2499 2499 1250 6250000
      | VIS_BAND => fresh 5000 5000 4999 4999 2500 25000000
      end
  | B_FORMAT =>
      match b with
      | IR_BAND => fresh 1250 625 1249 624 625 781250
      | WV_BAND => fresh 1250 625 1249 624 625 781250
      | VIS_BAND => fresh 2500 1250 2499 1249 1250 3125000
      | VH_BAND => Terminate
      end
  | X_FORMAT =>
      match b with
      | IR_BAND => fresh 1250 1250 1249 1249 625 1562500
      | WV_BAND => fresh 1250 1250 1249 1249 625 1562500
      | VH_BAND => fresh 1250 1250 1249 1249 625 1562500
      | VIS_BAND => Terminate
      end
  end.

(** memcpy(m + off, src, n) and memcpy(dst, m + off, n). [off] is an int, which
    does not overflow for the dimensions above. *)
Definition store (m : list (option Z)) (off : Z) (src : list Z) (n : Z) : outcome (list (option Z)) :=
  if (off <? 0) || (Z.of_nat (List.length m) <? off + n) then UB
  else let! s := bytes_at src 0 (Z.to_nat n) in
       Ok (firstn (Z.to_nat off) m ++ map Some s ++ skipn (Z.to_nat (off + n)) m).
Definition fetch (m : list (option Z)) (off n : Z) : outcome (list (option Z)) :=
  if (off <? 0) || (Z.of_nat (List.length m) <? off + n) then UB
  else Ok (firstn (Z.to_nat n) (skipn (Z.to_nat off) m)).
Definition with_data (im : image) (d : list (option Z)) : image :=
  mk_image (npixels im) (nlines im) (lastpix im) (lastlin im) (halflin im) (size im) d.

(** HRI_image.cpp:240-258, put_line. [dataline] is the array pointed to. *)
Definition put_line (im : image) (dataline : list Z) (linesize linenum : Z) : outcome image :=
  if size im =? 0 then Ok im
  else if negb (linesize =? npixels im) then Terminate
  else if (linenum <? 0) || (lastlin im <? linenum) then Terminate
  else let! d := store (data im) (linenum * npixels im) dataline linesize in Ok (with_data im d).

(** HRI_image.cpp:260-283, put_halfline. *)
Definition put_halfline (im : image) (dataline : list Z) (linesize linenum : Z) (firsthalf : bool) : outcome image :=
  if size im =? 0 then Ok im
  else if negb (linesize =? halflin im) then Terminate
  else if (linenum <? 0) || (lastlin im <? linenum) then Terminate
  else let! d := (if firsthalf
                  then store (data im) (linenum * npixels im) dataline linesize
                  else store (data im) (linenum * npixels im + halflin im - 2) dataline linesize) in
       Ok (with_data im d).

(** HRI_image.cpp:285-297, get_line: None is the null pointer. *)
Definition get_line (im : image) (linenum : Z) : outcome (option (list (option Z))) :=
  if size im =? 0 then Ok None
  else if (linenum <? 0) || (lastlin im <? linenum) then Terminate
  else let! l := fetch (data im) (linenum * npixels im) (npixels im) in Ok (Some l).

(** HRI_image.cpp:309-327, get_pixel. *)
Definition get_pixel (im : image) (linenum pixelnum : Z) : outcome (option Z) :=
  if size im =? 0 then Ok (Some 0)
  else if (linenum <? 0) || (lastlin im <? linenum) then Terminate
  else if (pixelnum <? 0) || (lastpix im <? pixelnum) then Terminate
  else let! c := fetch (data im) (linenum * npixels im + pixelnum) 1 in
       match c with [v] => Ok v | _ => UB end.

(** ** HRI_subframe_keyslot.h:35-40 and HRI_subframe_keyslot.cpp:37-59, readfrom.
    16*b2+b3 is at most 4335 and fits an unsigned short. *)
Record keyslot := mk_slot { usage : bool; key_number : Z; station_number : Z; message_key : list Z }.
Definition no_slot : keyslot := mk_slot false 0 0 (repeat 0 8).
Definition read_slot (buff : list Z) (i : nat) : outcome keyslot :=
  let! b := bytes_at buff (i * 12) 12 in
  match b with
  | [b0; b1; b2; b3; k0; k1; k2; k3; k4; k5; k6; k7] =>
      if b0 =? 0 then Ok no_slot
      else Ok (mk_slot true b1 (16 * b2 + b3) [k0; k1; k2; k3; k4; k5; k6; k7])
  | _ => UB
  end.
Fixpoint read_slots (buff : list Z) (i n : nat) : outcome (list keyslot) :=
  match n with
  | O => Ok []
  | S m => let! k := read_slot buff i in let! ks := read_slots buff (S i) m in Ok (k :: ks)
  end.
Definition read_keys (buff : list Z) : outcome (list keyslot) := read_slots buff 0 120.
(** HRI_subframe_keyslot.cpp:61-69, has_keys. *)
Fixpoint has_keys (ks : list keyslot) (station : Z) : bool :=
  match ks with
  | [] => false
  | k :: ks' => if usage k && (station_number k =? station) then true else has_keys ks' station
  end.
(** HRI_subframe_keyslot.cpp:71-82, get_key. *)
Fixpoint get_key (ks : list keyslot) (station keynum : Z) : keyslot :=
  match ks with
  | [] => no_slot
  | k :: ks' =>
      if usage k && (station_number k =? station) && (key_number k =? keynum) then k
      else get_key ks' station keynum
  end.

(** ** HRI_machine.cpp:48-142, the ASCII decoders. char is signed; float
    arithmetic is taken exact (rationals). *)
Definition add_f (tmp : Q) (b : Z) (w : Q) : Q := if negb (b =? 32) then (tmp + inject_Z (b - 48) * w)%Q else tmp.
Definition add_i (tmp : Z) (b w : Z) : Z := if negb (b =? 32) then to_signed 16 ((tmp + (b - 48) * w) mod 2 ^ 16) else tmp.
Definition r4_from_char6 (b : list Z) : outcome Q :=
  match b with
  | b0 :: b1 :: b2 :: b3 :: b4 :: b5 :: _ =>
      Ok (add_f (add_f (add_f (add_f (add_f (add_f 0 b0 100) b1 10) b2 1) b3 (1 # 10)) b4 (1 # 100)) b5 (1 # 1000))
  | _ => UB
  end.
Definition r4_from_char3 (b : list Z) : outcome Q :=
  match b with
  | b0 :: b1 :: b2 :: _ => Ok (add_f (add_f (add_f 0 b0 1) b1 (1 # 10)) b2 (1 # 100))
  | _ => UB
  end.
Definition r4f_from_char3 (b : list Z) : outcome Q :=
  match b with
  | b0 :: b1 :: b2 :: _ => Ok (add_f (add_f (add_f 0 b0 10) b1 1) b2 (1 # 10))
  | _ => UB
  end.
Definition r4_from_char5 (b : list Z) : outcome Q :=
  match b with
  | b0 :: b1 :: b2 :: b3 :: b4 :: _ =>
      Ok (add_f (add_f (add_f (add_f (add_f 0 b0 100) b1 10) b2 1) b3 (1 # 10)) b4 (1 # 100))
  | _ => UB
  end.
Definition i2_from_char3 (b : list Z) : outcome Z :=
  match b with
  | b0 :: b1 :: b2 :: _ => Ok (add_i (add_i (add_i 0 b0 100) b1 10) b2 1)
  | _ => UB
  end.
Definition i2_from_char2 (b : list Z) : outcome Z :=
  match b with
  | b0 :: b1 :: _ => Ok (add_i (add_i 0 b0 10) b1 1)
  | _ => UB
  end.
Definition r4f_from_char5 (b : list Z) : outcome Q :=
  match b with
  | b0 :: b1 :: b2 :: b3 :: b4 :: _ =>
      Ok (add_f (add_f (add_f (add_f (add_f 0 b0 (1 # 10)) b1 (1 # 100)) b2 (1 # 1000)) b3 (1 # 10000)) b4 (1 # 100000))
  | _ => UB
  end.
