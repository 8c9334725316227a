(** Pictures of MSG native files: MSG_native::pgmdump of msat/msg-native/MSG_native.cpp
    and tools/msg-native/native2Image.cpp.

    Not modelled: the usage message, -V, the errors of the disk. *)
From Verif Require Import Base IniModel MachineModel GribModel NativeModel.
From Coq Require Import String.
Open Scope string_scope.
Open Scope list_scope.
Open Scope Z_scope.

(** A sample of 16 bits in memory, as os.write gives it to the file. *)
Definition bytes2 (hs : host) (v : Z) : list Z := match hs with LE => [v mod 256; v / 256] | BE => [v / 256; v mod 256] end.
(** %d of an int through operator<<. *)
Definition show (z : Z) : str := if z <? 0 then 45 :: print (- z) else print z.

(** MSG_native.cpp:192-201: the buffer is allocated for the first line ([room] is its
    size, None before) and used again for all others. A line that to_sample takes is
    whole groups of 5 bytes, so that ns is the number of samples written. *)
Fixpoint dump_loop (hs : host) (h : heap) (room : option Z) (ls : list nline) : outcome (list Z) :=
  match ls with
  | [] => Ok []
  | l :: ls' =>
      match nth (nl_ptr l) h None with
      | None => UB
      | Some d =>
          let room := match room with None => nsample d | Some r => r end in
          let! s := to_sample d room in
          let! r := dump_loop hs h (Some room) ls' in
          Ok (flat_map (bytes2 hs) s ++ r)
      end
  end.
(** MSG_native.cpp:177-207: None is the result false. [opened]: the file could be
    created; [infos] are the texts of the header; [cols] and [rows] are
    numbercolumns[ic] and numberlines[ic]. *)
Definition pgmdump (hs : host) (x : native) (sel : list bool) (infos : list str) (cols rows : Z) (ic : Z) (opened : bool) : outcome (option (list Z)) :=
  if (ic <? 0) || (12 <=? ic) then Ok None
  else if negb (nth (Z.to_nat ic) sel false) then Ok None
  else if negb opened then Ok None
  else
    let! body := dump_loop hs (nt_heap x) None (nth (Z.to_nat ic) (nt_lines x) []) in
    Ok (Some (codes "P5" ++ [10] ++ flat_map (fun i => codes "# " ++ i) infos ++ show cols ++ [32] ++ show rows ++ [10] ++ codes "1024" ++ [10] ++ body)).

(** ** The picture tools. A picture of ImageMagick: width, height and samples by lines. *)
Record pic := mk_pic { p_wd : Z; p_hg : Z; p_px : list Z }.
(** Magick::Image(columns, rows, "I", ShortPixel, data): an empty size is an exception,
    which nothing catches; a sample never written is an undefined value. *)
Fixpoint written (l : list (option Z)) : outcome (list Z) :=
  match l with [] => Ok [] | None :: _ => UB | Some v :: l' => let! r := written l' in Ok (v :: r) end.
Definition constitute (wd hg : Z) (d : option (list (option Z))) : outcome pic :=
  if (wd <=? 0) || (hg <=? 0) then Terminate
  else match d with None => UB | Some d => let! px := written d in Ok (mk_pic wd hg px) end.
(** rotate(180.0) *)
Definition rotate180 (p : pic) : pic := mk_pic (p_wd p) (p_hg p) (rev (p_px p)).

Section Tools.
(** normalize(), which looks at the whole picture; scale(), to a width and a height. *)
Variable normalize : list Z -> list Z.
Variable scale : pic -> Z -> Z -> pic.
(** (int) ((float) size * atof(text)) *)
Variable times : str -> Z -> Z.
Definition normalized (p : pic) : pic := mk_pic (p_wd p) (p_hg p) (normalize (p_px p)).

(** native2Image.cpp:40-98 once the file is read: [x] and the tables of sizes. The
    picture written under its name; the picture in memory after that is the last
    component. *)
Definition native2image (x : native) (sel : list bool) (rows cols : nat -> nat) (channel format factor : str) : outcome (str * pic * pic) :=
  let! ichn := atoi channel in
  let inside := (0 <=? ichn) && (ichn <? 12) in
  let ic := Z.to_nat ichn in
  let wd := if inside then Z.of_nat (cols ic) else 0 in
  let hg := if inside then Z.of_nat (rows ic) else 0 in
  let! d := if inside && nth ic sel false then let! d := data x ic (rows ic) (cols ic) in Ok (Some d) else Ok None in
  let! image := constitute wd hg d in
  let outname := firstn 4095 (codes "MSG1" ++ [46] ++ format) in
  let image := rotate180 (normalized image) in
  Ok (outname, image, scale image (times factor wd) (times factor hg)).
End Tools.
