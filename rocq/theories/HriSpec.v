(** The layout of HRI files. *)
From Verif Require Import Base HriImageModel HriImageSpec.
#[local] Open Scope string_scope.
#[local] Open Scope list_scope.
#[local] Open Scope Z_scope.

(** ** Frames: three synchronisation bytes, an identifier, 360 bytes. *)
Definition frame (id : Z) (p : list Z) : list Z := [0x05; 0x0C; 0xDF; id] ++ p.
Fixpoint chop (n : nat) (p : list Z) : list (list Z) :=
  match n with
  | O => []
  | S m => firstn 360 p :: chop m (skipn 360 p)
  end.
Definition framed (id : Z) (n : nat) (p : list Z) : list Z := List.concat (map (frame id) (chop n p)).

(** ** The header. *)
Record header := mk_header { hd_label : list Z; hd_seed : list Z; hd_ident : list Z; hd_interp : list Z; hd_keys : list Z }.
Definition header_ok (h : header) : Prop :=
  List.length (hd_label h) = 24%nat /\ List.length (hd_seed h) = 8%nat /\ List.length (hd_ident h) = 48%nat /\
  List.length (hd_interp h) = 1360%nat /\ List.length (hd_keys h) = 1440%nat /\
  bytes_ok (hd_label h) /\ bytes_ok (hd_seed h) /\ bytes_ok (hd_ident h) /\ bytes_ok (hd_interp h) /\ bytes_ok (hd_keys h) /\
  (* a known satellite *)
  (nth 0 (hd_ident h) 0 = 212 \/ nth 0 (hd_ident h) 0 = 0 /\ nth 1 (hd_ident h) 0 < 4).
(** The format announced by the label: the letter of the format, then the
    channels present: infrared, visible, water vapour, reduced visible. *)
Definition letter (v : Z) : option string :=
  if v =? 0 then Some "A" else if v =? 255 then Some "B" else if v =? 15 then Some "X" else None.
Definition code_of (lab : list Z) : option string :=
  let at_ i := nth i lab 0 in
  match letter (at_ 12%nat) with
  | None => None
  | Some a =>
      let visible := negb (at_ 13%nat =? 0) || negb (at_ 14%nat =? 0) in
      let reduced := (at_ 13%nat =? 255) || (at_ 14%nat =? 255) in
      Some (append a (append (if at_ 15%nat =? 0 then "" else "I") (append (if visible then "V" else "")
              (if negb (at_ 16%nat =? 0) then "W" else if reduced then "H" else ""))))
  end.

(** ** The data lines of each format: how many images, of which bands; and to
    which image, line and part data line [j] belongs. *)
Inductive order := Turns (k : nat) | VisHalves | IrVisHalves.
Definition format_spec (f : string) : option (list (hformat * hband) * nat * order) :=
  if (f =? "AV")%string then Some ([(A_FORMAT, VIS_BAND)], Z.to_nat 10000, VisHalves)
  else if (f =? "AVH")%string then Some ([(A_FORMAT, VH_BAND)], Z.to_nat 2500, Turns 1)
  else if (f =? "AW")%string then Some ([(A_FORMAT, WV_BAND)], Z.to_nat 2500, Turns 1)
  else if (f =? "AIW")%string then Some ([(A_FORMAT, IR_BAND); (A_FORMAT, WV_BAND)], Z.to_nat 5000, Turns 2)
  else if (f =? "AIVH")%string then Some ([(A_FORMAT, IR_BAND); (A_FORMAT, VH_BAND)], Z.to_nat 5000, Turns 2)
  else if (f =? "BW")%string then Some ([(B_FORMAT, WV_BAND)], Z.to_nat 625, Turns 1)
  else if (f =? "BIV")%string then Some ([(B_FORMAT, IR_BAND); (B_FORMAT, VIS_BAND)], Z.to_nat 3125, IrVisHalves)
  else if (f =? "BIVH")%string then Some ([(B_FORMAT, IR_BAND); (B_FORMAT, VIS_BAND)], Z.to_nat 3125, IrVisHalves)
  else if (f =? "BIW")%string then Some ([(B_FORMAT, IR_BAND); (B_FORMAT, WV_BAND)], Z.to_nat 1250, Turns 2)
  else if (f =? "XI")%string then Some ([(X_FORMAT, IR_BAND)], Z.to_nat 1250, Turns 1)
  else if (f =? "XW")%string then Some ([(X_FORMAT, WV_BAND)], Z.to_nat 1250, Turns 1)
  else if (f =? "XVH")%string then Some ([(X_FORMAT, VH_BAND)], Z.to_nat 1250, Turns 1)
  else None.
Definition is_a (f : string) : bool := match f with String "A" _ => true | _ => false end.
Definition frame_id (f : string) : Z := if is_a f then 112 else 48.
Definition line_size (f : string) : nat := if is_a f then 2500%nat else 1250%nat.

(** ** Data lines: some bytes [lead], the samples, padding. *)
Record dline := mk_dline { dl_lead : list Z; dl_data : list Z; dl_pad : list Z }.
Definition dline_ok (f : string) (tecnavia : bool) (d : dline) : Prop :=
  List.length (dl_data d) = line_size f /\
  List.length (dl_lead d) = (if tecnavia then (if is_a f then 384 else 192) else (if is_a f then 64 else 32))%nat /\
  List.length (dl_pad d) = (if tecnavia then (if is_a f then 184 else 90) else (if is_a f then 316 else 158))%nat.
Definition dline_bytes (f : string) (tecnavia : bool) (d : dline) : list Z :=
  let p := dl_lead d ++ dl_data d ++ dl_pad d in
  if tecnavia then [0x05; 0x0C; 0xDF; frame_id f] ++ p
  else framed (frame_id f) (if is_a f then 8 else 4)%nat p.

(** ** Files. TECNAVIA files have a block of 512 bytes before the header, which is
    followed by the keys of A format files, all without frames. *)
Definition head_bytes (f : string) (tecnavia : bool) (pre : list Z) (h : header) : list Z :=
  let p := hd_label h ++ hd_seed h ++ hd_ident h ++ hd_interp h in
  if tecnavia then
    pre ++ [0x05; 0x0C; 0xDF; frame_id f] ++ p ++ firstn 92 (hd_keys h) ++
    (if is_a f then skipn 92 (hd_keys h) ++ repeat 0 188 else [])
  else framed (frame_id f) 4 p ++ (if is_a f then framed (frame_id f) 4 (hd_keys h) else []).
Definition file_bytes (f : string) (tecnavia : bool) (pre : list Z) (h : header) (ls : list dline) (tail : list Z) : list Z :=
  head_bytes f tecnavia pre h ++ List.concat (map (dline_bytes f tecnavia) ls) ++ tail.

(** ** Where the samples of an image come from: pixel [p] of line [l] of image [k]
    is a sample of a data line. Half lines follow one another; [half] is half of
    the pixels of a line. *)
Definition source (o : order) (half : Z) (k l : nat) (p : Z) : nat * Z :=
  match o with
  | Turns m => ((l * m + k)%nat, p)
  | VisHalves => if p <? half then ((2 * l)%nat, p) else ((2 * l + 1)%nat, p - half)
  | IrVisHalves =>
      match k with
      | O => ((5 * l)%nat, p)
      | _ => let first := (5 * (l / 2) + 1 + 2 * (l mod 2))%nat in
             if p <? half then (first, p) else ((first + 1)%nat, p - half)
      end
  end.
Definition sample (ds : list dline) (s : nat * Z) : Z := nth (Z.to_nat (snd s)) (dl_data (nth (fst s) ds (mk_dline [] [] []))) 0.
(** Images whose lines come in halves. *)
Definition in_halves (o : order) (k : nat) : bool := match o, k with VisHalves, _ => true | IrVisHalves, S _ => true | _, _ => false end.
