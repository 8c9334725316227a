(** tools/hrit/xritdump.cpp: the drawing of a product as text.

    The scanned product is that of DataAccessModel. Not modelled: the lines with
    dimensions and coverage, and that samples are 16 bits wide (the statements ask
    for it). *)
From Verif Require Import Base IniModel DataAccessModel.
Open Scope string_scope.
Open Scope list_scope.
Open Scope Z_scope.

(** Line 86 *)
Definition aachars : str := codes " .,-:=$#".
(** Lines 117 and 144: the differences of samples are ints, then size_t. A string of
    size n may be read at n, where it has a NUL. *)
Definition shade (mn mx s : Z) : outcome Z :=
  if mx - mn =? 0 then UB
  else
    let i := wrap64 (wrap64 (s - mn) * Z.of_nat (List.length aachars)) / wrap64 (mx - mn) in
    if i <? Z.of_nat (List.length aachars) then Ok (nth (Z.to_nat i) aachars 0)
    else if i =? Z.of_nat (List.length aachars) then Ok 0
    else UB.
(** A loop that makes a list. *)
Fixpoint collect {A} (f : nat -> outcome A) (l : list nat) : outcome (list A) :=
  match l with
  | [] => Ok []
  | i :: l' => let! x := f i in let! xs := collect f l' in Ok (x :: xs)
  end.
(** Lines 92-102 *)
Definition min_max (l : list Z) : Z * Z := fold_left (fun a x => (if x <? fst a then x else fst a, if snd a <? x then x else snd a)) l (65535, 0).
(** Lines 92-121, for a segment with these samples. *)
Definition draw_segment (g : geometry) (data : list Z) : outcome (Z * Z * list str) :=
  if Z.of_nat (List.length data) <? g_npixperseg g then UB
  else
    let '(mn, mx) := min_max (firstn (Z.to_nat (g_npixperseg g)) data) in
    let! rows := collect (fun y => collect (fun x =>
                   let px := Z.of_nat x * g_columns g / 50 in
                   let py := Z.of_nat y * g_seglines g / 3 in
                   match nth_error data (Z.to_nat (py * g_columns g + px)) with
                   | Some s => shade mn mx s
                   | None => UB
                   end) (seq 0 50)) (seq 0 3) in
    Ok (mn, mx, rows).
(** Lines 87-124: the drawings of the segments (None: missing), the smallest and the
    largest sample. *)
Fixpoint draw_segments (names : list fname) (g : geometry) (ld : loader) (st : da) (cmin cmax : Z) (l : list nat) : outcome (da * (Z * Z) * list (option (Z * Z * list str))) :=
  match l with
  | [] => Ok (st, (cmin, cmax), [])
  | i :: l' =>
      let '(st, d) := segment names ld st (Z.of_nat i) in
      let! d := d in
      match d with
      | None => let! (r, ds) := draw_segments names g ld st cmin cmax l' in Ok (r, None :: ds)
      | Some p =>
          match heap_get (da_heap st) p with
          | None => UB
          | Some data =>
              let! (mn, mx, rows) := draw_segment g data in
              let! (r, ds) := draw_segments names g ld st (if mn <? cmin then mn else cmin) (if cmax <? mx then mx else cmax) l' in
              Ok (r, Some (mn, mx, rows) :: ds)
          end
      end
  end.
(** Lines 127-148: a line of the image is read into a buffer of zeros, which is as
    wide as the image of a full disc. *)
Definition comp_size (g : geometry) : Z := if g_hrv g then 11136 else 3712.
Fixpoint draw_composite (names : list fname) (g : geometry) (w : windows) (ld : loader) (st : da) (cmin cmax : Z) (l : list nat) : outcome (list str) :=
  match l with
  | [] => Ok []
  | y :: l' =>
      let '(st, r) := line_read names g w ld st (Z.of_nat y * comp_size g / 24) in
      let! row := r in
      if comp_size g <? Z.of_nat (List.length row) then UB
      else
        let buf := row ++ repeat 0 (Z.to_nat (comp_size g) - List.length row) in
        let! t := collect (fun x => shade cmin cmax (nth (Z.to_nat (Z.of_nat x * comp_size g / 50)) buf 0)) (seq 0 50) in
        let! ts := draw_composite names g w ld st cmin cmax l' in
        Ok (t :: ts)
  end.
Definition do_dump (names : list fname) (g : geometry) (w : windows) (ld : loader) : outcome (list (option (Z * Z * list str)) * list str) :=
  let! (r, segs) := draw_segments names g ld da_init 65535 0 (seq 0 (List.length names)) in
  let '(st, (cmin, cmax)) := r in
  let! comp := draw_composite names g w ld st cmin cmax (seq 0 24) in
  Ok (segs, comp).
