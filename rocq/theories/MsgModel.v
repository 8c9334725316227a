(** msat/hrit/MSG_data.cpp, MSG_data_key.cpp, MSG_data_text.cpp, MSG_data_gts.cpp,
    MSG_data_SGS_header.cpp, MSG_data_image.cpp: the data field of a file.
    MSG_time_cds.cpp: the texts of times.

    The level 1.5 headers and trailers of MSG prologues and epilogues are those of
    LayoutModel; how their values print is a parameter. The decompression library
    is a parameter. Allocation never fails here. *)
From Coq Require Import String.
From Verif Require Import Base IniModel MachineModel HeaderModel LayoutModel ScanModel GribModel NcModel.
Import ListNotations.
Open Scope string_scope.
Open Scope list_scope.
Open Scope Z_scope.

(** ** Values *)
(** MSG_data_key.h:40-47 MSG_encryption_key *)
Record key := mk_key { k_station : Z; k_number : Z; k_public : list Z; k_crc : Z }.
(** MSG_data_image.h:52-71. The block [data] points to: 16 bit samples, or the
    characters that line 109 of MSG_data.cpp casts to samples. *)
Inductive block := Samples (l : list Z) | Chars (l : list Z).
Record image := mk_image { im_len : Z; im_data : block }.
(** MSG_data_SGS_header.h *)
Record sgs := mk_sgs {
  s_time : cds_short; s_quality : Z; s_completeness : Z; s_timeliness : Z; s_instance : Z;
  s_base : list Z; s_product : list Z; s_length : Z; s_payload : list Z }.
(** MSG_data.h: the type code and the pointers. *)
Record mdata := mk_mdata {
  m_type : Z; m_image : option image; m_gts : option (list Z); m_text : option (list Z);
  m_key : option (list key); m_prologue : option (list (path * list Z));
  m_epilogue : option (list (path * list Z)); m_sgs : option sgs }.
(** MSG_data.cpp:55-65 (the type code is not set: 0 here). *)
Definition new_mdata : mdata := mk_mdata 0 None None None None None None None.
(** A file written, and its content. *)
Definition written : Type := str * list Z.

(** ** Parts *)
(** MSG_data_key.cpp:49-69. [nkeys] is an int_4. *)
Fixpoint read_keys (h : host) (n : nat) (b : list Z) : outcome (list key) :=
  match n with
  | O => Ok []
  | S n' =>
      let! station := rd_ui h b 0 2 in
      let! number := rd1 b 1 in
      let! public := bytes_at b 2 192 in
      let! crc := rd_ui h b 195 2 in
      let! l := read_keys h n' (skipn 197 b) in
      Ok (mk_key station number public crc :: l)
  end.
Definition read_key_message (h : host) (b : list Z) : outcome (list key) :=
  let n := to_signed 32 (Z.of_nat (List.length b) / 197 mod 2 ^ 32) in
  if (65536 <? n) || (n <=? 0) then Terminate else read_keys h (Z.to_nat n) b.
(** MSG_data_text.cpp:49-62 *)
Definition read_text (b : list Z) : outcome (list Z) :=
  if Z.of_nat (List.length b) =? 0 then Terminate else Ok b.
(** MSG_data_gts.cpp:50-62 *)
Definition read_gts (b : list Z) : outcome (list Z) :=
  let msize := Z.of_nat (List.length b) in
  if (msize =? 0) || (15000 * 65535 <? msize) then Terminate else Ok b.
(** MSG_data_SGS_header.cpp:44-65, 105-118, 158-172. [datlen] is computed in 32
    bits. *)
Definition read_sgs (h : host) (b : list Z) : outcome sgs :=
  let! t := read_cds_short h b 4 in
  let! q := rd1 b 10 in
  let! c := rd1 b 11 in
  let! tl := rd1 b 12 in
  let! i := rd1 b 13 in
  let! ba := bytes_at b 14 16 in
  let! pa := bytes_at b 30 16 in
  let p := skipn 46 b in
  let! len := rd_ui h p 4 4 in
  let datlen := (len - 8) mod 2 ^ 32 in
  let! d := (if Z.of_nat (List.length p) <? 8 + datlen then UB else bytes_at p 8 (Z.to_nat datlen)) in
  Ok (mk_sgs t q c tl i ba pa len d).
(** MSG_data_image.cpp:42-78. [decoder format bytes bpp nx ny] is the image the
    library makes. *)
Definition decoding : Type := Z -> list Z -> Z -> Z -> Z -> outcome (list Z).
Definition decode (dec : decoding) (format : Z) (b : list Z) (bpp nx ny : Z) : outcome image :=
  if (format =? 1) || (format =? 3) || (format =? 2) then
    let! px := dec format b bpp nx ny in
    let decnum := nx * ny in
    if 2 ^ 31 <=? decnum then UB
    else if Z.of_nat (List.length px) <? decnum then UB
    else Ok (mk_image decnum (Samples (firstn (Z.to_nat decnum) px)))
  else Terminate.

(** std::string::find *)
Fixpoint has_prefix (p s : str) : bool :=
  match p, s with
  | [], _ => true
  | c :: p', d :: s' => (c =? d) && has_prefix p' s'
  | _ :: _, [] => false
  end.
Fixpoint find (p s : str) : bool :=
  has_prefix p s || match s with [] => false | _ :: s' => find p s' end.

(** ** MSG_data.cpp:83-291 MSG_data::read_from. [b] is what is left of the file
    after the header; [can_open] says which files can be made. *)
Definition data_field (hd : header) (b : list Z) : outcome (list Z) :=
  let dsize := h_dfl hd / 8 in
  if Z.of_nat (List.length b) <? dsize then Terminate else Ok (firstn (Z.to_nat dsize) b).
Definition deref {A} (o : option A) : outcome A := match o with Some a => Ok a | None => UB end.
Definition foreign (id : str) : bool :=
  find (codes "GOES") id || find (codes "GMS") id || find (codes "MTSAT") id || find (codes "NOAA") id || find (codes "METOP") id.

Definition with_type (m : mdata) t := mk_mdata t (m_image m) (m_gts m) (m_text m) (m_key m) (m_prologue m) (m_epilogue m) (m_sgs m).
Definition set_image (m : mdata) v := mk_mdata (m_type m) (Some v) (m_gts m) (m_text m) (m_key m) (m_prologue m) (m_epilogue m) (m_sgs m).
Definition set_gts (m : mdata) v := mk_mdata (m_type m) (m_image m) (Some v) (m_text m) (m_key m) (m_prologue m) (m_epilogue m) (m_sgs m).
Definition set_text (m : mdata) v := mk_mdata (m_type m) (m_image m) (m_gts m) (Some v) (m_key m) (m_prologue m) (m_epilogue m) (m_sgs m).
Definition set_key (m : mdata) v := mk_mdata (m_type m) (m_image m) (m_gts m) (m_text m) (Some v) (m_prologue m) (m_epilogue m) (m_sgs m).
Definition set_prologue (m : mdata) v := mk_mdata (m_type m) (m_image m) (m_gts m) (m_text m) (m_key m) (Some v) (m_epilogue m) (m_sgs m).
Definition set_epilogue (m : mdata) v := mk_mdata (m_type m) (m_image m) (m_gts m) (m_text m) (m_key m) (m_prologue m) (Some v) (m_sgs m).
Definition set_sgs (m : mdata) v := mk_mdata (m_type m) (m_image m) (m_gts m) (m_text m) (m_key m) (m_prologue m) (m_epilogue m) (Some v).

Definition read_from (h : host) (dec : decoding) (can_open : str -> bool) (m : mdata) (hd : header) (b : list Z) : outcome (mdata * list written) :=
  let m := with_type m (h_typecode hd) in
  let t := h_typecode hd in
  if t =? 0 then
    let! d := data_field hd b in
    let! is := deref (h_image hd) in
    if is_comp is =? 0 then Ok (set_image m (mk_image (Z.of_nat (List.length d)) (Chars d)), [])
    else
      let! si := deref (h_seg hd) in
      let! im := decode dec (si_format si) d (is_bpp is) (is_cols is) (is_lines is) in
      Ok (set_image m im, [])
  else if t =? 1 then
    let! d := data_field hd b in
    let! g := read_gts d in
    let! an := deref (h_annot hd) in
    let name := an_text an ++ codes ".bin" in
    Ok (set_gts m g, if can_open name then [(name, g)] else [])
  else if t =? 2 then
    let! d := data_field hd b in
    let! x := read_text d in
    Ok (set_text m x, [])
  else if t =? 3 then
    let! d := data_field hd b in
    let! ks := read_key_message h d in
    Ok (set_key m ks, [])
  else if t =? 128 then
    let! d := data_field hd b in
    let! an := deref (h_annot hd) in
    if find (codes "MSG") (an_pid1 an) then
      let! p := fetch d (fst (prologue_read [] 0)) in
      Ok (set_prologue m p, [])
    else if foreign (an_pid1 an) then
      let! s := read_sgs h d in
      Ok (set_sgs m s, [])
    else Ok (m, [])
  else if t =? 129 then
    let! d := data_field hd b in
    let! an := deref (h_annot hd) in
    if find (codes "MSG") (an_pid1 an) then
      let! p := fetch d (fst (epilogue_read [] 0)) in
      Ok (set_epilogue m p, [])
    else Ok (m, [])
  else if t =? 130 then Ok (m, [])
  else if t =? 144 then
    let! d := data_field hd b in
    let! an := deref (h_annot hd) in
    let name := an_text an ++ codes ".bin" in
    if can_open name then Ok (m, [(name, d)]) else Terminate
  else Terminate.

(** ** Printing: MSG_data.cpp:294-333 and the operators of the parts *)
(** A sample of an image: two characters when it was not decoded. *)
Definition sample (h : host) (im : image) (i : nat) : outcome Z :=
  match im_data im with
  | Samples l => rd1 l i
  | Chars l => let! bs := bytes_at l (2 * i) 2 in Ok (load_u h bs)
  end.
(** MSG_data_image.cpp:80-85; [len] is cast to int. *)
Fixpoint print_samples (h : host) (im : image) (i n : nat) : outcome str :=
  match n with
  | O => Ok []
  | S n' =>
      let! v := sample h im i in
      let! r := print_samples h im (S i) n' in
      Ok (print v ++ [10] ++ r)
  end.
Definition print_image (h : host) (im : image) : outcome str :=
  print_samples h im 0 (Z.to_nat (to_signed 32 (im_len im mod 2 ^ 32))).
(** A character array printed as a text: up to its first NUL, undefined without. *)
Definition c_string (l : list Z) : outcome str := match upto_nul l with Some s => Ok s | None => UB end.
Definition bar : str := repeat 45 54 ++ [10].
Definition title (s : string) : str := bar ++ codes s ++ [10] ++ bar.
Definition stars : str := repeat 42 16 ++ [10].
(** MSG_data_key.cpp:71-96 *)
Definition print_key (k : key) : outcome str :=
  let! p := c_string (k_public k) in
  Ok (codes "User Station Number : " ++ print (k_station k) ++ [10] ++
      codes "Key Number          : " ++ print (k_number k) ++ [10] ++
      codes "Public Key          : " ++ p ++ [10] ++
      codes "Public Key CRC      : " ++ print (k_crc k) ++ [10]).
Fixpoint print_keys (l : list key) : outcome str :=
  match l with
  | [] => Ok stars
  | k :: l' =>
      let! s := print_key k in
      let! r := print_keys l' in
      Ok (stars ++ s ++ r)
  end.
Definition print_data (h : host) (show : list (path * list Z) -> outcome str) (m : mdata) : outcome str :=
  let! s := (if m_type m =? 0 then let! im := deref (m_image m) in print_image h im
             else if m_type m =? 1 then let! _ := deref (m_gts m) in Ok (title "-                 MSG GTS MESSAGE                    -" ++ stars ++ stars)
             else if m_type m =? 2 then
               let! x := deref (m_text m) in
               let! s := c_string x in
               Ok (title "-           MSG ALPHANUMERIC TEXT FILE               -" ++ stars ++ s ++ [10] ++ stars)
             else if m_type m =? 3 then
               let! ks := deref (m_key m) in
               let! s := print_keys ks in
               Ok (title "-            MSG ENCRYPTION KEY MESSAGE              -" ++ s)
             else if m_type m =? 128 then let! p := deref (m_prologue m) in show p
             else if m_type m =? 129 then let! p := deref (m_epilogue m) in show p
             else if m_type m =? 130 then Ok (codes "DCP message." ++ [10])
             else if m_type m =? 144 then Ok (codes "Binary encoded message." ++ [10])
             else Ok (codes "Unknown MSG file type " ++ print (m_type m) ++ [10])) in
  Ok (title "-                  MSG MESSAGE DATA                  -" ++ s).

(** ** Construction and destruction: MSG_data.cpp:55-81 *)
(** A pointer member: null, an object of its own, or not set. *)
Inductive pointer := Null | Owned | Unset.
Definition pointers : Type := list pointer.
(** The members in the order of the destructor: key, GTS, text, prologue, epilogue,
    image, foreign prologue. *)
Definition set_pointer (i : nat) (p : pointers) : pointers := firstn i p ++ Owned :: skipn (S i) p.
Definition default_pointers : pointers := repeat Null 7.
Definition stream_pointers : pointers := repeat Unset 7.
(** What read_from leaves in them. *)
Definition pointers_of (p : pointers) (m : mdata) : pointers :=
  map (fun '(q, o) => if o : bool then Owned else q)
      (combine p [match m_key m with Some _ => true | None => false end; match m_gts m with Some _ => true | None => false end;
                  match m_text m with Some _ => true | None => false end; match m_prologue m with Some _ => true | None => false end;
                  match m_epilogue m with Some _ => true | None => false end; match m_image m with Some _ => true | None => false end;
                  match m_sgs m with Some _ => true | None => false end]).
(** The destructor: the number of objects it deletes. *)
Fixpoint destroy (p : pointers) : outcome nat :=
  match p with
  | [] => Ok O
  | Unset :: _ => UB
  | Null :: p' => destroy p'
  | Owned :: p' => let! n := destroy p' in Ok (S n)
  end.
(** An object made with MSG_data( ) or MSG_data(in, header), and destroyed. *)
Definition life (h : host) (dec : decoding) (can_open : str -> bool) (p : pointers) (hd : header) (b : list Z) : outcome nat :=
  let! r := read_from h dec can_open new_mdata hd b in destroy (pointers_of p (fst r)).

(** ** Time texts *)
(** gmtime(3): the date [n] days after 1970-01-01, by the Gregorian rules: the year
    from its mean length, then one year back or forth, then the month. *)
Fixpoint month_at (fuel : nat) (y m n : Z) : Z :=
  match fuel with
  | O => m
  | S fuel' => if days_before y (m + 1) <=? n then month_at fuel' y (m + 1) n else m
  end.
Definition year_at (n : Z) : Z :=
  let y := (400 * n) / 146097 + 1970 in
  if n <? days_before y 1 then y - 1 else if days_before (y + 1) 1 <=? n then y + 1 else y.
Definition civil (n : Z) : Z * Z * Z :=
  let y := year_at n in
  let m := month_at 11 y 1 n in
  (y, m, n - days_before y m + 1).
(** strftime "%Y-%m-%d %H:%M:%S" of gmtime. *)
Definition date_text (y m d h mi s : Z) : str :=
  print y ++ [45] ++ zpad 2 m ++ [45] ++ zpad 2 d ++ [32] ++ zpad 2 h ++ [58] ++ zpad 2 mi ++ [58] ++ zpad 2 s.
Definition gm_text (t : Z) : str :=
  let '(y, m, d) := civil (t / 86400) in
  let s := t mod 86400 in date_text y m d (s / 3600) (s / 60 mod 60) (s mod 60).
(** MSG_time_cds.cpp:101-110 *)
Definition timestring (t : cds_short) : str := gm_text (cds_unixtime t) ++ codes " +" ++ zpad 3 (cds_usecs t) ++ codes " msecs".
(** std::string::insert: throws when the position is past the end. *)
Definition insert (s : str) (pos : nat) (x : str) : outcome str :=
  if (pos <=? List.length s)%nat then Ok (firstn pos s ++ x ++ skipn pos s) else Throw.
(** MSG_time_cds.cpp:289-298, 226-235 *)
Definition timestring_us (t : cds_short) (us : Z) : outcome str := insert (timestring t) 24 ([46] ++ zpad 3 us).
Definition timestring_expanded (t : cds_short) (us ns : Z) : outcome str := insert (timestring t) 24 ([46] ++ zpad 3 us ++ zpad 3 ns).
(** MSG_time_cds.cpp:326-376 MSG_time_generalized. A scan that fails leaves the
    rest of the fields as they were (0 in a new object); here only all or none. *)
Record tm := mk_tm { tm_year : Z; tm_mon : Z; tm_mday : Z; tm_hour : Z; tm_min : Z; tm_sec : Z }.
Definition generalized_format : list (nat * option Z) := [(4%nat, None); (2%nat, None); (2%nat, None); (2%nat, None); (2%nat, None); (2%nat, None)].
Definition read_generalized (b : list Z) : tm :=
  match scan_fields generalized_format b with
  | Some [y; mo; d; h; mi; s] => mk_tm (y - 1900) (mo - 1) d h mi s
  | _ => mk_tm (0 - 1900) (0 - 1) 0 0 0 0
  end.
Definition generalized_text (t : tm) : str := date_text (tm_year t + 1900) (tm_mon t + 1) (tm_mday t) (tm_hour t) (tm_min t) (tm_sec t).
(** mktime(3) of a local time [zone] seconds east of Greenwich. *)
Definition generalized_unixtime (zone : Z) (t : tm) : Z :=
  (days_before (tm_year t + 1900) (tm_mon t + 1) + (tm_mday t - 1)) * 86400 + tm_hour t * 3600 + tm_min t * 60 + tm_sec t - zone.
