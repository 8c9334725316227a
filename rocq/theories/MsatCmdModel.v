(** tools/msat.cpp: the command line, --around and --copymd. The options are given in the
    order in which getopt_long finds them; [Wrong] is one it refuses, or -R, which it accepts
    and nothing handles. Doubles are exact rationals. *)
From Verif Require Import Base IniModel GeoModel FactsModel ToolModel.
From Coq Require Import QArith.
Open Scope list_scope.
Open Scope Z_scope.

Inductive action := VIEW | VIEWMORE | CONVERT | JPG | PNG | DISPLAY.
Inductive arg := Help | Version | Quiet | View | ViewMore | Conv (s : str) | CopyMd (s : str) | AreaPx (s : str) | AreaGeo (s : str)
  | Around (s : str) | Resize (s : str) | Band (s : str) | Force | StretchTo (s : str) | Jpg | Png | Display | Wrong.
Definition quad : Type := Q * Q * Q * Q.
(** Msat, msat.cpp:292-326, and has_size and is_image of parse_cmdline; [c_size] are scaleX and
    scaleY when translate points to them. *)
Record cmd := mk_cmd { c_action : action; c_quiet : bool; c_driver : str; c_template : str; c_win : rect; c_proj : quad;
  c_size : option (str * str); c_geo : quad; c_bands : list str; c_force : bool; c_stretch : option (Q * Q); c_has_size : bool; c_is_image : bool }.
Definition cmd0 : cmd := mk_cmd VIEW false [] [] no_rect (0, 0, 0, 0)%Q None (0, 0, 0, 0)%Q [] false None false false.

(** %d of sscanf: white space, a sign, digits; a value that is no int is undefined. *)
Definition scan_d (s : str) : outcome (option (Z * str)) :=
  let r := strskp s in
  let '(neg, r') := match r with c :: r' => if c =? 45 then (true, r') else if c =? 43 then (false, r') else (false, r) | [] => (false, []) end in
  match digit_run r' with
  | [] => Ok None
  | ds => let v := if neg : bool then - digits 0 ds else digits 0 ds in
          if int_fits v then Ok (Some (v, skipn (List.length ds) r')) else UB
  end.
Definition comma (s : str) : option str := match s with c :: s' => if c =? 44 then Some s' else None | [] => None end.
(** sscanf with "%d,%d,%d,%d": how many are read is only compared with 4. *)
Definition scan_more (x : option (Z * str)) : outcome (option (Z * str)) :=
  match x with Some (_, r) => match comma r with Some r' => scan_d r' | None => Ok None end | None => Ok None end.
Definition val (x : option (Z * str)) : Z := match x with Some (v, _) => v | None => 0 end.
(** --area, msat.cpp:424-435; what is read goes to anSrcWin[0], [2], [1], [3]. *)
Definition area (s : str) : outcome (option rect) :=
  let! a := scan_d s in let! b := scan_more a in let! c := scan_more b in let! d := scan_more c in
  Ok (match d with Some _ => Some (mk_rect (val a) (val c) (val b) (val d)) | None => None end).
Fixpoint split_at (c : Z) (s : str) : option (str * str) :=
  match s with
  | [] => None
  | x :: s' => if x =? c then Some ([], s') else match split_at c s' with Some (a, b) => Some (x :: a, b) | None => None end
  end.

Section Numbers.
(** %lf and strtod: the number a text starts with, and the rest. *)
Variable strtod : str -> option (Q * str).
Definition lf_more (x : option (Q * str)) : option (Q * str) := match x with Some (_, r) => match comma r with Some r' => strtod r' | None => None end | None => None end.
Definition lf (x : option (Q * str)) : Q := match x with Some (v, _) => v | None => 0%Q end.
Definition scan_lf4 (s : str) : option quad :=
  let a := strtod s in let b := lf_more a in let c := lf_more b in let d := lf_more c in
  match d with Some _ => Some (lf a, lf b, lf c, lf d) | None => None end.
(** parse_cmdline, msat.cpp:397-525: one option; [inr] is exit. *)
Definition one (m : cmd) (a : arg) : outcome (cmd + Z) :=
  let '(mk_cmd ac q dr te wi pr si ge ba fo st hs im) := m in
  match a with
  | Help | Version => Ok (inr 0)
  | Wrong => Ok (inr 1)
  | Quiet => Ok (inl (mk_cmd ac true dr te wi pr si ge ba fo st hs im))
  | View => Ok (inl (mk_cmd VIEW q dr te wi pr si ge ba fo st hs im))
  | ViewMore => Ok (inl (mk_cmd VIEWMORE q dr te wi pr si ge ba fo st hs im))
  | Conv s => Ok (inl (mk_cmd CONVERT q s te wi pr si ge ba fo st hs im))
  | CopyMd s => Ok (inl (mk_cmd ac q dr s wi pr si ge ba fo st hs im))
  | AreaPx s => let! w := area s in
      Ok (match w with Some w => inl (mk_cmd ac q dr te w pr si ge ba fo st true im) | None => inr 1 end)
  | AreaGeo s => Ok (match scan_lf4 s with Some g => inl (mk_cmd ac q dr te wi pr si g ba fo st true im) | None => inr 1 end)
  | Around s => Ok (match scan_lf4 s with
      | Some (lat, lon, h, w) => inl (mk_cmd ac q dr te wi (lon - w / 2, lat + h / 2, lon + w / 2, lat - h / 2)%Q si ge ba fo st true im)
      | None => inr 1 end)
  | Resize s => Ok (match split_at 44 s with Some p => inl (mk_cmd ac q dr te wi pr (Some p) ge ba fo st true im) | None => inr 1 end)
  | Band s => Ok (inl (mk_cmd ac q dr te wi pr si ge (ba ++ [s]) fo st hs im))
  | Force => Ok (inl (mk_cmd ac q dr te wi pr si ge ba true st hs im))
  | StretchTo s =>
      let v := match split_at 58 s with None => (0%Q, lf (strtod s)) | Some (x, y) => (lf (strtod x), lf (strtod y)) end in
      Ok (inl (mk_cmd ac q dr te wi pr si ge ba fo (Some v) hs im))
  | Jpg => Ok (inl (mk_cmd JPG q dr te wi pr si ge ba fo st hs true))
  | Png => Ok (inl (mk_cmd PNG q dr te wi pr si ge ba fo st hs true))
  | Display => Ok (inl (mk_cmd DISPLAY q dr te wi pr si ge ba fo st hs true))
  end.
Fixpoint all (m : cmd) (l : list arg) : outcome (cmd + Z) :=
  match l with
  | [] => Ok (inl m)
  | a :: l' => let! r := one m a in match r with inl m' => all m' l' | inr e => Ok (inr e) end
  end.
(** msat.cpp:366-545: the members and the size cap, or the exit status. *)
Definition parse_cmdline (l : list arg) (files : nat) : outcome ((cmd * Z) + Z) :=
  let! r := all cmd0 l in
  match r with
  | inr e => Ok (inr e)
  | inl m => if (files =? 0)%nat then Ok (inr 1) else Ok (inl (m, if c_is_image m && negb (c_has_size m) then 1280 else 0))
  end.
(** gdaltranslate.cpp:320-331: the last character of an empty text is not there. *)
Definition size_of (s : str) : outcome osz :=
  match rev s with
  | [] => UB
  | c :: _ => if c =? 37 then Ok (Percent (lf (strtod s))) else let! n := atoi s in Ok (Pixels n)
  end.
Definition out_size (m : cmd) : outcome (option (osz * osz)) :=
  match c_size m with None => Ok None | Some (x, y) => let! a := size_of x in let! b := size_of y in Ok (Some (a, b)) end.
(** What Msat::main starts from: [corners] are the pixels of the corners of --Area on a
    dataset. Sizes are read when they are used, which is for every dataset that is not
    refused before; here at once. *)
Definition start (corners : quad -> dset -> list (option (Z * Z))) (m : cmd) (cap : Z) : outcome (opts * trans) :=
  let! s := out_size m in
  Ok (mk_opts (c_bands m) (if proj_given (c_geo m) then Some (corners (c_geo m)) else None) cap cap, mk_trans [] true (c_win m) (c_proj m) s).
End Numbers.

(** ** --copymd *)
(** A description and metadata items. *)
Record labels := mk_labels { l_desc : str; l_items : list (str * str) }.
Record labelled := mk_labelled { l_own : labels; l_bands : list labels; l_pixels : list (list Z) }.
(** The loop of msat.cpp:680-690: GetRasterBand of a band that is not there is NULL. *)
Fixpoint copy_bands (from to : list labels) : list labels :=
  match from, to with
  | f :: from', _ :: to' => f :: copy_bands from' to'
  | _, _ => to
  end.
(** msat.cpp:671-691; [md] is what GDALOpen gives for the template. *)
Definition copy_md (template : str) (md : option labelled) (v : labelled) : outcome labelled :=
  match template with
  | [] => Ok v
  | _ => match md with
         | None => UB
         | Some t => Ok (mk_labelled (l_own t) (copy_bands (l_bands t) (l_bands v)) (l_pixels v))
         end
  end.
Fixpoint item (k : str) (l : list (str * str)) : option str := match l with [] => None | (a, b) :: l' => if str_eqb a k then Some b else item k l' end.
(** What output_file_name looks at, msat.cpp:217-282. *)
Definition file_of (v : labelled) : str :=
  let i := l_items (l_own v) in
  output_file_name (mk_metadata (item (codes "MSAT_SPACECRAFTID") i) (item (codes "MSAT_SPACECRAFT") i) (item (codes "MSAT_DATETIME") i))
    (match l_bands v with [b] => Some (mk_band_metadata (item (codes "MSAT_CHANNELID") (l_items b)) (item (codes "MSAT_CHANNEL") (l_items b))) | _ => None end).
