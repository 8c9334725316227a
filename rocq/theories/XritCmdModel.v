(** tools/hrit/XRIT2Image.cpp and tools/hrit/XRIT2NetCDF.cpp: options, the files they read
    and the picture that the first writes. The options are given in the order in which
    getopt_long finds them; [XWrong] is one it refuses. What is done with the segments
    is in ConvModel.v.

    Not modelled: messages, the errors of the disk, a directory with wildcards. *)
From Verif Require Import Base IniModel MachineModel HeaderModel GeoModel MsgModel FileAccessModel NativeImageModel ConvModel.
From Verif Require MsatCmdModel.
From Coq Require Import String QArith.
Open Scope string_scope.
Open Scope list_scope.
Open Scope Z_scope.

(** XRIT2Image.cpp:70-83, XRIT2NetCDF.cpp:79-89. The first tool has no -a, the second no
    -f, -g, -o, -n: getopt_long refuses them. *)
Inductive xopt := XDir (s : str) | XRes (s : str) | XId1 (s : str) | XId2 (s : str) | XTime (s : str)
  | XFormat (s : str) | XScale (s : str) | XOverlay (s : str) | XNormalize | XArea (s : str) | XVersion | XHelp | XWrong.
(** XRIT2Image.cpp:52-64, XRIT2NetCDF.cpp:57-58 and 66-71. [x_area]: is_subarea; the four
    numbers are AreaLinStart, AreaNlin, AreaPixStart and AreaNpix. *)
Record xcmd := mk_x { x_dir : option str; x_res : option str; x_id1 : option str; x_id2 : option str; x_time : option str;
  x_format : option str; x_scale : Q; x_overlay : option str; x_normalize : bool; x_area : bool; x_win : Z * Z * Z * Z }.
Definition x0 : xcmd := mk_x None None None None None None 1 None false false (1, 0, 1, 0).

(** sscanf with "%d,%d,%d,%d": what is not read keeps the value it had. *)
Definition scan4 (s : str) (w : Z * Z * Z * Z) : outcome (Z * Z * Z * Z) :=
  let '(l, nl, p, np) := w in
  let keep (o : option (Z * str)) v := match o with Some (x, _) => x | None => v end in
  let! a := MsatCmdModel.scan_d s in
  let! b := MsatCmdModel.scan_more a in
  let! c := MsatCmdModel.scan_more b in
  let! d := MsatCmdModel.scan_more c in
  Ok (keep a l, keep b nl, keep c p, keep d np).

Section Cmd.
(** strtod(text), stored in a float. *)
Variable strtof : str -> Q.
(** XRIT2Image.cpp:90-133, XRIT2NetCDF.cpp:96-136: one option; [inr] is the exit status. *)
Definition xone (m : xcmd) (a : xopt) : outcome (xcmd + Z) :=
  let '(mk_x di re i1 i2 ti fo sc ov no ar wi) := m in
  match a with
  | XDir s => Ok (inl (mk_x (Some s) re i1 i2 ti fo sc ov no ar wi))
  | XRes s => Ok (inl (mk_x di (Some s) i1 i2 ti fo sc ov no ar wi))
  | XId1 s => Ok (inl (mk_x di re (Some s) i2 ti fo sc ov no ar wi))
  | XId2 s => Ok (inl (mk_x di re i1 (Some s) ti fo sc ov no ar wi))
  | XTime s => Ok (inl (mk_x di re i1 i2 (Some s) fo sc ov no ar wi))
  | XFormat s => Ok (inl (mk_x di re i1 i2 ti (Some s) sc ov no ar wi))
  | XScale s => Ok (inl (mk_x di re i1 i2 ti fo (strtof s) ov no ar wi))
  | XOverlay s => Ok (inl (mk_x di re i1 i2 ti fo sc (Some s) no ar wi))
  | XNormalize => Ok (inl (mk_x di re i1 i2 ti fo sc ov true ar wi))
  | XArea s =>
      let! w := scan4 s wi in
      let '(l, nl, p, np) := w in
      if negb (int_fits (l - 1) && int_fits (p - 1)) then UB
      else Ok (inl (mk_x di re i1 i2 ti fo sc ov no true (l - 1, nl, p - 1, np)))
  | XVersion | XHelp | XWrong => Ok (inr 0)
  end.
Fixpoint xall (m : xcmd) (l : list xopt) : outcome (xcmd + Z) :=
  match l with
  | [] => Ok (inl m)
  | a :: l' => let! r := xone m a in match r with inl m' => xall m' l' | inr e => Ok (inr e) end
  end.
(** XRIT2Image.cpp:136-145, XRIT2NetCDF.cpp:138-152: the product, with ".", when no
    directory is given. *)
Definition xproduct (m : xcmd) : option fileaccess :=
  match x_res m, x_id1 m, x_id2 m, x_time m with
  | Some r, Some a, Some b, Some t => Some (mk_fa (match x_dir m with Some d => d | None => [46] end) r a b t)
  | _, _, _, _ => None
  end.
Definition xparse (l : list xopt) : outcome (xcmd * fileaccess + Z) :=
  let! r := xall x0 l in
  Ok (match r with
      | inl m => match xproduct m with Some fa => inl (m, fa) | None => inr 1 end
      | inr e => inr e
      end).
(** XRIT2Image.cpp:143-152, XRIT2NetCDF.cpp:190-199. underscoreit of the tools, lines
    274-288 and 285-299, copies at most final_len characters over underscores, as that of
    fileaccess.cpp does. *)
Definition xpattern (fa : fileaccess) : list Z :=
  fa_dir fa ++ [47] ++ fa_res fa ++ [45] ++ q 3 ++ [45] ++ q 6 ++ [45]
  ++ underscoreit (fa_pid1 fa) 12 ++ [45] ++ underscoreit (fa_pid2 fa) 9 ++ [45]
  ++ [48] ++ q 5 ++ [95; 95; 95] ++ [45] ++ fa_timing fa ++ [45; 63; 95].

Section Files.
Variable h : host.
(** The names in a directory; what read_from of header and data gives for a path, None
    when it cannot be opened. *)
Variable ls : list Z -> list (list Z).
Variable load : str -> option (header * mdata).
(** XRIT2Image.cpp:171-185, XRIT2NetCDF.cpp:215-228 *)
Fixpoint load_all (l : list str) : option (list (header * mdata)) :=
  match l with
  | [] => Some []
  | p :: l' => match load p with
               | None => None
               | Some f => match load_all l' with Some r => Some (f :: r) | None => None end
               end
  end.

(** ** XRIT2Image *)
Variable normalize : list Z -> list Z.
Variable scale : pic -> Z -> Z -> pic.
(** (int) ((float) size * geometry) *)
Variable times : Q -> Z -> Z.
(** Magick::Image::read: None is an exception, which nothing catches. composite() with
    PlusCompositeOp at 0, 0. *)
Variable read_picture : str -> option pic.
Variable plus : pic -> pic -> pic.
(** XRIT2Image.cpp:204-210 *)
Definition image_name (m : xcmd) (fa : fileaccess) : str :=
  fa_res fa ++ codes "-" ++ fa_pid1 fa ++ codes "-" ++ fa_pid2 fa ++ codes "-" ++ fa_timing fa
  ++ codes "." ++ match x_format m with Some f => f | None => codes "jpg" end.
(** XRIT2Image.cpp:228-247; [ch] is spectral_channel_id. *)
Definition image_tail (m : xcmd) (ch npix nlin : Z) (px : list Z) : outcome pic :=
  if (npix <=? 0) || (nlin <=? 0) then Terminate
  else
    let image := mk_pic npix nlin px in
    let image := if x_normalize m then normalized normalize image else image in
    let image := rotate180 image in
    let! image := match x_overlay m with
                  | Some f => if ch <? 12 then match read_picture f with Some o => Ok (plus image o) | None => Terminate end else Ok image
                  | None => Ok image
                  end in
    Ok (if Qlt_le_dec (x_scale m) 1 then scale image (times (x_scale m) npix) (times (x_scale m) nlin) else image).
(** XRIT2Image.cpp:50-258: exit status and the picture written under its name. *)
Definition image_main (l : list xopt) : outcome (Z * option (str * pic)) :=
  let! r := xparse l in
  match r with
  | inr e => Ok (e, None)
  | inl (m, fa) =>
      match glob ls (xpattern fa) with
      | [] => Ok (1, None)
      | paths =>
          match load_all paths with
          | None => Ok (1, None)
          | Some files =>
              let! a := assemble h files in
              match a, files with
              | Some (npix, nlin, px), (hd, _) :: _ =>
                  match h_seg hd with
                  | None => UB
                  | Some s => let! image := image_tail m (si_channel s) npix nlin px in Ok (0, Some (image_name m fa, image))
                  end
              | _, _ => Ok (0, None)
              end
          end
      end
  end.

(** ** XRIT2NetCDF *)
(** XRIT2NetCDF.cpp:64-228: what the rest of the tool works on, which is [product] of
    ConvModel.v: the prologue, the segments and the area; [inr] is the exit status. The
    starts of the area have been decremented, [product] decrements them. *)
Definition netcdf_input (l : list xopt) : outcome ((header * mdata) * list (header * mdata) * option (Z * Z * Z * Z) + Z) :=
  let! r := xparse l in
  Ok (match r with
      | inr e => inr e
      | inl (m, fa) =>
          match glob ls (aux_pattern PRO fa) with
          | [pro] =>
              match load pro with
              | None => inr 1
              | Some p =>
                  match glob ls (xpattern fa) with
                  | [] => inr 1
                  | paths =>
                      match load_all paths with
                      | None => inr 1
                      | Some files =>
                          inl (p, files, if x_area m then let '(l, nl, p, np) := x_win m in Some (l + 1, nl, p + 1, np) else None)
                      end
                  end
              end
          | _ => inr 1
          end
      end).
End Files.
End Cmd.
