(** tools/thornsds_db1/db1_to_image.cpp: a picture of a channel of a ThornSDS DB1
    directory.

    Not modelled: the usage message, -V, the errors of the disk. *)
From Coq Require Import Reals.
From Verif Require Import Base MachineModel IniModel ScanModel GeoModel PixModel GribModel NcModel NativeImageModel Db1Model.
Open Scope string_scope.
Open Scope list_scope.
Open Scope Z_scope.

Section Db1Image.
Variable flt : Type.
Variable zero : flt.
Variable atof : str -> flt.
Variable h : host.
(** ImageMagick, as in NativeImageModel; composite(overlay, 0, 0, PlusCompositeOp). *)
Variable normalize : list Z -> list Z.
Variable scale : pic -> Z -> Z -> pic.
Variable times : str -> Z -> Z.
Variable plus : pic -> pic -> pic.

(** db1_to_image.cpp:84-92 *)
Definition image_name (sat name start format : str) : str := map tidy (firstn 4095 (sat ++ [95] ++ name ++ [95] ++ start ++ [46] ++ format)).
(** db1_to_image.cpp:36-117: None is the exit with an error; [pictures] is what
    Magick::Image::read finds in the current directory, an exception when there is
    nothing. A size that is not positive is an exception too. [overlay] is the fifth
    argument. *)
Definition db1_to_image (fs : fsys) (pictures : str -> option pic) (dir ch format factor : str) (overlay : option str) : outcome (option (str * pic)) :=
  let! s := open flt fs (fresh flt) dir in
  let! (there, s) := has_channel flt fs s ch in
  if negb there then Ok None
  else
    let! s := set_channel flt zero atof fs s ch in
    if negb (is_data_ok flt s) then Ok None
    else
      let! sat := get_INFO_satellite_name flt s in let! sat := text_of sat in
      let! name := get_channel_INFO_name flt s in let! name := text_of name in
      let! start := get_INFO_schedule_start flt s in let! start := text_of start in
      let outname := image_name sat name start format in
      let! wd := get_INFO_image_pixels flt s in
      let! hg := get_INFO_image_lines flt s in
      if (wd <=? 0) || (hg <=? 0) then Terminate
      else
        match get_RAW_data flt s with
        | None => UB
        | Some raw =>
            if Z.of_nat (List.length raw) <? 2 * (hg * wd) then UB
            else
              let image := normalized normalize (mk_pic wd hg (shorts h (Z.to_nat (hg * wd)) raw)) in
              let! ns := get_INFO_schedule_northsouth flt s in
              let image := if ns =? 0 then rotate180 image else image in
              let! image := match overlay with
                            | None => Ok image
                            | Some _ => match pictures (codes "SEVIRI_OVERLAY.pgm") with None => Terminate | Some o => Ok (plus image o) end
                            end in
              Ok (Some (outname, scale image (times factor wd) (times factor hg)))
        end.
End Db1Image.
