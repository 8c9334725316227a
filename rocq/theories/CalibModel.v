(** Counts to physical values: msat/hrit/MSG_data_RadiometricProc.cpp 576-685,
    gdal/xrit/rasterband.cpp 21-116, msat/openmtp/OpenMTP_image.cpp 59-104,
    msat/hri/HRI_image.cpp 329-543, the coefficients chosen by msat/hri/HRI.cpp
    120-380, and CalibratedRasterBand of msat/gdal/dataset.cpp.

    Simplified: finite arithmetic is exact (double and float do not round); the
    infinities and NaN of the floating point unit are kept, and a result that is
    zero may have either sign (the argument [neg] of the functions). *)
From Verif Require Import Base MachineModel HriModel OmtpModel.
From Coq Require Import Reals Lra.
From Verif Require HriImageModel.
Local Open Scope Z_scope.

(** ** Values of the floating point unit *)
Inductive xr := Fin (r : R) | Pinf | Ninf | Nan.
Definition xopp (a : xr) : xr := match a with Fin x => Fin (- x) | Pinf => Ninf | Ninf => Pinf | Nan => Nan end.
Definition xadd (a b : xr) : xr :=
  match a, b with
  | Nan, _ | _, Nan => Nan
  | Fin x, Fin y => Fin (x + y)
  | Pinf, Ninf | Ninf, Pinf => Nan
  | Pinf, _ | _, Pinf => Pinf
  | Ninf, _ | _, Ninf => Ninf
  end.
Definition xsub (a b : xr) : xr := xadd a (xopp b).
Definition sign_inf (negative : bool) : xr := if negative then Ninf else Pinf.
Definition is_neg (x : R) : bool := if Rlt_dec x 0 then true else false.
(** [neg] is the sign of a zero divisor. *)
Definition xdiv (neg : bool) (a b : xr) : xr :=
  match a, b with
  | Nan, _ | _, Nan => Nan
  | Fin x, Fin y =>
      if Req_EM_T y 0 then if Req_EM_T x 0 then Nan else sign_inf (xorb (is_neg x) neg) else Fin (x / y)
  | Fin _, _ => Fin 0
  | Pinf, Fin y => sign_inf (if Req_EM_T y 0 then neg else is_neg y)
  | Ninf, Fin y => sign_inf (negb (if Req_EM_T y 0 then neg else is_neg y))
  | _, _ => Nan
  end.
Definition xlog (a : xr) : xr :=
  match a with
  | Fin x => if Rlt_dec 0 x then Fin (ln x) else if Req_EM_T x 0 then Ninf else Nan
  | Pinf => Pinf
  | _ => Nan
  end.

(** ** MSG_data_RadiometricProc.cpp:576-625, get_calibration. *)
(** 587-601, the three tables, indexed by channel - 4. *)
Definition cold_ccw : list R := [2569094 / 1000; 1598566 / 1000; 1362142 / 1000; 1149083 / 1000; 1034345 / 1000; 930659 / 1000; 839661 / 1000; 752381 / 1000]%R.
Definition cold_A : list R := [9959 / 10000; 9963 / 10000; 9991 / 10000; 9996 / 10000; 9999 / 10000; 9983 / 10000; 9988 / 10000; 9981 / 10000]%R.
Definition cold_B : list R := [3471 / 1000; 22219 / 10000; 485 / 1000; 181 / 1000; 60 / 1000; 627 / 1000; 397 / 1000; 576 / 1000]%R.
Definition c1 : R := (119104 / 10000000000)%R.
Definition c2 : R := (143877 / 100000)%R.
Definition at_ (l : list R) (k : Z) : R := nth (Z.to_nat k) l 0%R.
(** The twelve slopes and offsets of the prologue; reading another one is outside
    the array. *)
Definition calibration_of {A} (cal : list A) (channel : Z) : outcome A :=
  if (channel <? 1) then UB else match nth_error cal (Z.to_nat (channel - 1)) with Some c => Ok c | None => UB end.
Definition is_cold (channel : Z) : bool := (3 <? channel) && (channel <? 12).
(** 612-613: one entry of the table. *)
Definition cold_entry (neg : bool) (channel : Z) (radiance : R) : xr :=
  let cenwave := at_ cold_ccw (channel - 4) in
  let c2nuc := (cenwave * c2)%R in
  let c1nuc3 := (cenwave ^ 3 * c1)%R in
  xdiv false (xsub (xdiv neg (Fin c2nuc) (xlog (xadd (xdiv neg (Fin c1nuc3) (Fin radiance)) (Fin 1)))) (Fin (at_ cold_B (channel - 4))))
       (Fin (at_ cold_A (channel - 4))).
(** 579: 2 to the power of the bits per pixel, as an int; the table has that many
    entries. [bpp] is a byte of the header. *)
Definition ncal (bpp : Z) : outcome Z := if bpp <? 31 then Ok (2 ^ bpp) else UB.
Definition msg_entry (neg : bool) (cal : list (R * R)) (channel : Z) (i : Z) : outcome xr :=
  let! c := calibration_of cal channel in
  let radiance := (IZR i * fst c + snd c)%R in
  Ok (if is_cold channel then cold_entry neg channel radiance else Fin radiance).
(** Looking up a sample in the table that get_calibration returns. *)
Definition table_value (neg : bool) (cal : list (R * R)) (channel bpp sample : Z) : outcome xr :=
  let! n := ncal bpp in
  if (0 <=? sample) && (sample <? n) then msg_entry neg cal channel sample else UB.
(** 627-648, get_slope_offset: slope, offset and whether values are integers. *)
Definition slope_offset (cal : list (R * R)) (channel : Z) : outcome (R * R * bool) :=
  if is_cold channel then Ok ((/ at_ cold_A (channel - 4))%R, (- at_ cold_B (channel - 4))%R, false)
  else let! c := calibration_of cal channel in Ok (fst c, snd c, true).

(** ** gdal/xrit/rasterband.cpp *)
Record band := mk_band { b_linear : bool; b_scale : R; b_offset : R; b_nodata : R }.
(** 44-63 of init, 105-122. *)
Definition xrit_band (cal : list (R * R)) (channel bpp : Z) : outcome band :=
  let! so := slope_offset cal channel in
  let '(s, o, linear) := so in
  if linear then Ok (mk_band true s o 0)
  else let! _ := ncal bpp in let! _ := calibration_of cal channel in Ok (mk_band false 1 0 0).
(** 92-97: a sample as it is stored in the block. *)
Definition cleaned (v : xr) : xr :=
  match v with Nan => Fin 0 | Ninf => Fin 0 | Pinf => Pinf | Fin x => if Rlt_dec x 0 then Fin 0 else Fin x end.
Definition xrit_pixel (neg : bool) (cal : list (R * R)) (channel bpp sample : Z) : outcome xr :=
  let! b := xrit_band cal channel bpp in
  if b_linear b then Ok (Fin (IZR sample))
  else let! v := table_value neg cal channel bpp sample in Ok (cleaned v).

(** ** First generation: OpenMTP_image.cpp:79-87 and HRI_image.cpp:354-359. *)
(** rad = cc * (i - sc), 0 below the space count. *)
Definition rad (cc sc : R) (i : Z) : R := if Rlt_dec (IZR i) sc then 0%R else (cc * (IZR i - sc))%R.
(** -b / (log(rad) - a) *)
Definition temp (neg : bool) (a b : R) (r : R) : xr := xdiv neg (Fin (- b)) (xsub (xlog (Fin r)) (Fin a)).
Definition visible (i : Z) : xr := Fin (100 * (IZR i / 255)).

(** OpenMTP_image.cpp:59-104. The coefficients are those of OpenMTP_machine.cpp. *)
Definition omtp_calibration (neg : bool) (hs : host) (h : list Z) : outcome (Z -> xr) :=
  let! n := text_at h 32 2 in
  if negb (str_eq n (codes "M7")) then Ok (fun _ => Fin 1) else
  let! c := OmtpModel.r4_from_char5 h 44 in
  let! s := OmtpModel.r4_from_char3 h 49 in
  let cc := (IZR c / 100000)%R in
  let sc := (IZR s / 10)%R in
  let! ir := is_ir_data hs h in
  if ir then Ok (fun i => temp neg (69618 / 10000) (12555465 / 10000) (rad cc sc i)) else
  let! wv := is_wv_data hs h in
  if wv then Ok (fun i => temp neg (92477 / 10000) (22334882 / 10000) (rad cc sc i)) else
  let! vis := is_vis_data hs h in
  if vis then Ok visible else Ok (fun _ => Fin 1).

(** ** HRI *)
Inductive hsat := METEOSAT | GOES_E | GOES_W | GMS | INDOX.
Inductive hband := HIR | HWV | HVIS | HVH.
(** HRI_image.cpp:391-424, in hundredths. *)
Definition gms_ir_cal : list Z := [
  13000; 13000; 13000; 13000; 13000; 13000; 13000; 13000; 13000; 13000; 13000; 13000; 13000; 13000; 13419;
  14765; 15573; 16175; 16662; 17077; 17440; 17764; 18047; 18318; 18570; 18805; 19026; 19235; 19433; 19622;
  19803; 19976; 20142; 20302; 20457; 20607; 20752; 20892; 21029; 21162; 21291; 21417; 21540; 21660; 21778;
  21892; 22005; 22115; 22223; 22329; 22433; 22535; 22635; 22733; 22830; 22926; 23020; 23112; 23203; 23293;
  23381; 23468; 23554; 23639; 23723; 23806; 23887; 23968; 24048; 24127; 24205; 24282; 24358; 24433; 24508;
  24581; 24654; 24726; 24798; 24869; 24939; 25008; 25077; 25146; 25213; 25280; 25347; 25412; 25478; 25542;
  25607; 25670; 25733; 25796; 25858; 25920; 25981; 26042; 26103; 26162; 26222; 26281; 26340; 26398; 26456;
  26513; 26570; 26627; 26683; 26739; 26795; 26850; 26905; 26960; 27014; 27068; 27121; 27175; 27228; 27280;
  27333; 27385; 27437; 27488; 27539; 27590; 27641; 27692; 27742; 27792; 27841; 27891; 27940; 27989; 28037;
  28086; 28134; 28182; 28230; 28277; 28324; 28371; 28418; 28465; 28511; 28558; 28604; 28649; 28695; 28740;
  28786; 28831; 28875; 28920; 28965; 29009; 29053; 29097; 29141; 29184; 29228; 29271; 29314; 29357; 29399;
  29442; 29484; 29527; 29569; 29611; 29652; 29694; 29736; 29777; 29818; 29859; 29900; 29941; 29981; 30022;
  30062; 30102; 30142; 30182; 30222; 30262; 30301; 30341; 30380; 30419; 30458; 30497; 30536; 30574; 30613;
  30651; 30690; 30728; 30766; 30804; 30842; 30879; 30917; 30954; 30992; 31029; 31066; 31103; 31140; 31177;
  31214; 31251; 31287; 31324; 31360; 31396; 31432; 31468; 31504; 31540; 31576; 31612; 31647; 31683; 31718;
  31753; 31788; 31824; 31859; 31894; 31928; 31963; 31998; 32032; 32067; 32101; 32136; 32170; 32204; 32238;
  32272; 32306; 32340; 32374; 32407; 32441; 32474; 32508; 32541; 32575; 32608; 32641; 32674; 32707; 32740;
  32773].
(** HRI_image.cpp:425-462, in millionths. *)
Definition gms_vh_cal : list Z := [
  0; 0; 0; 0; 252; 252; 252; 252; 1008; 1008; 1008; 1008; 2268; 2268; 2268; 2268; 4031; 4031; 4031; 4031;
  6299; 6299; 6299; 6299; 9070; 9070; 9070; 9070; 12346; 12346; 12346; 12346; 16125; 16125; 16125; 16125;
  20408; 20408; 20408; 20408; 25195; 25195; 25195; 25195; 30486; 30486; 30486; 30486; 36281; 36281; 36281;
  36281; 42580; 42580; 42580; 42580; 49383; 49383; 49383; 49383; 56689; 56689; 56689; 56689; 64500; 64500;
  64500; 64500; 72814; 72814; 72814; 72814; 81633; 81633; 81633; 81633; 90955; 90955; 90955; 90955; 100781;
  100781; 100781; 100781; 111111; 111111; 111111; 111111; 121945; 121945; 121945; 121945; 133283; 133283;
  133283; 133283; 145125; 145125; 145125; 145125; 157470; 157470; 157470; 157470; 170320; 170320; 170320;
  170320; 183673; 183673; 183673; 183673; 197531; 197531; 197531; 197531; 211892; 211892; 211892; 211892;
  226757; 226757; 226757; 226757; 242126; 242126; 242126; 242126; 258000; 258000; 258000; 258000; 274376;
  274376; 274376; 274376; 291257; 291257; 291257; 291257; 308642; 308642; 308642; 308642; 326531; 326531;
  326531; 326531; 344923; 344923; 344923; 344923; 363820; 363820; 363820; 363820; 383220; 383220; 383220;
  383220; 403124; 403124; 403124; 403124; 423532; 423532; 423532; 423532; 444444; 444444; 444444; 444444;
  465860; 465860; 465860; 465860; 487780; 487780; 487780; 487780; 510204; 510204; 510204; 510204; 533132;
  533132; 533132; 533132; 556563; 556563; 556563; 556563; 580499; 580499; 580499; 580499; 604938; 604938;
  604938; 604938; 629882; 629882; 629882; 629882; 655329; 655329; 655329; 655329; 681280; 681280; 681280;
  681280; 707735; 707735; 707735; 707735; 734694; 734694; 734694; 734694; 762157; 762157; 762157; 762157;
  790123; 790123; 790123; 790123; 818594; 818594; 818594; 818594; 847569; 847569; 847569; 847569; 877047;
  877047; 877047; 877047; 907029; 907029; 907029; 907029; 937516; 937516; 937516; 937516; 968506; 968506;
  968506; 968506; 1000000; 1000000; 1000000; 1000000].
(** HRI_image.cpp:336-543. [coeff] is the pair given to set_calibration, if any. *)
Definition hri_calibration (neg : bool) (sat : hsat) (band : hband) (coeff : option (R * R)) : Z -> xr :=
  let ones := fun _ => Fin 1 in
  match sat with
  | METEOSAT =>
      match band with
      | HIR => match coeff with Some (cc, sc) => fun i => temp neg (69618 / 10000) (12555465 / 10000) (rad cc sc i) | None => ones end
      | HWV => match coeff with Some (cc, sc) => fun i => temp neg (92477 / 10000) (22334882 / 10000) (rad cc sc i) | None => ones end
      | HVIS | HVH => visible
      end
  | _ =>
      match band with
      | HIR =>
          match sat with
          | GOES_E => fun i => if i <? 79 then Fin (163 + IZR i) else Fin ((IZR i + 405) / 2)
          | GOES_W => fun i => Fin (IZR i / 255 * (3181 / 10 - 1591 / 10) + 1591 / 10)
          | GMS => fun i => Fin (IZR (nth (Z.to_nat i) gms_ir_cal 0) / 100)
          | _ => let '(cc, sc) := match coeff with Some c => c | None => (74 / 1000, 5)%R end in
                 fun i => temp neg (67348 / 10000) (12722000 / 10000) (rad cc sc i)
          end
      | HWV =>
          match sat with
          | INDOX => let '(cc, sc) := match coeff with Some c => c | None => (78 / 10000, 6)%R end in
                 fun i => temp neg (91124 / 10000) (22649000 / 10000) (rad cc sc i)
          | _ => ones
          end
      | HVH =>
          match sat with
          | GMS => fun i => Fin (IZR (nth (Z.to_nat i) gms_vh_cal 0) / 1000000)
          | _ => visible
          end
      | HVIS => ones
      end
  end.
(** HRI.cpp:120-380: the images of a format with the coefficients handed to
    set_calibration: the infrared pair of the header, the water vapour pair, a
    structure that nothing was written to, or no call at all. *)
Inductive source := FromIR | FromWV | Unwritten | NotSet.
Definition hri_images (format : string) (x : hsat) : option (list (hsat * hband * source)) :=
  if String.eqb format "AV" then Some [(METEOSAT, HVIS, Unwritten)]
  else if String.eqb format "AVH" then Some [(METEOSAT, HVH, FromWV)]
  else if String.eqb format "AW" then Some [(METEOSAT, HWV, FromWV)]
  else if String.eqb format "AIW" then Some [(METEOSAT, HIR, FromIR); (METEOSAT, HWV, FromWV)]
  else if String.eqb format "AIVH" then Some [(METEOSAT, HIR, FromIR); (METEOSAT, HVH, NotSet)]
  else if String.eqb format "BW" then Some [(METEOSAT, HWV, FromWV)]
  else if String.eqb format "BIV" || String.eqb format "BIVH" then Some [(METEOSAT, HIR, FromIR); (METEOSAT, HVIS, NotSet)]
  else if String.eqb format "BIW" then Some [(METEOSAT, HIR, FromIR); (METEOSAT, HWV, FromWV)]
  else if String.eqb format "XI" then Some [(x, HIR, FromIR)]
  else if String.eqb format "XW" then Some [(x, HWV, Unwritten)]
  else if String.eqb format "XVH" then Some [(x, HVH, FromWV)]
  else None.
(** The table of one image; [junk] is what the unwritten structure holds. The pair
    is read into cc and sc at 341-342 whether it is needed or not. *)
Definition image_table (neg : bool) (ir wv junk : R * R) (im : hsat * hband * source) : Z -> xr :=
  let '(sat, band, src) := im in
  hri_calibration neg sat band (match src with FromIR => Some ir | FromWV => Some wv | Unwritten => Some junk | NotSet => None end).
(** HRI_image.cpp:61-225, the unit announced with a band. *)
Definition hri_unit (b : hband) : string := match b with HIR | HWV => "K" | HVIS | HVH => "%" end.
(** HRI_subframe_interpretation.cpp:56-61, decoded by HRI_machine.cpp. *)
Definition hri_pair (hsi : list Z) (off : nat) : outcome (R * R) :=
  let! b := bytes_at hsi off 5 in
  let! s := bytes_at hsi (off + 5) 3 in
  let! c := HriImageModel.r4f_from_char5 b in
  let! sc := HriImageModel.r4f_from_char3 s in
  Ok (Q2R c, Q2R sc).
Definition hri_ir (hsi : list Z) := hri_pair hsi 51.
Definition hri_wv (hsi : list Z) := hri_pair hsi 64.

(** ** msat/gdal/dataset.cpp:334-402, CalibratedDataset and CalibratedRasterBand *)
Record raster := mk_raster { r_u16 : bool; r_scale : R; r_offset : R; r_nodata : R; r_min : R; r_max : R; r_block : Z -> Z -> option (list R) }.
Definition calibrated (b : raster) : raster :=
  if r_u16 b then
    mk_raster false 1 0 0 (r_min b * r_scale b + r_offset b) (r_max b * r_scale b + r_offset b)
      (fun x y => match r_block b x y with None => None | Some l => Some (map (fun v => v * r_scale b + r_offset b)%R l) end)
  else b.

(** ** MSG_data_RadiometricProc.cpp:650-685 *)
(** scan2zen; the sine of a real is at most 1, so is the argument of asin, but it
    may be below -1. *)
Definition scan2zen (scan satheight : R) : xr :=
  let t := ((6357 + satheight) * (sin scan / 6357))%R in
  let t := if Rlt_dec 1 t then 1%R else t in
  if Rlt_dec t (-1) then Nan else Fin (asin t).
(** radiance_to_reflectance: a bare throw ends the program. *)
Definition radiance_to_reflectance (chnum : Z) (body : R) : outcome R :=
  if negb (chnum =? 1) || negb (chnum =? 2) || negb (chnum =? 3) || negb (chnum =? 12) then Terminate else Ok body.
