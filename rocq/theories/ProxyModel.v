(** gdal/reflectance/base.cpp, reflectance.cpp, sat_za.cpp, cos_sol_za.cpp,
    jday.cpp, gdal/utils.cpp and the opening of gdal/xrit/xrit.cpp: derived
    datasets, what they take from their sources and who deletes the sources.

    The samples are in SunModel.v. Datasets are identified by a number standing
    for their address; projections, metadata lists and the bits of doubles are
    numbers too. *)
From Verif Require Import Base IniModel GeoModel ToolModel ScanModel FactsModel.
From Coq Require Import String.
Open Scope string_scope.
Open Scope list_scope.
Open Scope Z_scope.

(** What a band answers: channel id metadata, its MSAT metadata list, whether it
    has a scale and an offset, its block size. *)
Record band := mk_band { b_chan : option str; b_md : option Z; b_scale : bool; b_offset : bool; b_block : Z * Z }.
(** What a dataset answers. [d_setmd]: whether its metadata list can be stored. *)
Record ds := mk_ds { d_id : Z; d_srs : option Z; d_gt : option (list Z); d_time : option str; d_md : option Z; d_setmd : bool; d_xs : Z; d_ys : Z; d_bands : list band }.

(** ** ProxyDataset *)
(** base.h:13-31; reflectance.h:12-26: sources are a dataset and the index of its
    band. *)
Record proxy := mk_proxy { p_osr : option Z; p_has : bool; p_gt : list Z; p_time : str; p_md : option Z; p_xs : Z; p_ys : Z; p_src : list (option (ds * nat)); p_own : list Z }.
Definition proxy0 : proxy := mk_proxy None false [] [] None 0 0 (repeat None 12) [].

Inductive res := Done | Thrown | Undefined.
(** base.cpp:17-56: the members afterwards and how it ends. [is_same] is
    OGRSpatialReference::IsSame, which dereferences its argument. Simplified: the
    geotransform starts empty instead of uninitialised. *)
Definition add_info (is_same : Z -> Z -> bool) (p : proxy) (d : ds) : proxy * res :=
  let with_osr o := mk_proxy (Some o) (p_has p) (p_gt p) (p_time p) (p_md p) (p_xs p) (p_ys p) (p_src p) (p_own p) in
  match (match p_osr p with Some o => Some (o, p) | None => match d_srs d with Some o => Some (o, with_osr o) | None => None end end) with
  | None => (p, Thrown)
  | Some (o, p) =>
      match d_gt d with
      | None => (p, Thrown)
      | Some gt =>
          match d_time d with
          | None => (p, Thrown)
          | Some t =>
              if p_has p then
                match d_srs d with
                | None => (p, Undefined)
                | Some s =>
                    if negb (is_same o s) then (p, Thrown)
                    else if negb (if list_eq_dec Z.eq_dec (p_gt p) gt then true else false) then (p, Thrown)
                    else if negb (str_eqb (p_time p) t) then (p, Thrown)
                    else if negb (p_xs p =? d_xs d) then (p, Thrown)
                    else if negb (p_ys p =? d_ys d) then (p, Thrown)
                    else (p, Done)
                end
              else
                let p := mk_proxy (p_osr p) false gt (p_time p) (p_md p) (p_xs p) (p_ys p) (p_src p) (p_own p) in
                match d_md d with
                | None => (p, Thrown)
                | Some m =>
                    if d_setmd d then (mk_proxy (p_osr p) true gt t (Some m) (d_xs d) (d_ys d) (p_src p) (p_own p), Done)
                    else (p, Thrown)
                end
          end
      end
  end.

(** ** ReflectanceDataset *)
(** reflectance.cpp:31-49, one band. std::set::insert. *)
Definition own (i : Z) (l : list Z) : list Z := if existsb (Z.eqb i) l then l else i :: l.
Definition chan_of (b : band) : option Z :=
  match b_chan b with
  | None => None
  | Some s => let id := to_int (fst (strtoul s)) in if (id <? 1) || (12 <? id) then None else Some id
  end.
Fixpoint add_bands (is_same : Z -> Z -> bool) (take : bool) (d : ds) (k : nat) (l : list band) (p : proxy) : proxy * res :=
  match l with
  | [] => (p, Done)
  | b :: l' =>
      match chan_of b with
      | None => add_bands is_same take d (S k) l' p
      | Some id =>
          match add_info is_same p d with
          | (p', Done) =>
              add_bands is_same take d (S k) l'
                (mk_proxy (p_osr p') (p_has p') (p_gt p') (p_time p') (p_md p') (p_xs p') (p_ys p')
                   (set_nth (p_src p') (Z.to_nat (id - 1)) (Some (d, k))) (if take then own (d_id d) (p_own p') else p_own p'))
          | other => other
          end
      end
  end.
Definition add_source (is_same : Z -> Z -> bool) (take : bool) (p : proxy) (d : ds) : proxy * res := add_bands is_same take d 0 (d_bands d) p.
(** ~ReflectanceDataset, reflectance.cpp:25-29: the datasets deleted. *)
Definition destroy (p : proxy) : list Z := p_own p.

(** Band [k] of the sources. *)
Definition source_band (p : proxy) (ch : Z) : option band :=
  match nth (Z.to_nat (ch - 1)) (p_src p) None with Some (d, k) => nth_error (d_bands d) k | None => None end.
(** reflectance.cpp:55-72 and pixeltolatlon.cpp:8-24. *)
Definition base_ok (p : proxy) : bool :=
  match scan_iso (p_time p), p_osr p with Some _, Some _ => true | _, _ => false end.
(** ProxyRasterBand::add_info, base.cpp:68-79, and the scale and offset of
    reflectance.cpp:108-118. Simplified: storing the metadata of a band does not
    fail. *)
Definition band_usable (b : band) : bool := match b_md b with Some _ => b_scale b && b_offset b | None => false end.
(** reflectance.cpp:100-130, 170-205 and 330-348: the block size of the new band. *)
Definition init_rasterband (p : proxy) (ch : Z) : option (Z * Z) :=
  if (ch =? 1) || (ch =? 2) || (ch =? 3) || (ch =? 12) then
    if base_ok p then match source_band p ch with Some b => if band_usable b then Some (b_block b) else None | None => None end else None
  else if ch =? 4 then
    if base_ok p then
      match source_band p 4, source_band p 9, source_band p 11 with
      | Some b, Some b9, Some b11 => if band_usable b && (b_scale b9 && b_offset b9) && (b_scale b11 && b_offset b11) then Some (b_block b) else None
      | _, _, _ => None
      end
    else None
  else None.

(** ** Opening *)
(** How an open function ends: a dataset (its description, the datasets it reads
    and the ones it deletes in turn), NULL or an exception; and the source
    datasets deleted on the way. *)
Inductive kind := Plain | Reflectance (ch : Z) | SatZA | CosSolZA | JDay.
Inductive opened := Opened (k : kind) (reads owns : list Z) | Nothing | Escaped | Broken.

(** sat_za.cpp:73-78 with SatZARasterBand::SatZARasterBand 23-33,
    cos_sol_za.cpp:29-47, jday.cpp:26-40. None: exception; GetRasterBand(1) of a
    dataset without bands is NULL and dereferenced. *)
Definition derive (is_same : Z -> Z -> bool) (k : kind) (d : ds) : proxy * option (Z * Z) * res :=
  match add_info is_same proxy0 d with
  | (p, Done) =>
      match d_bands d with
      | [] => (p, None, Undefined)
      | b :: _ =>
          match b_md b with
          | None => (p, None, Thrown)
          | Some _ =>
              match k, scan_iso (p_time p) with
              | CosSolZA, None | JDay, None => (p, None, Thrown)
              | _, _ => (p, Some (b_block b), Done)
              end
          end
      end
  | (p, r) => (p, None, r)
  end.
(** utils.cpp:16-57. *)
Definition add_extras (is_same : Z -> Z -> bool) (option_value : option str) (d : ds) : opened * list Z :=
  match option_value with
  | None => (Opened Plain [d_id d] [d_id d], [])
  | Some v =>
      if str_eqb v (codes "reflectance") then
        match d_bands d with
        | [] => (Broken, [])
        | b :: _ =>
            match b_chan b with
            | None => (Escaped, [])
            | Some s =>
                let ch := to_int (fst (strtoul s)) in
                if ch =? 4 then (Escaped, [])
                else match add_source is_same true proxy0 d with
                     | (p, Done) => match init_rasterband p ch with
                                    | Some _ => (Opened (Reflectance ch) [d_id d] (destroy p), [])
                                    | None => (Escaped, destroy p)
                                    end
                     | (p, Thrown) => (Escaped, destroy p)
                     | (_, Undefined) => (Broken, [])
                     end
            end
        end
      else
        let computed k := match derive is_same k d with
                          | (_, _, Done) => (Opened k [] [], [d_id d])
                          | (_, _, Thrown) => (Escaped, [])
                          | (_, _, Undefined) => (Broken, [])
                          end in
        if str_eqb v (codes "sat_za") then computed SatZA
        else if str_eqb v (codes "cos_sol_za") then computed CosSolZA
        else if str_eqb v (codes "jday") then computed JDay
        else (Nothing, [d_id d])
  end.

(** ** XRITOpen *)
(** xrit.cpp:18-78: [pid] is the channel part of the name; [init] stands for
    XRITDataset::init on the dataset of a channel, None for failure. *)
Definition suffix (pid : str) : option Z := match pid with [] => None | _ => Some (last pid 0) end.
Definition xrit_open (is_same : Z -> Z -> bool) (init : str -> option ds) (option_value : option str) (pid : str) : opened * list Z :=
  match suffix pid with
  | Some 114 =>
      let base := removelast pid in
      if str_eqb base (codes "IR_039") then
        match init base with
        | None => (Nothing, [])
        | Some a =>
            match init (codes "IR_108") with
            | None => (Nothing, [d_id a])
            | Some b =>
                match init (codes "IR_134") with
                | None => (Nothing, [d_id a; d_id b])
                | Some c =>
                    match add_source is_same true proxy0 a with
                    | (p, Thrown) => (Escaped, destroy p ++ [d_id b; d_id c])
                    | (_, Undefined) => (Broken, [])
                    | (p, Done) =>
                        match add_source is_same true p b with
                        | (p, Thrown) => (Escaped, destroy p ++ [d_id c])
                        | (_, Undefined) => (Broken, [])
                        | (p, Done) =>
                            match add_source is_same true p c with
                            | (p, Thrown) => (Escaped, destroy p)
                            | (_, Undefined) => (Broken, [])
                            | (p, Done) => match init_rasterband p 4 with
                                           | Some _ => (Opened (Reflectance 4) [d_id a; d_id b; d_id c] (destroy p), [])
                                           | None => (Escaped, destroy p)
                                           end
                            end
                        end
                    end
                end
            end
        end
      else
        match init base with
        | None => (Nothing, [])
        | Some d =>
            let ch := match d_bands d with b :: _ => match b_chan b with Some s => to_int (fst (strtoul s)) | None => -1 end | [] => -1 end in
            match add_source is_same true proxy0 d with
            | (p, Thrown) => (Escaped, destroy p)
            | (_, Undefined) => (Broken, [])
            | (p, Done) => match init_rasterband p ch with
                           | Some _ => (Opened (Reflectance ch) [d_id d] (destroy p), [])
                           | None => (Escaped, destroy p)
                           end
            end
        end
  | Some 97 =>
      match init (removelast pid) with
      | None => (Nothing, [])
      | Some d => match derive is_same CosSolZA d with
                  | (_, _, Done) => (Opened CosSolZA [] [], [d_id d])
                  | (_, _, Thrown) => (Escaped, [d_id d])
                  | (_, _, Undefined) => (Broken, [])
                  end
      end
  | _ => match init pid with None => (Nothing, []) | Some d => add_extras is_same option_value d end
  end.

(** ** Blocks of derived bands *)
(** reflectance.cpp:131-136: RasterIO refuses windows that are not inside the
    source. *)
Definition block_window (block : Z * Z) (x y : Z) : rect := mk_rect (x * fst block) (y * snd block) (fst block) (snd block).
Definition raster_io (d : ds) (r : rect) : bool :=
  (0 <=? rx r) && (0 <=? ry r) && (rx r + rw r <=? d_xs d) && (ry r + rh r <=? d_ys d) && (1 <=? rw r) && (1 <=? rh r).
Definition read_block (d : ds) (block : Z * Z) (x y : Z) : bool := raster_io d (block_window block x y).
(** pixeltolatlon.cpp:33-62: the projected coordinates asked for, in order of the
    buffer, before the transformation. *)
Definition coords (x y sx sy : Z) : list (Z * Z) :=
  flat_map (fun iy => map (fun ix => (x + Z.of_nat ix, y + Z.of_nat iy)) (seq 0 (Z.to_nat sx))) (seq 0 (Z.to_nat sy)).
