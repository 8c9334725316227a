(** tools/msat.cpp:93-204: what msat --view and --viewmore write about a dataset. *)
From Verif Require Import Base IniModel GribModel.
Open Scope string_scope.
Open Scope list_scope.
Open Scope Z_scope.

Section View.
(** [D] are doubles and [num] is what operator<< of a stream writes for one, with six
    significant digits. *)
Variable D : Type.
Variable num : D -> str.

(** What is asked of a raster band: metadata by domain, where [None] is a null pointer, and
    the statistics, without and with the right to compute them. The strings are none of them
    null pointers: the band is one of the virtual dataset made by translate. *)
Record vband := mk_vband { b_desc : str; b_x : Z; b_y : Z; b_type : Z; b_offset : D; b_scale : D; b_unit : str;
  b_md : str -> option (list str); b_stats : bool -> option (D * D * D * D) }.
(** Of a dataset. *)
Record vset := mk_vset { d_desc : str; d_x : Z; d_y : Z; d_proj : str; d_geo : D * D * D * (D * D * D);
  d_md : str -> option (list str); d_bands : list vband }.

(** endl *)
Definition line (s : str) : str := s ++ [10].
(** setw(10): blanks come first. *)
Definition setw10 (s : str) : str := repeat 32 (10 - List.length s) ++ s.
(** known_md_domains, msat.cpp:93-99 *)
Definition known_md_domains : list str := [codes "SUBDATASETS"; codes "IMAGE_STRUCTURE"; codes "RPC"].
(** dumpMetadata, msat.cpp:101-123; the default domain has the empty name. *)
Definition dump_items (prefix : str) (l : list str) : str := flat_map (fun s => line (prefix ++ codes "  " ++ s)) l.
Definition dump_metadata (md : str -> option (list str)) (prefix : str) : str :=
  match md [] with Some l => line (prefix ++ codes "Metadata:") ++ dump_items prefix l | None => [] end ++
  flat_map (fun d => match md d with Some l => line (prefix ++ codes "Metadata (" ++ d ++ codes "):") ++ dump_items prefix l | None => [] end) known_md_domains.
(** gdalTypeName, msat.cpp:125-143, with the numbers of GDALDataType in gdal.h. *)
Definition type_name (t : Z) : str :=
  if t =? 0 then codes "GDT_Unknown" else if t =? 1 then codes "GDT_Byte"
  else if t =? 3 then codes "GDT_Int16" else if t =? 2 then codes "GDT_UInt16"
  else if t =? 5 then codes "GDT_Int32" else if t =? 4 then codes "GDT_UInt32"
  else if t =? 6 then codes "GDT_Float32" else if t =? 7 then codes "GDT_Float64"
  else if t =? 8 then codes "GDT_CInt16" else if t =? 9 then codes "GDT_CInt32"
  else if t =? 10 then codes "GDT_CFloat32" else if t =? 11 then codes "GDT_CFloat64"
  else codes "(unknown GDALDataType)".
(** printRasterBand, msat.cpp:145-169 *)
Definition print_band (b : vband) (with_contents : bool) (prefix : str) : str :=
  line (prefix ++ codes "Size: " ++ print (b_x b) ++ codes "x" ++ print (b_y b)) ++
  line (prefix ++ codes "Type: " ++ type_name (b_type b)) ++
  line (prefix ++ codes "Offset: " ++ num (b_offset b)) ++
  line (prefix ++ codes "Scale: " ++ num (b_scale b)) ++
  line (prefix ++ codes "Unit: " ++ b_unit b) ++
  dump_metadata (b_md b) prefix ++
  match b_stats b with_contents with
  | Some (lo, hi, mean, dev) => line (prefix ++ codes "Pixel range: min " ++ num lo ++ codes " max " ++ num hi ++ codes " mean " ++ num mean ++ codes " stddev " ++ num dev)
  | None => []
  end.
(** The loop of msat.cpp:192-201, from the [i]-th band on *)
Fixpoint print_bands (i n : Z) (l : list vband) (with_contents : bool) : str :=
  match l with
  | [] => []
  | b :: l' => line (codes "Raster band " ++ print i ++ codes "/" ++ print n ++ codes ": " ++ b_desc b) ++
               print_band b with_contents (codes "  ") ++ print_bands (i + 1) n l' with_contents
  end.
(** printDataset, msat.cpp:171-204 *)
Definition print_dataset (d : vset) (with_contents : bool) : str :=
  let '(g0, g1, g2, (g3, g4, g5)) := d_geo d in
  let row a b c := line (codes "  " ++ setw10 (num a) ++ codes "," ++ [9] ++ setw10 (num b) ++ codes "," ++ [9] ++ setw10 (num c)) in
  line (codes "Dataset: " ++ d_desc d) ++
  line (codes "Size: " ++ print (d_x d) ++ codes "x" ++ print (d_y d)) ++
  line (codes "Projection: " ++ d_proj d) ++
  line (codes "Geotransform matrix: ") ++ row g0 g1 g2 ++ row g3 g4 g5 ++
  dump_metadata (d_md d) [] ++
  print_bands 1 (Z.of_nat (List.length (d_bands d))) (d_bands d) with_contents.
End View.
Arguments b_desc {D}. Arguments b_x {D}. Arguments b_y {D}. Arguments b_type {D}. Arguments b_offset {D}. Arguments b_scale {D}. Arguments b_unit {D}. Arguments b_md {D}. Arguments b_stats {D}.
Arguments d_desc {D}. Arguments d_x {D}. Arguments d_y {D}. Arguments d_proj {D}. Arguments d_geo {D}. Arguments d_md {D}. Arguments d_bands {D}.
Arguments mk_vband {D}. Arguments mk_vset {D}. Arguments print_band {D}. Arguments print_bands {D}. Arguments print_dataset {D}.
