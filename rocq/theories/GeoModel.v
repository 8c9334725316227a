(** Georeferencing of msat/gdal/dataset.cpp and the boxes of msat/gdal/points.h.

    Simplified: doubles are exact rationals, infinities and not-a-numbers do not
    occur; [GeoFloat.v] treats the rounding of the pixel conversions. *)
From Verif Require Import Base.
From Coq Require Import QArith Qround Qabs.
Open Scope Z_scope.

(** Signed 32 bit integers. *)
Definition int_fits (v : Z) : bool := (- 2 ^ 31 <=? v) && (v <? 2 ^ 31).
(** Conversion of a long to an int, modulo 2^32 on every supported compiler. *)
Definition to_int (v : Z) : Z := (v + 2 ^ 31) mod 2 ^ 32 - 2 ^ 31.

(** The six coefficients, [geoTransform[0]] to [geoTransform[5]]. *)
Record geo := mk_geo { g0 : Q; g1 : Q; g2 : Q; g3 : Q; g4 : Q; g5 : Q }.

Section Rational.
Open Scope Q_scope.

(** dataset.cpp:146-177: None is CE_Failure. *)
Definition det (g : geo) : Q := g1 g * g5 g - g2 g * g4 g.
Definition invertGeoTransform (g : geo) : option geo :=
  if negb (Qle_bool (1 # 1000000000000000) (Qabs (det g))) then None
  else
    let inv_det := 1 / det g in
    Some {| g1 := g5 g * inv_det; g4 := - g4 g * inv_det;
            g2 := - g2 g * inv_det; g5 := g1 g * inv_det;
            g0 := (g2 g * g3 g - g0 g * g5 g) * inv_det;
            g3 := (- g1 g * g3 g + g0 g * g4 g) * inv_det |}.

(** lrint(3) in the default rounding mode: to nearest, ties to even. *)
Definition lrint (q : Q) : Z :=
  let f := Qfloor q in
  match Qcompare (q - inject_Z f) (1 # 2) with
  | Lt => f
  | Gt => (f + 1)%Z
  | Eq => if Z.even f then f else (f + 1)%Z
  end.

(** dataset.cpp:224-230 *)
Definition pixelToProjected (g : geo) (x y : Z) : Q * Q :=
  (g0 g + g1 g * inject_Z x + g2 g * inject_Z y, g3 g + g4 g * inject_Z x + g5 g * inject_Z y).
(** dataset.cpp:232-236; [i] is the inverse. The result of lrint is put into an
    int. *)
Definition projectedToPixel (i : geo) (px py : Q) : Z * Z :=
  (to_int (lrint (g0 i + px * g1 i + py * g2 i)), to_int (lrint (g3 i + px * g4 i + py * g5 i))).

(** dataset.cpp:74-84. A zero pixel size gives an infinity or a not-a-number,
    whose rounding is unspecified. Result: xs, ys, psx, psy. *)
Definition decodeGeotransform (g : geo) : outcome (Z * Z * Q * Q) :=
  let psx := g1 g in
  let psy := - g5 g in
  if Qeq_bool psx 0 || Qeq_bool psy 0 then UB
  else Ok (to_int (lrint (- g0 g / psx)), to_int (lrint (g3 g / psy)), psx, psy).
End Rational.

(** ** points.h *)
Record point := mk_point { column : Z; line : Z }.
Record box := mk_box { topLeft : point; bottomRight : point }.
(** points.h:65-66 *)
Definition lmin (a b : Z) : Z := if a <=? b then a else b.
(** points.h:67-68 *)
Definition lmax (a b : Z) : Z := if b <=? a then a else b.
Record rect := mk_rect { rx : Z; ry : Z; rw : Z; rh : Z }.
(** points.h:79-87: the coordinates are long, the results int; the subtraction
    is of ints. *)
Definition image_bounds (b : box) : outcome rect :=
  let x0 := to_int (lmin (column (topLeft b)) (column (bottomRight b))) in
  let y0 := to_int (lmin (line (topLeft b)) (line (bottomRight b))) in
  let x1 := to_int (lmax (column (topLeft b)) (column (bottomRight b))) in
  let y1 := to_int (lmax (line (topLeft b)) (line (bottomRight b))) in
  if int_fits (x1 - x0) && int_fits (y1 - y0) then Ok (mk_rect x0 y0 (x1 - x0) (y1 - y0)) else UB.
(** points.h:88-91 *)
Definition image_nonzero (b : box) : bool :=
  negb (column (topLeft b) =? 0) || negb (line (topLeft b) =? 0) || negb (column (bottomRight b) =? 0) || negb (line (bottomRight b) =? 0).

(** Projected and map boxes, points.h:95-129, over rationals: lat/lon or y/x. *)
Record qpoint := mk_qpoint { qx : Q; qy : Q }.
Record qbox := mk_qbox { q_tl : qpoint; q_br : qpoint }.
Definition qmin (a b : Q) : Q := if Qle_bool a b then a else b.
Definition qmax (a b : Q) : Q := if Qle_bool b a then a else b.
(** points.h:97-105: x0, y0, w, h *)
Definition projected_bounds (b : qbox) : Q * Q * Q * Q :=
  let x0 := qmin (qx (q_tl b)) (qx (q_br b)) in
  let y0 := qmin (qy (q_tl b)) (qy (q_br b)) in
  let x1 := qmax (qx (q_tl b)) (qx (q_br b)) in
  let y1 := qmax (qy (q_tl b)) (qy (q_br b)) in
  (x0, y0, (x1 - x0)%Q, (y1 - y0)%Q).
(** points.h:115-121, latitudes as y, longitudes as x: latmin, latmax, lonmin,
    lonmax *)
Definition map_bounds (b : qbox) : Q * Q * Q * Q :=
  (qmin (qy (q_tl b)) (qy (q_br b)), qmax (qy (q_tl b)) (qy (q_br b)), qmin (qx (q_tl b)) (qx (q_br b)), qmax (qx (q_tl b)) (qx (q_br b))).

(** ** Cropping *)
(** dataset.cpp:114-127: the window given to GDAL for a crop area, with the
    conversions of long to int of the assignments. *)
Definition crop_window (b : box) : rect :=
  mk_rect (to_int (column (topLeft b))) (to_int (line (topLeft b)))
    (to_int (column (bottomRight b) - column (topLeft b))) (to_int (line (bottomRight b) - line (topLeft b))).

(** tools/msat.cpp:629-662: the window of --Area. The four corners are turned
    into pixels by [corner] (None: latlonToPixel failed); [xs], [ys] is the size
    of the image. *)
Definition widen (acc : Z * Z * Z * Z) (p : Z * Z) : Z * Z * Z * Z :=
  let '(xmin, ymin, xmax, ymax) := acc in
  let '(x, y) := p in
  (if x <? xmin then x else xmin, if y <? ymin then y else ymin, if xmax <? x then x else xmax, if ymax <? y then y else ymax).
Fixpoint widen_all (acc : Z * Z * Z * Z) (l : list (option (Z * Z))) : option (Z * Z * Z * Z) :=
  match l with
  | [] => Some acc
  | None :: _ => None
  | Some p :: l' => widen_all (widen acc p) l'
  end.
Definition area_window (xs ys : Z) (corners : list (option (Z * Z))) : outcome (option rect) :=
  match widen_all (xs, ys, 0, 0) corners with
  | None => Ok None
  | Some (xmin, ymin, xmax, ymax) =>
      if int_fits (xmax - xmin) && int_fits (ymax - ymin) then Ok (Some (mk_rect xmin ymin (xmax - xmin) (ymax - ymin))) else UB
  end.
