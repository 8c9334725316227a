(** Independent description of the calendar and of the satellite tables. *)
From Verif Require Import Base.
From Coq Require Import QArith.
Open Scope string_scope.
Open Scope Z_scope.

(** Gregorian calendar. *)
Definition leap_year (y : Z) : Prop := (y mod 4 = 0 /\ y mod 100 <> 0) \/ y mod 400 = 0.
Definition leap_yearb (y : Z) : bool := ((y mod 4 =? 0) && negb (y mod 100 =? 0)) || (y mod 400 =? 0).
Definition months (y : Z) : list Z :=
  [31; if leap_yearb y then 29 else 28; 31; 30; 31; 30; 31; 31; 30; 31; 30; 31].
Definition valid_date (y m d : Z) : Prop :=
  1 <= m <= 12 /\ 1 <= d <= nth (Z.to_nat (m - 1)) (months y) 0.
Definition zsum (l : list Z) : Z := fold_right Z.add 0 l.
Definition ordinal (y m d : Z) : Z := zsum (firstn (Z.to_nat (m - 1)) (months y)) + d.
Definition year_length (y : Z) : Z := if leap_yearb y then 366 else 365.
(** the following calendar day *)
Definition next_day (y m d : Z) : Z * Z * Z :=
  if d <? nth (Z.to_nat (m - 1)) (months y) 0 then (y, m, d + 1)
  else if m <? 12 then (y, m + 1, 1) else (y + 1, 1, 1).

(** WMO common code table C-5 and the HRIT GP_SC_ID of each satellite the library
    supports (name, HRIT, WMO). *)
Definition satellites : list (string * Z * Z) :=
  [("METOP1", 11, 3); ("METOP2", 12, 4); ("METOP3", 13, 5);
   ("METEOSAT3", 16, 50); ("METEOSAT4", 19, 51); ("METEOSAT5", 20, 52); ("METEOSAT6", 21, 53);
   ("MSG1", 321, 55); ("MSG2", 322, 56); ("MSG3", 323, 57); ("MSG4", 324, 70);
   ("MTSAT1", 21001, 58); ("MTSAT2", 21002, 59); ("GMS4", 20004, 151); ("GMS5", 20005, 152);
   ("NOAA12", 17012, 204); ("NOAA14", 17014, 205); ("NOAA15", 17015, 206);
   ("GOES7", 18007, 251); ("GOES8", 18008, 252); ("GOES9", 18009, 253);
   ("GOES10", 18010, 254); ("GOES11", 18011, 255); ("GOES12", 18012, 256);
   ("GOMS1", 19001, 310); ("GOMS2", 19002, 311)].
(** Satellites with a name but no HRIT number. *)
Definition extra_names : list (string * Z) := [("METEOSAT7", 54); ("GMS3", 150)].
Definition named : list (string * Z) := map (fun t => (fst (fst t), snd t)) satellites ++ extra_names.

(** SEVIRI channels: number, name, centre of the band in micrometres. *)
Definition channels : list (Z * string * Q) :=
  [(1, "VIS006", 6 # 10); (2, "VIS008", 8 # 10); (3, "IR_016", 16 # 10); (4, "IR_039", 39 # 10);
   (5, "WV_062", 62 # 10); (6, "WV_073", 73 # 10); (7, "IR_087", 87 # 10); (8, "IR_097", 97 # 10);
   (9, "IR_108", 108 # 10); (10, "IR_120", 12 # 1); (11, "IR_134", 134 # 10); (12, "HRV", 7 # 10)].
Definition msg_satellite (id : Z) : Prop := id = 55 \/ id = 56 \/ id = 57 \/ id = 70.
