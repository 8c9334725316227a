(** C57, C118, C120: no data values, pixels and times of the NetCDF drivers. *)
From Coq Require Import ZArith Reals String List Lia Lra.
From Flocq Require Import Core.
From Verif Require Import Base BaseFacts IniModel IniProofs FactsModel GeoModel GeoProps ScanModel ToolModel PixModel StretchFloat GribModel GribProps NcModel.
Import ListNotations.
Open Scope string_scope.
Open Scope list_scope.
Open Scope Z_scope.

(** ** C57 *)
(** The values of a pixel type, by its width and sign. *)
Definition value_of (t : gtype) (x : num) : Prop :=
  match t with
  | GByte => exists z, x = Some (IZR z) /\ 0 <= z <= 255
  | GInt16 => exists z, x = Some (IZR z) /\ -32768 <= z <= 32767
  | GUInt16 => exists z, x = Some (IZR z) /\ 0 <= z <= 65535
  | GInt32 => exists z, x = Some (IZR z) /\ -2147483648 <= z <= 2147483647
  | GUInt32 => exists z, x = Some (IZR z) /\ 0 <= z <= 4294967295
  | GFloat32 => match x with Some r => float r | None => True end
  | GFloat64 => True
  | GUnknown | GComplex => False
  end.
(** Those that the signed type of the same width has too. *)
Definition low_half (t : gtype) (x : num) : Prop :=
  match t with
  | GByte => exists z, x = Some (IZR z) /\ z <= 127
  | GUInt16 => exists z, x = Some (IZR z) /\ z <= 32767
  | GUInt32 => exists z, x = Some (IZR z) /\ z <= 2147483647
  | _ => True
  end.
Lemma signed_ok bits z : 0 < bits -> - 2 ^ (bits - 1) <= z < 2 ^ (bits - 1) -> to_signed_type bits (Some (IZR z)) = Ok z.
Proof. intros B H. unfold to_signed_type. rewrite Ztrunc_IZR. replace ((- 2 ^ (bits - 1) <=? z) && (z <? 2 ^ (bits - 1)))%bool with true by lia. reflexivity. Qed.
Lemma signed_ub bits z : 0 < bits -> ~ (- 2 ^ (bits - 1) <= z < 2 ^ (bits - 1)) -> to_signed_type bits (Some (IZR z)) = UB.
Proof. intros B H. unfold to_signed_type. rewrite Ztrunc_IZR. replace ((- 2 ^ (bits - 1) <=? z) && (z <? 2 ^ (bits - 1)))%bool with false by lia. reflexivity. Qed.
Lemma float_back r : float r -> to_float (Some r) = Some r.
Proof. intros F. unfold to_float, StretchFloat.rnd. f_equal. apply round_generic; [typeclasses eauto|exact F]. Qed.
(** The value and type of a band written to a file are those read from it. *)
Theorem C57_round_trip_partial valid b xs ys vars ch : valid (b_name b) = true -> has_var vars (b_name b) = false -> value_of (b_type b) (b_nodata b) -> low_half (b_type b) (b_nodata b) ->
  exists v ok, rasterBandToNcVar valid b xs ys vars = Ok (vars ++ [v], ok) /\ read_type (v_type v) (is_true (get_att (v_attrs v) "_Unsigned")) = b_type b /\ GetNoDataValue v ch = b_nodata b.
Proof.
  intros V H VO LH. unfold rasterBandToNcVar. rewrite V, H. cbn [negb orb].
  destruct b as [nm t off sc nd chn pix]; cbn [b_type b_nodata b_name b_offset b_scale b_pix] in *. destruct t; cbn in VO, LH; try contradiction; cbn [target_type fill_attr].
  1, 3, 5: destruct VO as (z & -> & Z1); destruct LH as (z' & Q & Z2); injection Q as Q; apply eq_IZR in Q; subst z'.
  4, 5: destruct VO as (z & -> & Z1).
  1: rewrite (signed_ok 8 z) by lia. 2: rewrite (signed_ok 16 z) by lia. 3: rewrite (signed_ok 32 z) by lia. 4: rewrite (signed_ok 16 z) by lia. 5: rewrite (signed_ok 32 z) by lia.
  6: assert (FB : to_float nd = nd) by (destruct nd; [now apply float_back|reflexivity]).
  all: cbn [bind]; destruct pix as [pix|]; eexists; eexists; (split; [reflexivity|]); (split; [reflexivity|]); unfold GetNoDataValue; cbn [v_attrs v_type get_att app]; cbn -[Z.modulo Z.pow codes str_eqb IZR].
  all: try rewrite Z.mod_small by lia. all: try reflexivity. all: try exact FB.
Qed.
Print Assumptions C57_round_trip_partial.
(** The other half of the values of the unsigned types is undefined behaviour. *)
Theorem C57_refuted_upper valid b xs ys vars : valid (b_name b) = true -> has_var vars (b_name b) = false -> value_of (b_type b) (b_nodata b) -> ~ low_half (b_type b) (b_nodata b) ->
  rasterBandToNcVar valid b xs ys vars = UB.
Proof.
  intros V H VO LH. unfold rasterBandToNcVar. rewrite V, H. cbn [negb orb].
  destruct b as [nm t off sc nd chn pix]; cbn [b_type b_nodata b_name b_offset b_scale b_pix] in *. destruct t; cbn in VO, LH; try contradiction; try (exfalso; now apply LH); cbn [target_type fill_attr]; destruct VO as (z & -> & Z1).
  - rewrite (signed_ub 8 z); [reflexivity|lia|]. intros B. apply LH. exists z. split; [reflexivity|lia].
  - rewrite (signed_ub 16 z); [reflexivity|lia|]. intros B. apply LH. exists z. split; [reflexivity|lia].
  - rewrite (signed_ub 32 z); [reflexivity|lia|]. intros B. apply LH. exists z. split; [reflexivity|lia].
Qed.
Print Assumptions C57_refuted_upper.
(** A variable without any such attribute has the value 0 of the known channels. *)
Theorem C57_default v ch : get_att (v_attrs v) "_FillValue" = None -> get_att (v_attrs v) "missing_value" = None -> (0 <= ch <= 12 -> GetNoDataValue v ch = Some 0%R) /\ (~ 0 <= ch <= 12 -> GetNoDataValue v ch = None).
Proof. intros A B. unfold GetNoDataValue, defaultPackedMissing. rewrite A, B. split; intros H; [now replace ((0 <=? ch) && (ch <? 13))%bool with true by lia|now replace ((0 <=? ch) && (ch <? 13))%bool with false by lia]. Qed.
Print Assumptions C57_default.
(** In a variable marked as unsigned the value has the bits of the attribute, read
    without a sign. *)
Theorem C57_unsigned v ch a : get_att (v_attrs v) "_FillValue" = Some a -> is_true (get_att (v_attrs v) "_Unsigned") = true ->
  forall bits s, (v_type v = NcByte /\ bits = 8 /\ s = as_byte a) \/ (v_type v = NcShort /\ bits = 16 /\ s = as_short a) \/ (v_type v = NcInt /\ bits = 32 /\ s = as_int a) ->
  exists n, GetNoDataValue v ch = Some (IZR n) /\ 0 <= n < 2 ^ bits /\ (2 ^ bits | n - s).
Proof.
  intros A U bits s H. unfold GetNoDataValue. rewrite A, U. exists (s mod 2 ^ bits).
  destruct H as [(-> & -> & ->) | [(-> & -> & ->) | (-> & -> & ->)]]; (split; [reflexivity|split; [apply Z.mod_pos_bound; lia|]]).
  all: match goal with |- (?m | ?x mod ?m - ?x) => exists (- (x / m)); pose proof (Z.div_mod x m); lia end.
Qed.
Print Assumptions C57_unsigned.
Example C57_unsigned_case : let v := mk_ncvar (codes "VIS006") NcShort [] [("_FillValue", AShort (-1)); ("_Unsigned", AText (codes "true"))] [] in
  get_att (v_attrs v) "_FillValue" = Some (AShort (-1)) /\ is_true (get_att (v_attrs v) "_Unsigned") = true /\ GetNoDataValue v 1 = Some 65535%R.
Proof. split; [reflexivity|split; reflexivity]. Qed.
Example C57_case : let b := mk_nband (codes "VIS006") GUInt16 None None (Some 1023%R) None (Some [1; 2]) in value_of (b_type b) (b_nodata b) /\ low_half (b_type b) (b_nodata b).
Proof. split; exists 1023; split; (reflexivity || lia). Qed.
Example C57_upper_case : let b := mk_nband (codes "VIS006") GByte None None (Some 255%R) None (Some [1; 2]) in value_of (b_type b) (b_nodata b) /\ ~ low_half (b_type b) (b_nodata b).
Proof. split; [exists 255; split; (reflexivity || lia)|]. intros (z & E & H). injection E as E. apply (eq_IZR 255 z) in E. lia. Qed.

(** ** C118 *)
(** The pixels written are those read, except in the 32 bit integer types. *)
Theorem C118_pixels_partial valid b xs ys vars vars' pix key bug : rasterBandToNcVar valid b xs ys vars = Ok (vars', true) -> b_pix b = Some pix -> 0 < xs < 2 ^ 31 -> 0 < ys < 2 ^ 31 -> b_type b <> GInt32 -> b_type b <> GUInt32 ->
  exists v, vars' = vars ++ [v] /\ is_band ["time"] (mk_ncvar (codes "x") (v_type v) (v_dims v) (v_attrs v) (v_data v)) = true /\
    let r := read_band key bug v in r_type r = b_type b /\ r_bx r = xs /\ r_by r = ys /\ IReadBlock r 0 0 = Ok (Some pix).
Proof.
  intros E P X Y N1 N2. unfold rasterBandToNcVar in E. destruct (target_type (b_type b)) as [[t u]|] eqn:T; [|discriminate]. destruct (negb (valid (b_name b)) || has_var vars (b_name b))%bool; [discriminate|]. destruct (fill_attr t (b_nodata b)) as [fv| | | |]; try discriminate. cbn [bind] in E. rewrite P in E. injection E as <-.
  eexists. split; [reflexivity|]. split; [reflexivity|]. cbn [v_type v_dims v_attrs v_data]. unfold read_band, IReadBlock, dim. cbn [v_type v_dims v_attrs v_data r_type r_bx r_by r_var nth].
  assert (XI : to_int xs = xs) by (apply to_int_fits; unfold int_fits; lia). assert (YI : to_int ys = ys) by (apply to_int_fits; unfold int_fits; lia). rewrite XI, YI.
  assert (RT : read_type t (is_true (get_att ([("add_offset", ADouble (b_offset b)); ("scale_factor", ADouble (b_scale b))] ++ (if u then [("_Unsigned", AText (codes "true"))] else []) ++ [("_FillValue", fv)]) "_Unsigned")) = b_type b) by (destruct (b_type b); try discriminate; injection T as <- <-; reflexivity).
  change (codes "true") with [116; 114; 117; 101] in RT. cbv zeta. cbn [app] in RT |- *. rewrite RT. repeat split. cbn [Z.eqb andb negb].
  destruct (b_type b); try discriminate; try contradiction; cbn [width]; now rewrite Z.ltb_irrefl.
Qed.
Print Assumptions C118_pixels_partial.
(** In those types reading any image writes outside of the buffer. *)
Theorem C118_refuted_long r : r_type r = GInt32 \/ r_type r = GUInt32 -> 0 < r_bx r -> 0 < r_by r -> IReadBlock r 0 0 = UB.
Proof. intros T X Y. unfold IReadBlock. cbn [Z.eqb andb negb]. destruct T as [-> | ->]; cbn [width]; replace (_ <? _) with true by nia; reflexivity. Qed.
Print Assumptions C118_refuted_long.
Example C118_case : exists vars, rasterBandToNcVar (fun _ => true) (mk_nband (codes "VIS006") GUInt16 (Some 0%R) (Some 1%R) (Some 0%R) None (Some [7; 8])) 2 1 [] = Ok (vars, true).
Proof. unfold rasterBandToNcVar. cbn [b_type b_name b_nodata b_offset b_scale b_pix target_type fill_attr negb has_var existsb orb]. rewrite (signed_ok 16 0) by lia. eexists. reflexivity. Qed.

(** ** C120 *)
(** A calendar: the day after a day. *)
Definition leap_year (y : Z) : bool := ((y mod 4 =? 0) && negb (y mod 100 =? 0)) || (y mod 400 =? 0).
Definition month_days (y m : Z) : Z := if m =? 2 then (if leap_year y then 29 else 28) else if (m =? 4) || (m =? 6) || (m =? 9) || (m =? 11) then 30 else 31.
Definition day_after (d : Z * Z * Z) : Z * Z * Z :=
  let '(y, m, d) := d in if d <? month_days y m then (y, m, d + 1) else if m <? 12 then (y, m + 1, 1) else (y + 1, 1, 1).
(** The date [n] days after the first of January of the year 1. *)
Definition date (n : nat) : Z * Z * Z := Nat.iter n day_after (1, 1, 1).
Definition day_number (d : Z * Z * Z) : Z := let '(y, m, d) := d in days_before y m + (d - 1).
Definition valid_date (d : Z * Z * Z) : Prop := let '(y, m, d) := d in 1 <= y /\ 1 <= m <= 12 /\ 1 <= d <= month_days y m.
Ltac months m := assert (m = 1 \/ m = 2 \/ m = 3 \/ m = 4 \/ m = 5 \/ m = 6 \/ m = 7 \/ m = 8 \/ m = 9 \/ m = 10 \/ m = 11 \/ m = 12) as M12 by lia;
  destruct M12 as [->|[->|[->|[->|[->|[->|[->|[->|[->|[->|[->| ->]]]]]]]]]]].
Lemma month_days_pos y m : 28 <= month_days y m <= 31.
Proof. unfold month_days. destruct (m =? 2), (leap_year y), (m =? 4), (m =? 6), (m =? 9), (m =? 11); cbn; lia. Qed.
Lemma day_after_valid d : valid_date d -> valid_date (day_after d).
Proof.
  destruct d as [[y m] d]. intros (Y & M & D). unfold day_after. destruct (d <? month_days y m) eqn:E; [cbn; lia|]. destruct (m <? 12) eqn:E2; cbn; [pose proof (month_days_pos y (m + 1)); lia|pose proof (month_days_pos (y + 1) 1); lia].
Qed.
Ltac eval_closed := repeat match goal with |- context [(?a mod 12)] => let v := eval vm_compute in (a mod 12) in change (a mod 12) with v end;
  repeat match goal with |- context [nth ?n ?l 0] => let v := eval vm_compute in (nth n l 0) in change (nth n l 0) with v end;
  repeat match goal with |- context [2 <=? ?k] => let v := eval vm_compute in (2 <=? k) in change (2 <=? k) with v end.
Lemma day_after_number d : valid_date d -> day_number (day_after d) = day_number d + 1.
Proof.
  destruct d as [[y m] d]. intros (Y & M & D). unfold day_after. destruct (d <? month_days y m) eqn:E; [cbn; lia|]. assert (DE : d = month_days y m) by lia. clear D E. subst d.
  destruct (m <? 12) eqn:E2; unfold day_number.
  - assert (Y1 : y + (m + 1 - 1) / 12 = y) by lia. assert (Y2 : y + (m - 1) / 12 = y) by lia. unfold days_before. rewrite Y1, Y2. clear Y1 Y2. unfold month_days, leap_year. months m; try discriminate; eval_closed; cbn [Z.eqb Pos.eqb orb];
      destruct (y mod 4 =? 0) eqn:A1, (y mod 100 =? 0) eqn:A2, (y mod 400 =? 0) eqn:A3; cbn [negb andb orb]; lia.
  - assert (m = 12) by lia. subst m. unfold days_before. replace (y + 1 + (1 - 1) / 12) with (y + 1) by lia. replace (y + (12 - 1) / 12) with y by lia. eval_closed. change (month_days y 12) with 31. replace (y + 1 - 1) with y by lia.
    destruct (y mod 4 =? 0) eqn:A1, (y mod 100 =? 0) eqn:A2, (y mod 400 =? 0) eqn:A3; cbn [negb andb orb]; rewrite ?Bool.andb_false_r; lia.
Qed.
Lemma date_number n : valid_date (date n) /\ day_number (date n) = day_number (1, 1, 1) + Z.of_nat n.
Proof.
  unfold date. induction n as [|n [V E]]; [split; [cbn; lia|cbn; lia]|]. cbn [Nat.iter nat_rect]. fold (Nat.iter n day_after (1, 1, 1)). split; [now apply day_after_valid|]. rewrite day_after_number by exact V. lia.
Qed.
(** The seconds from the start of the day [date k] to a minute of the day [date n]. *)
Definition seconds_between (k n : nat) (h mi s : Z) : Z := (Z.of_nat n - Z.of_nat k) * 86400 + h * 3600 + mi * 60 + s.
Lemma date_two n y m d : date n = (y, m, d) -> 1 <= y /\ 1 <= m <= 12 /\ 1 <= d <= 31.
Proof. intros E. destruct (date_number n) as [V _]. rewrite E in V. cbn in V. pose proof (month_days_pos y m). lia. Qed.
Lemma forecast_at k n y m d h mi s : date k = (2000, 1, 1) -> date n = (y, m, d) -> y <= 9999 -> two h -> two mi -> two s ->
  forecastSeconds2000 (iso_text y m d h mi s) = Ok (seconds_between k n h mi 0).
Proof.
  intros K N Y H MI SE. destruct (date_two _ _ _ _ N) as (Y1 & M1 & D1). unfold forecastSeconds2000. rewrite scan_free_iso by (unfold two in *; lia).
  replace (forallb int_fits _) with true by (symmetry; unfold two in *; cbn [forallb]; unfold int_fits; lia). cbn [negb]. f_equal. unfold seconds_between.
  destruct (date_number k) as [_ EK]. destruct (date_number n) as [_ EN]. rewrite K in EK. rewrite N in EN. unfold day_number in EK, EN. change (days_before 2000 1 + (1 - 1)) with 10957 in EK. lia.
Qed.
(** The time of a copy is the seconds since 2000 at full minutes, whatever the day. *)
Theorem C120_seconds_partial k n y m d h mi : date k = (2000, 1, 1) -> date n = (y, m, d) -> y <= 9999 -> two h -> two mi ->
  forecastSeconds2000 (iso_text y m d h mi 0) = Ok (seconds_between k n h mi 0).
Proof. intros K N Y H MI. apply forecast_at; try assumption. unfold two. lia. Qed.
Print Assumptions C120_seconds_partial.
(** The seconds of the time are lost. *)
Theorem C120_refuted_seconds k n y m d h mi s : date k = (2000, 1, 1) -> date n = (y, m, d) -> y <= 9999 -> two h -> two mi -> two s -> s <> 0 ->
  exists t, forecastSeconds2000 (iso_text y m d h mi s) = Ok t /\ t <> seconds_between k n h mi s.
Proof. intros K N Y H MI SE NZ. exists (seconds_between k n h mi 0). split; [now apply forecast_at|]. unfold seconds_between. lia. Qed.
Print Assumptions C120_refuted_seconds.
(** Texts that are no times are the first second of 2000. *)
Theorem C120_refuted_unreadable t : scan_free t = None -> forecastSeconds2000 t = Ok 0.
Proof. intros E. unfold forecastSeconds2000. now rewrite E. Qed.
Print Assumptions C120_refuted_unreadable.
Example C120_unreadable_case : scan_free (codes "2006-11-13T12:00:00") = None.
Proof. reflexivity. Qed.
Lemma date_eq (y m d y' m' d' : Z) : y = y' -> m = m' -> d = d' -> (y, m, d) = (y', m', d').
Proof. congruence. Qed.
(** Every date of the calendar is reached. *)
Lemma date_S n d : date n = d -> date (S n) = day_after d.
Proof. intros <-. reflexivity. Qed.
Lemma reach_day n y m k : date n = (y, m, 1) -> (Z.of_nat k < month_days y m) -> exists n', date n' = (y, m, 1 + Z.of_nat k).
Proof.
  intros E. induction k as [|k IH]; intros H; [exists n; rewrite E; apply date_eq; lia|]. destruct IH as (n' & E'); [lia|]. exists (S n'). rewrite (date_S _ _ E'). unfold day_after. replace (1 + Z.of_nat k <? month_days y m) with true by lia. apply date_eq; lia.
Qed.
Lemma reach_next n y m : date n = (y, m, 1) -> exists n', date n' = if m <? 12 then (y, m + 1, 1) else (y + 1, 1, 1).
Proof.
  intros E. pose proof (month_days_pos y m) as P. destruct (reach_day n y m (Z.to_nat (month_days y m - 1)) E ltac:(lia)) as (n' & E'). exists (S n'). rewrite (date_S _ _ E'). unfold day_after. now replace (1 + Z.of_nat (Z.to_nat (month_days y m - 1)) <? month_days y m) with false by lia.
Qed.
Lemma reach_month n y k : date n = (y, 1, 1) -> Z.of_nat k <= 11 -> exists n', date n' = (y, 1 + Z.of_nat k, 1).
Proof.
  intros E. induction k as [|k IH]; intros H; [exists n; rewrite E; apply date_eq; lia|]. destruct IH as (n' & E'); [lia|]. destruct (reach_next _ _ _ E') as (n2 & E2). exists n2. rewrite E2. replace (1 + Z.of_nat k <? 12) with true by lia. apply date_eq; lia.
Qed.
Lemma reach_year k : exists n, date n = (1 + Z.of_nat k, 1, 1).
Proof.
  induction k as [|k (n & E)]; [exists 0%nat; reflexivity|]. destruct (reach_month n _ 11 E ltac:(lia)) as (n' & E'). destruct (reach_next _ _ _ E') as (n2 & E2). exists n2. rewrite E2. change (1 + Z.of_nat 11 <? 12) with false. cbv iota. apply date_eq; lia.
Qed.
Theorem C120_calendar y m d : 1 <= y -> 1 <= m <= 12 -> 1 <= d <= month_days y m -> exists n, date n = (y, m, d).
Proof.
  intros Y M D. destruct (reach_year (Z.to_nat (y - 1))) as (n & E). destruct (reach_month n _ (Z.to_nat (m - 1)) E ltac:(lia)) as (n' & E'). replace (1 + Z.of_nat (Z.to_nat (y - 1))) with y in E' by lia. replace (1 + Z.of_nat (Z.to_nat (m - 1))) with m in E' by lia.
  destruct (reach_day n' y m (Z.to_nat (d - 1)) E' ltac:(lia)) as (n2 & E2). exists n2. rewrite E2. apply date_eq; lia.
Qed.
Print Assumptions C120_calendar.
Example C120_case : (exists k, date k = (2000, 1, 1)) /\ date 58 = (1, 2, 28) /\ date 59 = (1, 3, 1) /\ forecastSeconds2000 (iso_text 2006 11 13 12 10 0) = Ok 216735000.
Proof. split; [apply C120_calendar; cbn; lia|]. repeat split; vm_compute; reflexivity. Qed.
