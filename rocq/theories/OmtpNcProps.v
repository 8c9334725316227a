(** Properties C148 and C149: OpenMTP files converted to NetCDF. *)
From Coq Require Import Reals Lra.
From Flocq Require Import Core.
From Verif Require Import BaseFacts IniModel MachineModel ScanModel GeoModel PixModel GribModel GribProps NcModel NcProps NcCopyProps MsgTimeProps HriModel OmtpModel OmtpSpec OmtpProofs OmtpProps OmtpNcModel.
Open Scope string_scope.
Open Scope list_scope.
Open Scope Z_scope.

(** ** Specification *)
(** The pixels of a file, line after line. *)
Definition pixels (f : file) : list Z := List.concat (map (skipn 32) (f_lines f)).
(** A header of this satellite, field and time, without slash in its texts. *)
Record dated (f : file) (code field : str) (y m d hh mi : Z) : Prop := {
  da_code : firstn 2 (skipn 32 (f_sec1 f)) = code; da_sat : code = codes "M6" \/ code = codes "M7";
  da_field : exists rest, firstn 7 (skipn 1 (f_sec1 f)) ++ [0] = field ++ 0 :: rest; da_plain : Forall (fun c => c <> 0 /\ c <> 47) field;
  da_year : word (f_sec1 f) 8 = y; da_y : 1900 <= y <= 9999;
  da_date : exists c, 0 <= c /\ word (f_sec1 f) 24 = c * 10000 + m * 100 + d; da_m : 1 <= m <= 12; da_d : 1 <= d <= 31;
  da_time : word (f_sec1 f) 28 = hh * 100 + mi; da_hh : 0 <= hh <= 23; da_mi : 0 <= mi <= 59 }.
Definition satellite (code : str) : str := if str_eqb code (codes "M6") then codes "METEOSAT 6" else codes "METEOSAT 7".
Definition channel_name (chan : Z) : str := if chan =? 3 then codes "VIS" else if chan <=? 5 then codes "IR" else codes "WV".

Lemma read_eq hs fill o f r : file_ok f -> o_image o = None -> read hs fill o (file_bytes f ++ r) = Ok (mk_omtp (f_ascii f) (header_of f) (Some (pixels f)), mk_stream r false).
Proof.
  intros (H & NL & NP & P & LL & FL) O. destruct (headers_len f H) as (LA & _). destruct (header_ints hs f H) as [E1 E2].
  unfold read, file_bytes. rewrite <- !app_assoc. rewrite read_ascii_ok by assumption. cbn [bind]. rewrite read_header_ok by assumption. cbn [bind]. unfold read_image. rewrite E1, E2, O. cbn [bind].
  replace (int_ok (f_nlines f * f_npixels f)) with true by (unfold int_ok, int_max; nia). replace (f_nlines f * f_npixels f <? 0) with false by nia. cbn [bind].
  replace (Z.to_nat (f_nlines f)) with (List.length (f_lines f)) by lia. destruct (concat_pixels (f_npixels f) (f_lines f)) as [C1 C2]; [lia|assumption|].
  pose proof (read_lines_ok (f_npixels f) NP (f_lines f) 0 [] (repeat fill (Z.to_nat (f_nlines f * f_npixels f))) r FL eq_refl) as R. cbn [app] in R. rewrite repeat_length in R. rewrite R by nia.
  cbn [bind]. rewrite skipn_all2 by (rewrite repeat_length; nia). now rewrite app_nil_r.
Qed.
Lemma head_word f off : headers_ok f -> (off + 4 <= 200)%nat -> word (header_of f) off = word (f_sec1 f) off.
Proof. intros H L. destruct (headers_len f H) as (_ & L1 & _). unfold header_of. apply word_app. rewrite L1. unfold sec1_len. lia. Qed.
Lemma head_text f off n : headers_ok f -> (off + n <= 200)%nat -> text_at (header_of f) off n = Ok (c_string (firstn n (skipn off (f_sec1 f)))).
Proof.
  intros H L. destruct (headers_len f H) as (_ & L1 & _). unfold sec1_len in L1. unfold text_at, header_of. rewrite bytes_at_ok by (rewrite app_length; lia). cbn [bind]. do 2 f_equal.
  rewrite skipn_app, firstn_app. replace (n - _)%nat with 0%nat by (rewrite skipn_length; lia). cbn [firstn]. now rewrite app_nil_r.
Qed.
Lemma head_length f : headers_ok f -> (139 <= List.length (header_of f))%nat.
Proof. intros H. destruct (headers_len f H) as (_ & L1 & _). unfold sec1_len in L1. unfold header_of. rewrite app_length. lia. Qed.
Lemma upto_field l rest : Forall (fun c => c <> 0 /\ c <> 47) l -> upto_nul (l ++ 0 :: rest) = Some l.
Proof. induction 1 as [|c l [C _] _ IH]; [reflexivity|]. cbn [app upto_nul]. replace (c =? 0) with false by lia. now rewrite IH. Qed.
Lemma no_slash l : Forall (fun c => c <> 0 /\ c <> 47) l -> existsb (Z.eqb 47) l = false.
Proof. induction 1 as [|c l [_ C] _ IH]; [reflexivity|]. cbn [existsb]. rewrite IH. replace (47 =? c) with false by lia. reflexivity. Qed.
Lemma four_plain v : 0 <= v <= 9999 -> existsb (Z.eqb 47) (four_digits v) = false.
Proof. intros V. unfold four_digits, digit_char. cbn [map existsb]. replace (47 =? 48 + v / 1000) with false by lia. replace (47 =? 48 + v / 100 mod 10) with false by lia. replace (47 =? 48 + v / 10 mod 10) with false by lia. replace (47 =? 48 + v mod 10) with false by lia. reflexivity. Qed.
Lemma chan_words hs f : headers_ok f -> forall c, chan_is hs (header_of f) c = Ok (f_chan f =? c).
Proof. intros H c. unfold chan_is. rewrite int4_word by (pose proof (head_length f H); lia). cbn [bind]. now rewrite head_word by (assumption || lia). Qed.
Definition name_of (code field : str) (y m d hh mi : Z) : str := code ++ [95] ++ field ++ [95] ++ four_digits y ++ four_digits (m * 100 + d) ++ [95] ++ four_digits (hh * 100 + mi) ++ codes ".nc".
Definition made (sat ch : str) (t fac coff loff scale np nl : Z) (reft : str) (lon : num) (px : list Z) : ncfile :=
  mk_ncfile
    [("Satellite", AText sat); ("Time", AText reft); ("Columns", AInt (np * scale)); ("Lines", AInt (nl * scale));
     ("SampleX", AFloat (Some (IZR scale))); ("SampleY", AFloat (Some (IZR scale)));
     ("Column_Scale_Factor", AInt fac); ("Line_Scale_Factor", AInt fac); ("Column_Offset", AInt coff); ("Line_Offset", AInt loff);
     ("Longitude", AFloat lon)]
    [mk_ncvar (codes "calibration") NcFloat [256] [] []; time_var t;
     mk_ncvar ch NcByte [1; nl; np] [("add_offset", ADouble (Some 0%R)); ("scale_factor", ADouble (Some 1%R))] px].
Lemma field_length f code field y m d hh mi : dated f code field y m d hh mi -> (List.length field <= 7)%nat.
Proof. intros [_ _ (rest & E) _ _ _ _ _ _ _ _ _]. apply (f_equal (@List.length Z)) in E. rewrite !app_length in E. cbn [List.length] in E. rewrite firstn_length in E. lia. Qed.
Lemma date_times hs f code field y m d hh mi : headers_ok f -> dated f code field y m d hh mi ->
  get_datetime hs (header_of f) = Ok (mk_tm (y - 1900) (m - 1) d hh mi) /\ get_timestr hs (header_of f) = Ok (four_digits y ++ four_digits (m * 100 + d) ++ [95] ++ four_digits (hh * 100 + mi)) /\
  text_at (header_of f) 32 2 = Ok code /\ get_field_name (header_of f) = Ok field.
Proof.
  intros H [A1 A2 (rest & A3) A4 A5 A6 (c & C & A7) A8 A9 A10 A11 A12]. destruct (C89_datetime hs (header_of f) y c m d hh mi) as [-> ->]; try (assumption || rewrite head_word by (assumption || lia); assumption); [now apply head_length|].
  split; [reflexivity|]. split; [reflexivity|]. unfold get_field_name. rewrite !head_text by (assumption || lia). rewrite A1. split; f_equal; unfold c_string.
  - destruct A2 as [-> | ->]; reflexivity.
  - rewrite A3. now rewrite upto_field.
Qed.
Lemma reftime_iso y m d hh mi : 0 <= y <= 9999 -> two m -> two d -> two hh -> two mi -> reftime (mk_tm (y - 1900) (m - 1) d hh mi) = iso_text y m d hh mi 0 ++ 32 :: codes "UTC".
Proof.
  intros Y M D H I. unfold reftime. cbn [tm_year tm_mon tm_mday tm_hour tm_min]. replace (y - 1900 + 1900) with y by lia. replace (m - 1 + 1) with m by lia. rewrite zpad4, !zpad2 by assumption. reflexivity.
Qed.
Lemma convert_eq hs lon f code field y m d hh mi px fac coff loff scale : headers_ok f -> dated f code field y m d hh mi -> geometry hs (header_of f) = Ok (fac, coff, loff, scale) -> 3 <= f_chan f <= 7 ->
  exists t, convert hs lon (mk_omtp (f_ascii f) (header_of f) (Some px)) =
    Ok (name_of code field y m d hh mi, made (satellite code) (channel_name (f_chan f)) t fac coff loff scale (f_npixels f) (f_nlines f) (iso_text y m d hh mi 0 ++ 32 :: codes "UTC") lon px).
Proof.
  intros H D G CH. destruct (date_times hs f code field y m d hh mi H D) as (T1 & T2 & T3 & T4). destruct (header_ints hs f H) as [E1 E2]. pose proof (field_length _ _ _ _ _ _ _ _ D) as FL.
  pose proof D as [A1 A2 _ A4 A5 A6 _ A8 A9 A10 A11 A12]. unfold convert. cbn [o_header o_image]. rewrite T1. cbn [bind]. rewrite T3. cbn [bind]. rewrite T4. cbn [bind]. rewrite T2. cbn [bind]. cbv zeta.
  assert (NS : existsb (Z.eqb 47) (code ++ [95] ++ field ++ [95] ++ (four_digits y ++ four_digits (m * 100 + d) ++ [95] ++ four_digits (hh * 100 + mi)) ++ codes ".nc") = false).
  { rewrite !existsb_app. rewrite (no_slash field), !four_plain by (assumption || lia). destruct A2 as [-> | ->]; reflexivity. }
  rewrite NS. assert (SN : exists s, get_satellite_name (header_of f) = Ok s /\ codes s = satellite code).
  { unfold get_satellite_name. rewrite T3. cbn [bind]. unfold str_eq, satellite, str_eqb. destruct A2 as [-> | ->]; eexists; (split; [reflexivity|reflexivity]). }
  destruct SN as (s & -> & SC). cbn [bind]. rewrite G. cbn [bind]. rewrite E1, E2. cbn [bind]. rewrite reftime_iso by (unfold two; lia).
  assert (LT : (64 <=? Z.of_nat (List.length (codes "OpenMTP " ++ field ++ codes " product for " ++ iso_text y m d hh mi 0 ++ 32 :: codes "UTC"))) = false).
  { rewrite !app_length. change (List.length (codes "OpenMTP ")) with 8%nat. change (List.length (codes " product for ")) with 13%nat. change (List.length (iso_text y m d hh mi 0)) with 19%nat. cbn [List.length codes]. lia. }
  rewrite LT. assert (CN : exists ch, get_chname hs (header_of f) = Ok ch /\ codes ch = channel_name (f_chan f)).
  { unfold get_chname, is_vis_data, is_ir_data, is_wv_data, is_visible_composite. rewrite !chan_words by assumption. cbn [bind]. unfold channel_name. assert (C : f_chan f = 3 \/ f_chan f = 4 \/ f_chan f = 5 \/ f_chan f = 6 \/ f_chan f = 7) by lia. destruct C as [-> | [-> | [-> | [-> | ->]]]]; eexists; (split; [reflexivity|reflexivity]). }
  destruct CN as (ch & -> & CC). cbn [bind]. eexists. unfold name_of, made. rewrite SC, CC. rewrite <- !app_assoc. reflexivity.
Qed.
Lemma geometry_A hs f : headers_ok f -> full_A (f_chan f) (f_nlines f) (f_npixels f) -> exists fac coff loff, geometry hs (header_of f) = Ok (fac, coff, loff, 1) /\
  (fac, coff, loff) = if f_chan f =? 3 then (-18204444, 2500, 2500) else (-9102222, 1248, 1249).
Proof.
  intros H A. destruct (header_ints hs f H) as [E1 E2]. unfold geometry, is_A_format, is_vis_data, is_ir_data, is_wv_data, is_visible_composite. rewrite !chan_words by assumption. cbn [bind]. rewrite E1, E2. cbn [bind].
  destruct A as [(C & -> & ->)|(-> & -> & ->)].
  - assert (X : f_chan f = 4 \/ f_chan f = 5 \/ f_chan f = 6 \/ f_chan f = 7) by lia. destruct X as [-> | [-> | [-> | ->]]]; (eexists; eexists; eexists; split; reflexivity).
  - eexists. eexists. eexists. split; reflexivity.
Qed.
Lemma float_one_float : float_one (Some (AFloat (Some (IZR 1)))) = true.
Proof. exact float_one_1. Qed.
Lemma float_two : float_one (Some (AFloat (Some (IZR 2)))) = false.
Proof.
  unfold float_one, as_float, as_double, num_is_one. rewrite float_back; [destruct (Req_EM_T 2 1); [exfalso; lra|reflexivity]|]. unfold StretchFloat.float. apply generic_format_FLX. exists (Float radix2 2 0); [unfold F2R; cbn; lra|cbn; lia].
Qed.

Section Reopen.
Variable number_text : attr -> str.
(** ** C148 *)
(** The file of a full image, opened with the NetCDF driver: satellite, minute, size
    and pixels are those of the OpenMTP file, in one band of bytes that has the name
    of the channel. *)
Theorem C148_reopened_partial hs fill lon a h0 f r code field y m d hh mi : file_ok f -> dated f code field y m d hh mi -> full_A (f_chan f) (f_nlines f) (f_npixels f) ->
  exists nc ds bd, OpenMTP_to_NetCDF hs fill lon a h0 (file_bytes f ++ r) = Ok (name_of code field y m d hh mi, nc) /\ open_nc number_text nc = Some ds /\
    d_size ds = Some (f_npixels f, f_nlines f) /\ d_sat ds = Some (satellite code) /\ d_time ds = iso_text y m d hh mi 0 /\ d_lon ds = Some (as_float (AFloat lon)) /\
    d_bands ds = [bd] /\ v_name (r_var bd) = channel_name (f_chan f) /\ r_type bd = GByte /\ r_offset bd = Some 0%R /\ band_scale (r_var bd) = Some 1%R /\ IReadBlock bd 0 0 = Ok (Some (pixels f)).
Proof.
  intros F D A. pose proof F as (H & NL & NP & P & LL & FL). destruct (geometry_A hs f H A) as (fac & coff & loff & G & _).
  assert (CH : 3 <= f_chan f <= 7) by (unfold full_A in A; lia). assert (SZ : (f_npixels f = 2500 /\ f_nlines f = 2500) \/ (f_npixels f = 5000 /\ f_nlines f = 5000)) by (unfold full_A in A; lia).
  destruct (convert_eq hs lon f code field y m d hh mi (pixels f) fac coff loff 1 H D G CH) as (t & C). unfold OpenMTP_to_NetCDF. rewrite read_eq by (assumption || reflexivity). cbn [bind]. rewrite C.
  eexists. eexists. eexists. split; [reflexivity|]. pose proof D as [A1 A2 _ A4 A5 A6 _ A8 A9 A10 A11 A12]. unfold open_nc, made. cbn [f_attrs f_vars get_att String.eqb Ascii.eqb Bool.eqb]. rewrite float_one_float. cbn [negb]. cbv zeta.
  unfold attr_text. cbn [get_att String.eqb Ascii.eqb Bool.eqb as_text]. rewrite scan_iso_text by (unfold two; lia).
  set (v := mk_ncvar _ NcByte _ _ _). assert (FI : filter (is_band ["time"]) [mk_ncvar (codes "calibration") NcFloat [256] [] []; time_var t; v] = [v]).
  { assert (B3 : is_band ["time"] v = true) by (unfold is_band, v, channel_name; cbn [v_name v_dims]; destruct (f_chan f =? 3); [reflexivity|]; destruct (f_chan f <=? 5); reflexivity). cbn [filter]. rewrite B3. reflexivity. }
  rewrite FI. clear FI. cbn [map]. split; [reflexivity|]. cbn [d_size d_sat d_time d_bands d_lon]. unfold read_band at 1 2. cbn [r_bx r_by]. unfold dim, v. cbn [v_dims nth]. unfold to_int.
  split; [destruct SZ as [[-> ->]|[-> ->]]; reflexivity|]. split; [unfold satellite; destruct (str_eqb _ _); reflexivity|]. split; [apply time_text_iso; (unfold two; lia)|]. split; [reflexivity|]. split; [reflexivity|]. split; [reflexivity|]. split; [reflexivity|].
  split; [|split; [reflexivity|]].
  - unfold read_band, band_offset. cbn [v_attrs get_att String.eqb Ascii.eqb Bool.eqb as_double num_is_one r_offset]. destruct (_ && _); reflexivity.
  - unfold read_band, IReadBlock. cbn [Z.eqb andb negb r_type r_bx r_by r_var v_type v_attrs v_data read_type width]. rewrite Z.ltb_irrefl. reflexivity.
Qed.
Print Assumptions C148_reopened_partial.

(** Files of the B format are written, but with a sampling of 2: the driver refuses
    each of them. *)
Theorem C148_refuted_sampled hs fill lon a h0 f r code field y m d hh mi : file_ok f -> dated f code field y m d hh mi -> sub_B (f_chan f) (f_nlines f) (f_npixels f) (word (f_sec1 f) 123) ->
  exists nc, OpenMTP_to_NetCDF hs fill lon a h0 (file_bytes f ++ r) = Ok (name_of code field y m d hh mi, nc) /\ open_nc number_text nc = None.
Proof.
  intros F D B. pose proof F as (H & NL & NP & P & LL & FL). destruct (header_ints hs f H) as [E1 E2]. assert (CH : 3 <= f_chan f <= 7) by (unfold sub_B in B; lia).
  assert (G : geometry hs (header_of f) = Ok (-18204444, 1248, -1118, 2)).
  { unfold geometry, is_A_format, is_B_format, is_vis_data, is_ir_data, is_wv_data, is_visible_composite. rewrite !chan_words by assumption. cbn [bind]. rewrite E1, E2. cbn [bind]. unfold first_line. rewrite int4_word by (pose proof (head_length f H); lia). rewrite head_word by (assumption || lia). cbn [bind].
    destruct B as [(C & -> & -> & ->)|(-> & -> & -> & ->)]; [|reflexivity]. assert (X : f_chan f = 4 \/ f_chan f = 5 \/ f_chan f = 6 \/ f_chan f = 7) by lia. destruct X as [-> | [-> | [-> | ->]]]; reflexivity. }
  destruct (convert_eq hs lon f code field y m d hh mi (pixels f) _ _ _ _ H D G CH) as (t & C). unfold OpenMTP_to_NetCDF. rewrite read_eq by (assumption || reflexivity). cbn [bind]. rewrite C. eexists. split; [reflexivity|].
  unfold open_nc, made. cbn [f_attrs f_vars get_att String.eqb Ascii.eqb Bool.eqb]. rewrite float_two. reflexivity.
Qed.
Print Assumptions C148_refuted_sampled.

(** The time of every file that is written is the seconds from the start of 2000 to the
    minute in the header. *)
Theorem C148_time hs fill lon a h0 f r code field y m d hh mi k n name nc : file_ok f -> dated f code field y m d hh mi -> date k = (2000, 1, 1) -> date n = (y, m, d) ->
  OpenMTP_to_NetCDF hs fill lon a h0 (file_bytes f ++ r) = Ok (name, nc) -> In (time_var (seconds_between k n hh mi 0)) (f_vars nc).
Proof.
  intros F D K N. pose proof F as (H & _). unfold OpenMTP_to_NetCDF. rewrite read_eq by (assumption || reflexivity). cbn [bind]. destruct (date_times hs f code field y m d hh mi H D) as (T1 & T2 & T3 & T4). unfold convert. cbn [o_header o_image]. rewrite T1. cbn [bind]. rewrite T3. cbn [bind]. rewrite T4. cbn [bind]. rewrite T2. cbn [bind]. cbv zeta.
  destruct (existsb _ _); try discriminate. destruct (get_satellite_name _); cbn [bind]; try discriminate. destruct (geometry _ _) as [[[[fac coff] loff] scale]| | | |]; cbn [bind]; try discriminate. destruct (npixels _ _); cbn [bind]; try discriminate. destruct (nlines _ _); cbn [bind]; try discriminate. destruct (64 <=? _); try discriminate.
  destruct (get_chname _ _); cbn [bind]; try discriminate. intros E. injection E as _ <-. cbn [f_vars]. right. left. f_equal. cbn [tm_year tm_mon tm_mday tm_hour tm_min].
  destruct (date_number k) as [_ EK]. destruct (date_number n) as [_ EN]. rewrite K in EK. rewrite N in EN. unfold day_number in EK, EN. change (days_before 2000 1 + (1 - 1)) with 10957 in EK. unfold seconds_between.
  replace (y - 1900 + 1900) with y by lia. replace (m - 1 + 1) with m by lia. lia.
Qed.
Print Assumptions C148_time.
(** No file that is written says where its first pixel is or which channel it has: the
    driver has no geotransform for it, and channel 0. *)
Theorem C148_refuted_position hs fill lon a h0 bytes name nc ds bd : OpenMTP_to_NetCDF hs fill lon a h0 bytes = Ok (name, nc) -> gt_nc nc = Ok None /\ (open_nc number_text nc = Some ds -> In bd (d_bands ds) -> r_chan bd = 0).
Proof.
  unfold OpenMTP_to_NetCDF. destruct (read _ _ _ _) as [[o s]| | | |]; cbn [bind]; try discriminate. unfold convert. cbv zeta.
  destruct (get_datetime _ _); cbn [bind]; try discriminate. destruct (text_at _ _ _); cbn [bind]; try discriminate. destruct (get_field_name _); cbn [bind]; try discriminate. destruct (get_timestr _ _); cbn [bind]; try discriminate.
  destruct (existsb _ _); try discriminate. destruct (get_satellite_name _); cbn [bind]; try discriminate. destruct (geometry _ _) as [[[[fac coff] loff] scale]| | | |]; cbn [bind]; try discriminate. destruct (npixels _ _); cbn [bind]; try discriminate. destruct (nlines _ _); cbn [bind]; try discriminate. destruct (64 <=? _); try discriminate.
  destruct (get_chname _ _); cbn [bind]; try discriminate. destruct (o_image o); try discriminate. intros E. injection E as _ <-. split; [reflexivity|]. unfold open_nc. cbn [f_attrs f_vars get_att String.eqb Ascii.eqb Bool.eqb]. destruct (float_one _); cbn [negb]; [|discriminate]. cbv zeta.
  destruct (scan_iso _); [|discriminate]. intros E I. injection E as <-. cbn [d_bands] in I. apply in_map_iff in I. destruct I as (v & <- & I). destruct (is_band _ _); [destruct I as [<-|[]]; reflexivity|destruct I].
Qed.
Print Assumptions C148_refuted_position.
End Reopen.

(** A header with a year and a time of ten digits, the time negative, and a field name
    of seven characters: the title is longer than the array that it is printed to.
    Nothing checks these numbers. *)
Lemma print_from_length fuel : forall n z acc, (n < fuel)%nat -> 10 ^ Z.of_nat n <= z -> (S n + List.length acc <= List.length (print_from fuel z acc))%nat.
Proof.
  induction fuel as [|fuel IH]; intros n z acc L B; [lia|]. rewrite print_step. destruct n as [|n].
  - assert (X : forall f z acc, (List.length acc <= List.length (print_from f z acc))%nat). { clear. induction f as [|f IH]; intros z acc; [cbn; lia|]. rewrite print_step. destruct (z <? 10); [cbn [List.length]; lia|]. specialize (IH (z / 10) ((48 + z mod 10) :: acc)). cbn [List.length] in IH. lia. }
    destruct (z <? 10); [cbn [List.length]; lia|]. specialize (X fuel (z / 10) ((48 + z mod 10) :: acc)). cbn [List.length] in X. lia.
  - replace (Z.of_nat (S n)) with (Z.of_nat n + 1) in B by lia. rewrite Z.pow_add_r in B by lia. change (10 ^ 1) with 10 in B. assert (0 < 10 ^ Z.of_nat n) by (apply Z.pow_pos_nonneg; lia). replace (z <? 10) with false by lia.
    specialize (IH n (z / 10) ((48 + z mod 10) :: acc) ltac:(lia) ltac:(lia)). cbn [List.length] in IH. lia.
Qed.
Lemma zpad_length w z : (w <= List.length (zpad w z))%nat.
Proof. unfold zpad. destruct (z <? 0); cbn [List.length]; rewrite app_length, repeat_length; lia. Qed.
Lemma zpad_long w n z : (n < 19)%nat -> 10 ^ Z.of_nat n <= Z.abs z -> (S n + (if (z <? 0)%Z then 1 else 0) <= List.length (zpad w z))%nat.
Proof.
  intros N B. unfold zpad, print. destruct (z <? 0) eqn:E; cbn [List.length]; rewrite app_length.
  - pose proof (print_from_length 19 n (- z) [] N ltac:(lia)) as P. cbn [List.length] in P. lia.
  - pose proof (print_from_length 19 n z [] N ltac:(lia)) as P. cbn [List.length] in P. lia.
Qed.
Lemma fmt04_plain v : existsb (Z.eqb 47) (fmt04 v) = false.
Proof.
  assert (D : forall fuel v, 0 <= v -> existsb (Z.eqb 47) (digits_of fuel v) = false).
  { clear. induction fuel as [|fuel IH]; intros v V; cbn [digits_of]; [reflexivity|]. destruct (v <? 10) eqn:E; [cbn [existsb]; lia|]. rewrite existsb_app, IH by lia. cbn [existsb]. lia. }
  assert (R : forall n, existsb (Z.eqb 47) (repeat 48 n) = false) by (induction n; [reflexivity|assumption]).
  unfold fmt04. destruct (v <? 0) eqn:E; cbv zeta; [cbn [existsb]|]; rewrite existsb_app, R, D by lia; reflexivity.
Qed.
Theorem C148_refuted_title hs fill lon a h0 f r code field : file_ok f -> full_A (f_chan f) (f_nlines f) (f_npixels f) ->
  firstn 2 (skipn 32 (f_sec1 f)) = code -> code = codes "M6" \/ code = codes "M7" -> firstn 7 (skipn 1 (f_sec1 f)) = field -> Forall (fun c => c <> 0 /\ c <> 47) field ->
  1000000000 <= Z.abs (word (f_sec1 f) 8) -> word (f_sec1 f) 28 <= -1000000000 ->
  OpenMTP_to_NetCDF hs fill lon a h0 (file_bytes f ++ r) = UB.
Proof.
  intros F A A1 A2 A3 A4 Y T. pose proof F as (H & NL & NP & P & LL & FL). destruct (header_ints hs f H) as [E1 E2]. destruct (geometry_A hs f H A) as (fac & coff & loff & G & _). pose proof (head_length f H) as HL.
  unfold OpenMTP_to_NetCDF. rewrite read_eq by (assumption || reflexivity). cbn [bind]. unfold convert. cbn [o_header o_image]. unfold get_datetime at 1. rewrite !int4_word by lia. rewrite !head_word by (assumption || lia). cbn [bind]. set (y := word (f_sec1 f) 8) in *. set (t := word (f_sec1 f) 28) in *. set (dt := word (f_sec1 f) 24).
  destruct (negb (int_ok (y - 1900))); [reflexivity|]. cbn [bind]. rewrite head_text by (assumption || lia). cbn [bind]. unfold get_field_name. rewrite head_text by (assumption || lia). cbn [bind]. unfold get_timestr. rewrite !int4_word by lia. rewrite !head_word by (assumption || lia). cbn [bind]. cbv zeta. rewrite A1, A3.
  assert (CF : c_string field = field) by (unfold c_string; now rewrite upto_field). assert (CC : c_string code = code) by (destruct A2 as [-> | ->]; reflexivity). rewrite CF, CC.
  match goal with |- (if ?b then _ else _) = _ => assert (NS : b = false) end.
  { rewrite !existsb_app. rewrite (no_slash field) by assumption. assert (FN : forall n l, existsb (Z.eqb 47) l = false -> existsb (Z.eqb 47) (firstn n l) = false). { clear. intros n l. revert n. induction l as [|c l IH]; intros [|n]; cbn [firstn existsb]; try reflexivity. intros E. apply orb_false_iff in E. destruct E as [-> E]. now rewrite IH. }
    rewrite FN by (rewrite !existsb_app, !fmt04_plain; reflexivity). destruct A2 as [-> | ->]; reflexivity. }
  rewrite NS. assert (SN : exists s, get_satellite_name (header_of f) = Ok s).
  { unfold get_satellite_name. rewrite head_text by (assumption || lia). rewrite A1, CC. cbn [bind]. unfold str_eq. destruct A2 as [-> | ->]; eexists; reflexivity. }
  destruct SN as (s & ->). cbn [bind]. rewrite G. cbn [bind]. rewrite E1, E2. cbn [bind].
  match goal with |- (if ?b then _ else _) = _ => replace b with true; [reflexivity|] end. symmetry. apply Z.leb_le. rewrite !app_length. change (List.length (codes "OpenMTP ")) with 8%nat. change (List.length (codes " product for ")) with 13%nat.
  assert (LF : List.length field = 7%nat) by (rewrite <- A3, firstn_length, skipn_length; destruct (headers_len f H) as (_ & -> & _); unfold sec1_len; lia). rewrite LF. unfold reftime. cbn [tm_year tm_mon tm_mday tm_hour tm_min]. rewrite !app_length. cbn [List.length codes].
  replace (y - 1900 + 1900) with y by lia. pose proof (zpad_long 4 9 y ltac:(lia) ltac:(cbn; lia)) as L1. assert (TH : Z.quot t 100 <= -10000000) by (rewrite <- (Z.opp_involutive t), Z.quot_opp_l, Z.quot_div_nonneg by lia; lia).
  pose proof (zpad_long 2 7 (Z.quot t 100) ltac:(lia) ltac:(cbn; lia)) as L2. replace (Z.quot t 100 <? 0) with true in L2 by lia.
  repeat match goal with |- context [List.length (zpad 2 ?x)] => lazymatch goal with H : (2 <= List.length (zpad 2 x))%nat |- _ => fail | _ => pose proof (zpad_length 2 x) end end. destruct (y <? 0); lia.
Qed.
Print Assumptions C148_refuted_title.

(** A full infrared image of METEOSAT 7. *)
Definition ex_sec1 : list Z :=
  codes "xIR_FULL" ++ be 4 2004 ++ repeat 0 12 ++ be 4 40229 ++ be 4 1830 ++ codes "M7" ++ [0; 0] ++ be 4 4 ++ be 4 4 ++ repeat 0 79 ++ be 4 1 ++ repeat 0 4 ++ be 4 2500 ++ be 4 2500 ++ repeat 0 (Z.to_nat 5036).
Definition ex_file : file := mk_file (repeat 65 (Z.to_nat 1345)) ex_sec1 (repeat 5 (Z.to_nat 2636)) (repeat 6 (Z.to_nat 136704)) (repeat (repeat 1 32 ++ repeat 7 (Z.to_nat 2500)) (Z.to_nat 2500)).
Example C148_case : file_ok ex_file /\ dated ex_file (codes "M7") (codes "IR_FULL") 2004 2 29 18 30 /\ full_A (f_chan ex_file) (f_nlines ex_file) (f_npixels ex_file).
Proof.
  assert (N : f_nlines ex_file = 2500 /\ f_npixels ex_file = 2500 /\ f_chan ex_file = 4) by (vm_compute; repeat split; reflexivity). destruct N as (N1 & N2 & N3). split; [|split].
  - unfold file_ok, headers_ok. rewrite N1, N2, N3. unfold ex_file. cbn [f_ascii f_sec1 f_sec2 f_sec3 f_lines]. rewrite !repeat_length. repeat split; try lia. apply Forall_forall. intros l I. apply repeat_spec in I. subst l. rewrite app_length, !repeat_length. lia.
  - constructor; try lia; try (vm_compute; reflexivity); [now right|exists []; vm_compute; reflexivity|change (codes "IR_FULL") with [73; 82; 95; 70; 85; 76; 76]; repeat (apply Forall_cons; [split; discriminate|]); apply Forall_nil|exists 4; split; [lia|vm_compute; reflexivity]].
  - rewrite N1, N2, N3. left. lia.
Qed.

(** ** C149 *)
(** Names of files tell satellites, fields and minutes apart, and nothing else. *)
Theorem C149_names hs fill lon a h0 f r f' r' code field y m d hh mi code' field' y' m' d' hh' mi' name nc name' nc' :
  file_ok f -> dated f code field y m d hh mi -> file_ok f' -> dated f' code' field' y' m' d' hh' mi' ->
  OpenMTP_to_NetCDF hs fill lon a h0 (file_bytes f ++ r) = Ok (name, nc) -> OpenMTP_to_NetCDF hs fill lon a h0 (file_bytes f' ++ r') = Ok (name', nc') ->
  (name = name' <-> (code, field, y, m, d, hh, mi) = (code', field', y', m', d', hh', mi')).
Proof.
  intros F D F' D' E E'. assert (X : forall f r code field y m d hh mi name nc, file_ok f -> dated f code field y m d hh mi -> OpenMTP_to_NetCDF hs fill lon a h0 (file_bytes f ++ r) = Ok (name, nc) -> name = name_of code field y m d hh mi).
  { clear. intros f r code field y m d hh mi name nc F D. pose proof F as (H & _). unfold OpenMTP_to_NetCDF. rewrite read_eq by (assumption || reflexivity). cbn [bind]. destruct (date_times hs f code field y m d hh mi H D) as (T1 & T2 & T3 & T4). unfold convert. cbn [o_header o_image]. rewrite T1. cbn [bind]. rewrite T3. cbn [bind]. rewrite T4. cbn [bind]. rewrite T2. cbn [bind]. cbv zeta.
    destruct (existsb _ _); try discriminate. destruct (get_satellite_name _); cbn [bind]; try discriminate. destruct (geometry _ _) as [[[[fac coff] loff] scale]| | | |]; cbn [bind]; try discriminate. destruct (npixels _ _); cbn [bind]; try discriminate. destruct (nlines _ _); cbn [bind]; try discriminate. destruct (64 <=? _); try discriminate.
    destruct (get_chname _ _); cbn [bind]; try discriminate. intros E. apply Ok_inj in E. apply (f_equal fst) in E. cbn [fst] in E. rewrite <- E. unfold name_of. now rewrite <- !app_assoc. }
  rewrite (X _ _ _ _ _ _ _ _ _ _ _ F D E), (X _ _ _ _ _ _ _ _ _ _ _ F' D' E'). clear X E E'. split; [|now intros [= <- <- <- <- <- <- <-]].
  destruct D as [_ A2 _ _ _ A6 _ A8 A9 _ A11 A12], D' as [_ B2 _ _ _ B6 _ B8 B9 _ B11 B12]. unfold name_of. intros Q.
  apply app_inj_len in Q; [|destruct A2 as [-> | ->], B2 as [-> | ->]; reflexivity]. destruct Q as [<- Q]. apply app_inj_len in Q; [|reflexivity]. destruct Q as [_ Q].
  assert (Q2 : field = field' /\ [95] ++ four_digits y ++ four_digits (m * 100 + d) ++ [95] ++ four_digits (hh * 100 + mi) ++ codes ".nc" = [95] ++ four_digits y' ++ four_digits (m' * 100 + d') ++ [95] ++ four_digits (hh' * 100 + mi') ++ codes ".nc").
  { apply app_inj_len; [|exact Q]. apply (f_equal (@List.length Z)) in Q. rewrite !app_length in Q. unfold four_digits in Q. cbn [List.length map codes] in Q. lia. }
  destruct Q2 as [<- Q2]. apply app_inj_len in Q2; [|reflexivity]. destruct Q2 as [_ Q2]. apply app_inj_len in Q2; [|reflexivity]. destruct Q2 as [Y Q2]. apply app_inj_len in Q2; [|reflexivity]. destruct Q2 as [M Q2]. apply app_inj_len in Q2; [|reflexivity]. destruct Q2 as [_ Q2]. apply app_inj_len in Q2; [|reflexivity]. destruct Q2 as [T _].
  apply four_digits_inj in Y; [|lia..]. apply four_digits_inj in M; [|lia..]. apply four_digits_inj in T; [|lia..]. assert (m = m') by lia. assert (d = d') by lia. assert (hh = hh') by lia. assert (mi = mi') by lia. congruence.
Qed.
Print Assumptions C149_names.
Example C149_case : name_of (codes "M7") (codes "IR_FULL") 2004 2 29 18 30 = codes "M7_IR_FULL_20040229_1830.nc".
Proof. vm_compute. reflexivity. Qed.
