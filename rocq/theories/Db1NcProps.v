(** Property C142: NetCDF files made from ThornSDS DB1 directories, read back with the
    NetCDF driver. *)
From Coq Require Import Reals Lra.
From Verif Require Import BaseFacts IniModel IniSpec IniProofs IniFile IniProps MachineModel FactsModel ScanModel GeoModel PixModel GribModel GribProps NcModel NcProps NcCopyProps Db1Model Db1Spec Db1Props.
Open Scope string_scope.
Open Scope list_scope.
Open Scope Z_scope.

Section Convert.
Variable flt : Type.
Variable zero : flt.
Variable atof : text -> flt.
Variable h : host.
Variable valid : text -> bool.
Variable clock : list Z -> Z.
Variable number_text : attr -> text.
Notation tool := (db1_to_netcdf flt zero atof h valid clock).

(** What the files say about the image. *)
Record image_info (info aoi : list item) (sat start : text) (wd hg cfac lfac coff loff : Z) : Prop := {
  ii_sat : sat = text_in info (codes "satellite:name") (codes "Undefined");
  ii_start : start = text_in info (codes "schedule:start") (codes "01/01/2000 00:00:00.000");
  ii_wd : is_number (text_in info (codes "image:pixels") []) wd /\ 0 < wd < 2 ^ 31;
  ii_hg : is_number (text_in info (codes "image:lines") (codes "1")) hg /\ 0 < hg < 2 ^ 31;
  ii_cfac : is_number (text_in aoi (codes ":cfac") (codes "0")) cfac /\ - 2 ^ 31 < cfac < 2 ^ 31;
  ii_lfac : is_number (text_in aoi (codes ":lfac") (codes "0")) lfac /\ - 2 ^ 31 < lfac < 2 ^ 31;
  ii_coff : is_number (text_in aoi (codes ":coff") (codes "0")) coff /\ - 2 ^ 31 <= coff < 2 ^ 31;
  ii_loff : is_number (text_in aoi (codes ":loff") (codes "0")) loff /\ - 2 ^ 31 <= loff < 2 ^ 31 }.
Definition file_of (sat start name : text) (wd hg cfac lfac coff loff ncal chn : Z) (t : list Z) (raw : list Z) : text * ncfile :=
  (out_name sat name start,
   mk_ncfile
     [("Satellite", AText sat); ("Time", AText (match t with [day; month; year; hour; minute; second] => zpad 4 year ++ [45] ++ zpad 2 month ++ [45] ++ zpad 2 day ++ [32] ++ zpad 2 hour ++ [58] ++ zpad 2 minute ++ [58] ++ zpad 2 second ++ codes " UTC" | _ => [] end));
      ("Columns", AInt wd); ("Lines", AInt hg);
      ("SampleX", ADouble (Some 1%R)); ("SampleY", ADouble (Some 1%R)); ("AreaStartPix", AInt 1); ("AreaStartLin", AInt 1);
      ("Column_Scale_Factor", AInt cfac); ("Line_Scale_Factor", AInt lfac); ("Column_Offset", AInt loff); ("Line_Offset", AInt coff);
      ("Longitude", AFloat (Some 0%R)); ("Version", ADouble (Some 0%R))]
     [mk_ncvar (codes "calibration") NcFloat [ncal] [] [];
      time_var (clock (match t with [day; month; year; hour; minute; second] => [year; month; day; hour; minute; second] | _ => [] end));
      mk_ncvar name NcShort [1; hg; wd] [("add_offset", ADouble (Some 0%R)); ("scale_factor", ADouble (Some 1%R)); ("chnum", AInt chn)] (shorts h (Z.to_nat (hg * wd)) raw)]).
Ltac hashed := let X := fresh in intro X; vm_compute in X; discriminate.
Ltac key_ok := first [assumption | lia | (vm_compute; tauto) | hashed].
Lemma getboolean_doc d doc key def : tidy_doc doc -> reads d doc -> dictionary_hash (folded key) <> 0 -> In 58 (folded key) -> exists z, getboolean (Some d) key def = Ok z.
Proof.
  intros [_ T] R H C. unfold getboolean, iniparser_getboolean. rewrite R by exact H. cbn [bind]. pose proof (says_not_null doc (folded key) T C) as N. destruct (content nothing (assigns [] doc) (folded key)) as [[v|]|]; [|contradiction|eexists; reflexivity].
  cbn [as_lookup]. cbv zeta. destruct (_ || _); [eexists; reflexivity|]. destruct (_ || _); eexists; reflexivity.
Qed.
Lemma getint_present d doc key def n : tidy_doc doc -> reads d doc -> dictionary_hash (folded key) <> 0 -> In 58 (folded key) ->
  is_number (text_in doc (folded key) []) n -> - 2 ^ 31 <= n < 2 ^ 31 -> getint (Some d) key def = Ok n.
Proof.
  intros [_ T] R H C TN B. unfold getint, iniparser_getint. rewrite R by exact H. cbn [bind]. pose proof (says_not_null doc (folded key) T C) as N. unfold text_in in TN. destruct (content nothing (assigns [] doc) (folded key)) as [[v|]|]; [now apply atoi_number|contradiction|].
  exfalso. destruct TN as (ds & ND & _ & [[E _]|[E _]]); [now subst|discriminate].
Qed.
(** The tool, all accessors done. *)
Lemma tool_eq fs dir ch info aoi cal raw k tk b name variable letter sat start wd hg cfac lfac coff loff :
  directory fs dir ch info aoi cal raw -> channel info ch k tk b name variable letter -> keys_fit variable letter (2 ^ b) ->
  image_info info aoi sat start wd hg cfac lfac coff loff -> valid name = true -> name <> codes "calibration" -> name <> codes "time" ->
  tool fs dir ch =
    match scan_fields start_format start with
    | Some [d; m; y; hr; mi; s] => if Z.of_nat (List.length raw) <? 2 * (hg * wd) then UB else Ok (Some (file_of sat start name wd hg cfac lfac coff loff (2 ^ b) (chname_to_chnum ch) [d; m; y; hr; mi; s] raw))
    | _ => UB
    end.
Proof.
  intros D C KF II VN N1 N2. pose proof D as [SH [TI _] [TA _] [ER [NR LR]] _]. destruct (open_ok flt atof _ _ _ _ _ _ _ (fresh flt) D) as (da & di & RA & RI & EO).
  unfold db1_to_netcdf. rewrite EO. cbn [bind fresh x_dir x_aoi x_info x_cal x_chnum x_raw x_ncal x_cals x_size x_leaks].
  unfold has_channel. cbn [x_dir x_aoi x_info x_cal x_chnum x_raw x_ncal x_cals x_size x_leaks]. rewrite (path_ok dir ch) by (assumption || (cbn; lia)). cbn [bind]. rewrite ER. cbn [bind negb].
  match goal with |- context [set_channel _ _ _ _ ?s _] => destruct (set_ok flt zero atof fs s dir di ch info aoi cal raw k tk b name variable letter eq_refl eq_refl TI RI D C KF) as (c & RC & ES) end.
  rewrite ES. clear ES. cbn [bind x_dir x_aoi x_info x_cal x_chnum x_raw x_ncal x_cals x_size x_leaks]. destruct C as [(K & _) TK EN EV _ [_ BR]]. assert (tk = print k) by (apply plain_print; [exact TK|lia]). subst tk.
  assert (B1 : 0 < 2 ^ b) by (apply Z.pow_pos_nonneg; lia).
  unfold get_INFO_satellite_name, get_channel_INFO_name, get_INFO_schedule_start, get_INFO_image_pixels, get_INFO_image_lines, get_number_of_calibration, get_AoI_cfac, get_AoI_lfac, get_AoI_coff, get_AoI_loff, get_INFO_station_name, get_AoI_name, get_AoI_projection, get_INFO_schedule_northsouth, get_channel_INFO_variable, get_channel_INFO_units, get_RAW_data, sized, int_of_key, str_of, is_data_ok.
  cbn [x_dir x_aoi x_info x_cal x_chnum x_raw x_ncal x_cals x_size x_leaks]. replace (0 <? k) with true by lia. cbn [negb].
  destruct II as [-> -> [W1 W2] [H1 H2] [C1 C2] [L1 L2] [O1 O2] [P1 P2]].
  rewrite (getstring_doc di info (codes "Satellite:Name")) by key_ok. cbn [bind text_of]. change (folded (codes "Satellite:Name")) with (codes "satellite:name").
  rewrite (getstring_channel di info "Name" "name") by (try assumption; apply chkey_name; lia). cbn [bind text_of]. rewrite <- EN.
  rewrite (getstring_doc di info (codes "Schedule:Start")) by key_ok. cbn [bind text_of]. change (folded (codes "Schedule:Start")) with (codes "schedule:start").
  unfold half_size. cbn [x_size need bind].
  change (codes "image:pixels") with (folded (codes "Image:Pixels")) in W1. rewrite (getint_present di info (codes "Image:Pixels") _ wd) by key_ok. cbn [bind].
  assert (ON : is_number (codes "1") 1) by (apply plain_is_number, (print_plain 1); lia).
  change (codes "image:lines") with (folded (codes "Image:Lines")) in H1. rewrite (getint_doc di info (codes "Image:Lines") 1 hg (codes "1")) by key_ok. cbn [bind].
  assert (ZN : is_number (codes "0") 0) by (apply plain_is_number, (print_plain 0); lia).
  change (codes ":cfac") with (folded (codes ":CFAC")) in C1. rewrite (getint_doc da aoi (codes ":CFAC") 0 cfac (codes "0")) by key_ok. cbn [bind].
  change (codes ":lfac") with (folded (codes ":LFAC")) in L1. rewrite (getint_doc da aoi (codes ":LFAC") 0 lfac (codes "0")) by key_ok. cbn [bind].
  change (codes ":coff") with (folded (codes ":COFF")) in O1. rewrite (getint_doc da aoi (codes ":COFF") 0 coff (codes "0")) by key_ok. cbn [bind].
  change (codes ":loff") with (folded (codes ":LOFF")) in P1. rewrite (getint_doc da aoi (codes ":LOFF") 0 loff (codes "0")) by key_ok. cbn [bind].
  destruct (scan_fields start_format _) as [t|]; [|reflexivity]. do 6 (destruct t as [|? t]; [reflexivity|]). destruct t; [|reflexivity].
  rewrite (getstring_doc di info (codes "Station:Name")) by key_ok. cbn [bind text_of].
  rewrite (getstring_doc da aoi (codes ":Name")) by key_ok. cbn [bind text_of].
  rewrite (getstring_doc da aoi (codes ":Projection")) by key_ok. cbn [bind text_of].
  destruct (getboolean_doc di info (codes "Schedule:NorthSouth") 0 TI RI) as [ns ->]; [hashed|vm_compute; tauto|]. cbn [bind].
  replace ((hg <=? 0) || (wd <=? 0) || (2 ^ b <=? 0)) with false by lia.
  rewrite (getstring_channel di info "Variable" "variable") by (try assumption; apply chkey_variable; lia). cbn [bind text_of].
  rewrite (getstring_channel di info "Units" "units") by (try assumption; apply chkey_units; lia). cbn [bind text_of].
  rewrite VN. cbn [negb orb]. unfold str_eqb at 1 2. destruct (list_eq_dec _ name _) as [E|]; [contradiction|]. destruct (list_eq_dec _ name _) as [E|]; [contradiction|]. cbn [orb]. reflexivity.
Qed.

(** Dates of the day files, dd/mm/yyyy hh:mm:ss and anything. *)
Definition day_text (y mo d hr mi s : Z) (rest : text) : text := dd d ++ [47] ++ dd mo ++ [47] ++ dddd y ++ [32] ++ dd hr ++ [58] ++ dd mi ++ [58] ++ dd s ++ rest.
Lemma scan_two n w r : two n -> (forall c q, r = c :: q -> ~ 48 <= c <= 57) \/ w = 2%nat -> (2 <= w)%nat -> scan_int w (dd n ++ r) = Some (n, r).
Proof.
  intros N R W. destruct (dd_digits n N) as [F V]. destruct R as [R| ->].
  - rewrite (scan_int_digits w (dd n) r); [now rewrite V|exact W|discriminate|exact F|]. destruct r as [|c q]; [exact Logic.I|]. now apply (R c q).
  - unfold scan_int. unfold two in N. assert (48 <= 48 + n / 10 <= 57) by lia. assert (48 <= 48 + n mod 10 <= 57) by lia. unfold dd in *. cbn [app]. rewrite strskp_black by (unfold isspace; lia). replace (48 + n / 10 =? 45) with false by lia. replace (48 + n / 10 =? 43) with false by lia.
    cbn [take_digits]. replace ((48 <=? 48 + n / 10) && (48 + n / 10 <=? 57)) with true by lia. replace ((48 <=? 48 + n mod 10) && (48 + n mod 10 <=? 57)) with true by lia. rewrite V. reflexivity.
Qed.
Lemma scan_day y mo d hr mi s rest : 0 <= y <= 9999 -> two mo -> two d -> two hr -> two mi -> two s -> scan_fields start_format (day_text y mo d hr mi s rest) = Some [d; mo; y; hr; mi; s].
Proof.
  intros Y M D H MI S0. unfold start_format, day_text. cbn [scan_fields].
  rewrite scan_two by (auto; lia). cbn [app]. rewrite scan_char_other by lia. rewrite scan_two by (auto; lia). cbn [app]. rewrite scan_char_other by lia.
  rewrite (scan_int_digits _ (dddd y)); [|cbn; lia|discriminate|now apply dddd_digits|cbn; lia]. rewrite (proj2 (dddd_digits y Y)). rewrite scan_char_space, strskp_dd by assumption.
  rewrite scan_two by (auto; lia). cbn [app]. rewrite scan_char_other by lia. rewrite scan_two by (auto; lia). cbn [app]. rewrite scan_char_other by lia. rewrite scan_two by (auto; lia). reflexivity.
Qed.
(** The number of a channel by its name. *)
Definition channels : list string := ["VIS006"; "VIS008"; "IR_016"; "IR_039"; "WV_062"; "WV_073"; "IR_087"; "IR_097"; "IR_108"; "IR_120"; "IR_134"; "HRV"].
Lemma chnum_ok ch i : 1 <= i <= 12 -> firstn 6 ch = codes (nth (Z.to_nat (i - 1)) channels "") -> chname_to_chnum ch = i.
Proof.
  intros I E. unfold chname_to_chnum, ch_names. cbn [index6]. unfold same6. rewrite !E. clear E.
  assert (i = 1 \/ i = 2 \/ i = 3 \/ i = 4 \/ i = 5 \/ i = 6 \/ i = 7 \/ i = 8 \/ i = 9 \/ i = 10 \/ i = 11 \/ i = 12) as C by lia. repeat destruct C as [->|C]; try subst i; vm_compute; reflexivity.
Qed.
(** The samples of the file: two bytes each, in the order of the machine. *)
Definition sample_at (raw : list Z) (i : nat) : Z :=
  match h with LE => nth (2 * i) raw 0 + 256 * nth (2 * i + 1) raw 0 | BE => 256 * nth (2 * i) raw 0 + nth (2 * i + 1) raw 0 end.
Lemma shorts_at n : forall raw i, (2 * n <= List.length raw)%nat -> (i < n)%nat -> nth_error (shorts h n raw) i = Some (sample_at raw i).
Proof.
  induction n as [|n IH]; intros raw i L I; [lia|]. cbn [shorts]. destruct raw as [|a [|b raw]]; [cbn in L; lia|cbn in L; lia|]. cbn [List.length] in L. destruct i as [|i].
  - cbn [nth_error firstn]. f_equal. unfold sample_at. cbn [Nat.mul Nat.add nth]. destruct h; unfold load_u, be_load; cbn [rev app fold_left]; lia.
  - cbn [nth_error skipn]. rewrite IH by lia. f_equal. unfold sample_at. replace (2 * S i)%nat with (S (S (2 * i))) by lia. cbn [Nat.add nth]. reflexivity.
Qed.
Lemma shorts_length n raw : List.length (shorts h n raw) = n.
Proof. revert raw. induction n as [|n IH]; intros raw; [reflexivity|]. cbn [shorts List.length]. now rewrite IH. Qed.

(** A position on the grid: offset columns and lines from the top left pixel to the
    point below the satellite, and the size of a pixel. *)
Definition grid_of (coff loff : Z) (px py : R) : R * R * R * R := (- IZR coff * px, px, IZR loff * py, - py)%R.
Definition nominal_size (q : R) : Prop := q = PIXELSIZE \/ q = PIXELSIZE_HRV.
Lemma nominal_self q : nominal_size q -> nominal q q.
Proof. intros H. split; [exact H|]. replace (q - q)%R with 0%R by ring. rewrite Rabs_R0. lra. Qed.
Lemma gt_file sat start name wd hg cfac lfac coff loff ncal chn t raw qx qy : nominal_size qx -> nominal_size qy -> Z.abs cfac = factor qx -> Z.abs lfac = factor qy ->
  - 2 ^ 31 <= coff < 2 ^ 31 -> - 2 ^ 31 <= loff < 2 ^ 31 ->
  gt_nc (snd (file_of sat start name wd hg cfac lfac coff loff ncal chn t raw)) = Ok (Some (grid_of loff coff qx qy)).
Proof.
  intros QX QY CX CY BC BL. unfold gt_nc, file_of. cbn [snd f_attrs get_att String.eqb Ascii.eqb Bool.eqb att_int as_int].
  unfold att_int. cbn [get_att String.eqb Ascii.eqb Bool.eqb as_int]. rewrite CX, CY. rewrite (proj2 (nominal_factor _ _ (nominal_self _ QX))), (proj2 (nominal_factor _ _ (nominal_self _ QY))). cbn [bind].
  unfold int_fits. change (1 - 1) with 0. rewrite !Z.sub_0_r. replace ((- 2 ^ 31 <=? loff) && (loff <? 2 ^ 31)) with true by lia. replace ((- 2 ^ 31 <=? coff) && (coff <? 2 ^ 31)) with true by lia. reflexivity.
Qed.

(** ** C142 *)
(** Everything but the position of the image survives; the offsets are exchanged. *)
Theorem C142_converted_partial fs dir ch info aoi cal raw k tk b name variable letter sat start wd hg cfac lfac coff loff y mo d hr mi s rest i :
  directory fs dir ch info aoi cal raw -> channel info ch k tk b name variable letter -> keys_fit variable letter (2 ^ b) ->
  image_info info aoi sat start wd hg cfac lfac coff loff -> valid name = true -> name <> codes "calibration" -> name <> codes "time" ->
  start = day_text y mo d hr mi s rest -> 0 <= y <= 9999 -> two mo -> two d -> two hr -> two mi -> two s -> sat <> [] ->
  2 * (hg * wd) <= Z.of_nat (List.length raw) -> 1 <= i <= 12 -> firstn 6 ch = codes (nth (Z.to_nat (i - 1)) channels "") ->
  exists out f ds bd, tool fs dir ch = Ok (Some (out, f)) /\ open_nc number_text f = Some ds /\ d_size ds = Some (wd, hg) /\ d_sat ds = Some sat /\
    d_time ds = iso_text y mo d hr mi s /\ d_bands ds = [bd] /\ v_name (r_var bd) = name /\ r_chan bd = i /\ r_offset bd = Some 0%R /\ band_scale (r_var bd) = Some 1%R /\ r_type bd = GInt16 /\
    (exists px, IReadBlock bd 0 0 = Ok (Some px) /\ Z.of_nat (List.length px) = hg * wd /\ forall j, 0 <= j < hg * wd -> nth_error px (Z.to_nat j) = Some (sample_at raw (Z.to_nat j))) /\
    (forall qx qy, nominal_size qx -> nominal_size qy -> Z.abs cfac = factor qx -> Z.abs lfac = factor qy -> coff = loff -> gt_nc f = Ok (Some (grid_of coff loff qx qy))).
Proof.
  intros D C KF II VN N1 N2 ES Y M DD H MI S0 NS RL I CH. rewrite (tool_eq fs dir ch info aoi cal raw k tk b name variable letter sat start wd hg cfac lfac coff loff D C KF II VN N1 N2). assert (SC : scan_fields start_format start = Some [d; mo; y; hr; mi; s]) by (rewrite ES; now apply scan_day). rewrite SC.
  replace (_ <? _) with false by lia. rewrite (chnum_ok ch i I CH). pose proof II as [_ _ [_ W] [_ HG] _ _ [_ BC] [_ BL]].
  destruct (file_of sat start name wd hg cfac lfac coff loff (2 ^ b) i [d; mo; y; hr; mi; s] raw) as [out f] eqn:EF. pose proof (f_equal snd EF) as EF2. cbn [snd] in EF2. unfold file_of in EF2. cbn [snd] in EF2.
  assert (GT : forall qx qy, nominal_size qx -> nominal_size qy -> Z.abs cfac = factor qx -> Z.abs lfac = factor qy -> coff = loff -> gt_nc f = Ok (Some (grid_of coff loff qx qy))).
  { intros qx qy QX QY CX CY <-. change f with (snd (out, f)). rewrite <- EF. now apply gt_file. }
  exists out, f. revert GT. unfold open_nc. rewrite <- EF2. cbn [f_attrs f_vars get_att String.eqb Ascii.eqb Bool.eqb].
  rewrite float_one_1. cbn [negb]. cbv zeta. unfold attr_text. cbn [get_att String.eqb Ascii.eqb Bool.eqb as_text].
  rewrite zpad4, !zpad2 by assumption. change (dddd y ++ [45] ++ dd mo ++ [45] ++ dd d ++ [32] ++ dd hr ++ [58] ++ dd mi ++ [58] ++ dd s ++ codes " UTC") with (iso_text y mo d hr mi s ++ 32 :: codes "UTC"). rewrite scan_iso_text by assumption. intros GT.
  assert (FI : filter (is_band ["time"]) [mk_ncvar (codes "calibration") NcFloat [2 ^ b] [] []; time_var (clock [y; mo; d; hr; mi; s]); mk_ncvar name NcShort [1; hg; wd] [("add_offset", ADouble (Some 0%R)); ("scale_factor", ADouble (Some 1%R)); ("chnum", AInt i)] (shorts h (Z.to_nat (hg * wd)) raw)]
     = [mk_ncvar name NcShort [1; hg; wd] [("add_offset", ADouble (Some 0%R)); ("scale_factor", ADouble (Some 1%R)); ("chnum", AInt i)] (shorts h (Z.to_nat (hg * wd)) raw)]).
  { assert (B1 : is_band ["time"] (mk_ncvar (codes "calibration") NcFloat [2 ^ b] [] []) = false) by (unfold is_band; cbn [v_name v_dims]; rewrite andb_comm; destruct (2 ^ b) as [|[| |]|]; reflexivity).
    assert (B3 : forall a l, is_band ["time"] (mk_ncvar name NcShort [1; hg; wd] a l) = true) by (intros; unfold is_band; cbn [v_name v_dims existsb]; unfold str_eqb; destruct (list_eq_dec _ name _); [contradiction|reflexivity]).
    cbn [filter]. rewrite B1, B3. reflexivity. }
  rewrite FI. clear FI. cbn [map]. eexists. eexists. split; [reflexivity|]. split; [reflexivity|]. cbn [d_size d_sat d_time d_bands r_bx r_by].
  unfold read_band at 1 2. cbn [r_bx r_by]. unfold dim. cbn [v_dims nth]. unfold to_int. replace ((wd + 2 ^ 31) mod 2 ^ 32 - 2 ^ 31) with wd by lia. replace ((hg + 2 ^ 31) mod 2 ^ 32 - 2 ^ 31) with hg by lia.
  split; [reflexivity|]. split; [destruct sat; [contradiction|reflexivity]|]. split; [now apply time_text_iso|]. split; [reflexivity|]. split; [reflexivity|]. split; [reflexivity|].
  split; [unfold read_band, band_offset; cbn [r_offset v_attrs get_att String.eqb Ascii.eqb Bool.eqb as_double num_is_one]; destruct (_ && _); reflexivity|]. split; [reflexivity|]. split; [reflexivity|]. split.
  - exists (shorts h (Z.to_nat (hg * wd)) raw). split; [|split; [rewrite shorts_length; lia|intros j J; apply shorts_at; lia]].
    unfold IReadBlock. cbn [Z.eqb andb negb r_type read_band v_type v_attrs get_att String.eqb Ascii.eqb Bool.eqb is_true read_type width]. rewrite Z.ltb_irrefl. reflexivity.
  - exact GT.
Qed.
(** The image of a directory whose offsets differ is put somewhere else. *)
Theorem C142_refuted_position fs dir ch info aoi cal raw k tk b name variable letter sat start wd hg cfac lfac coff loff y mo d hr mi s rest qx qy :
  directory fs dir ch info aoi cal raw -> channel info ch k tk b name variable letter -> keys_fit variable letter (2 ^ b) ->
  image_info info aoi sat start wd hg cfac lfac coff loff -> valid name = true -> name <> codes "calibration" -> name <> codes "time" ->
  start = day_text y mo d hr mi s rest -> 0 <= y <= 9999 -> two mo -> two d -> two hr -> two mi -> two s ->
  2 * (hg * wd) <= Z.of_nat (List.length raw) -> nominal_size qx -> nominal_size qy -> Z.abs cfac = factor qx -> Z.abs lfac = factor qy -> coff <> loff ->
  exists out f g, tool fs dir ch = Ok (Some (out, f)) /\ gt_nc f = Ok (Some g) /\ g <> grid_of coff loff qx qy /\ g = grid_of loff coff qx qy.
Proof.
  intros D C KF II VN N1 N2 ES Y M DD H MI S0 RL QX QY CX CY NE. rewrite (tool_eq fs dir ch info aoi cal raw k tk b name variable letter sat start wd hg cfac lfac coff loff D C KF II VN N1 N2).
  assert (SC : scan_fields start_format start = Some [d; mo; y; hr; mi; s]) by (rewrite ES; now apply scan_day). rewrite SC. replace (_ <? _) with false by lia. pose proof II as [_ _ _ _ _ _ [_ BC] [_ BL]].
  destruct (file_of sat start name wd hg cfac lfac coff loff (2 ^ b) (chname_to_chnum ch) [d; mo; y; hr; mi; s] raw) as [out f] eqn:EF. exists out, f, (grid_of loff coff qx qy). split; [reflexivity|]. split; [change f with (snd (out, f)); rewrite <- EF; now apply gt_file|]. split; [|reflexivity].
  intros E. unfold grid_of in E. assert (G : (- IZR loff * qx = - IZR coff * qx)%R) by congruence. assert (P : (0 < qx)%R) by (destruct QX as [-> | ->]; unfold PIXELSIZE, PIXELSIZE_HRV; lra). apply Rmult_eq_reg_r in G; [|lra]. apply Ropp_eq_compat in G. rewrite !Ropp_involutive in G. apply eq_IZR in G. congruence.
Qed.
(** A file of data smaller than the image is read past its end. *)
Theorem C142_refuted_small_file fs dir ch info aoi cal raw k tk b name variable letter sat start wd hg cfac lfac coff loff :
  directory fs dir ch info aoi cal raw -> channel info ch k tk b name variable letter -> keys_fit variable letter (2 ^ b) ->
  image_info info aoi sat start wd hg cfac lfac coff loff -> valid name = true -> name <> codes "calibration" -> name <> codes "time" ->
  Z.of_nat (List.length raw) < 2 * (hg * wd) -> tool fs dir ch = UB.
Proof.
  intros D C KF II VN N1 N2 RL. rewrite (tool_eq fs dir ch info aoi cal raw k tk b name variable letter sat start wd hg cfac lfac coff loff D C KF II VN N1 N2).
  destruct (scan_fields _ _) as [[|? [|? [|? [|? [|? [|? [|]]]]]]]|]; try reflexivity. now replace (_ <? _) with true by lia.
Qed.
(** The time of the start is not checked. *)
Theorem C142_refuted_start fs dir ch info aoi cal raw k tk b name variable letter sat start wd hg cfac lfac coff loff :
  directory fs dir ch info aoi cal raw -> channel info ch k tk b name variable letter -> keys_fit variable letter (2 ^ b) ->
  image_info info aoi sat start wd hg cfac lfac coff loff -> valid name = true -> name <> codes "calibration" -> name <> codes "time" ->
  scan_fields start_format start = None -> tool fs dir ch = UB.
Proof. intros D C KF II VN N1 N2 SC. rewrite (tool_eq fs dir ch info aoi cal raw k tk b name variable letter sat start wd hg cfac lfac coff loff D C KF II VN N1 N2). now rewrite SC. Qed.
(** The name of the file: no slash, blank or colon is left. *)
Theorem C142_file_name sat name start : let n := out_name sat name start in ~ In 47 n /\ ~ In 32 n /\ ~ In 58 n /\
  ((List.length sat + List.length name + List.length start <= 4000)%nat -> List.length n = (List.length sat + List.length name + List.length start + 5)%nat).
Proof.
  assert (K : forall c, c = 47 \/ c = 32 \/ c = 58 -> ~ In c (out_name sat name start)). { intros c C I. unfold out_name in I. apply in_map_iff in I. destruct I as (x & E & _). unfold tidy in E. destruct (x =? 47) eqn:E1; [lia|]. destruct (x =? 32) eqn:E2; [lia|]. destruct (x =? 58) eqn:E3; lia. }
  cbv zeta. split; [apply K; auto|]. split; [apply K; auto|]. split; [apply K; auto|]. intros L. unfold out_name. rewrite map_length, firstn_length, !app_length. cbn [List.length codes]. lia.
Qed.
End Convert.
Print Assumptions C142_converted_partial.
Print Assumptions C142_refuted_position.
Print Assumptions C142_refuted_small_file.
Print Assumptions C142_refuted_start.
Print Assumptions C142_file_name.

(** The example of the directory: its offsets differ. *)
Example ex_image : image_info ex_info ex_aoi (codes "MSG1") (day_text 2005 12 24 11 45 9 (codes ".120")) 3 2 (-13642337) (-13642337) 1856 1000.
Proof.
  split; try reflexivity; (split; [|lia]).
  - apply plain_is_number, (print_plain 3). lia.
  - apply plain_is_number, (print_plain 2). lia.
  - destruct (print_plain 13642337) as (N & F & V & _); [lia|]. exists (print 13642337). split; [exact N|]. split; [exact F|]. right. split; [reflexivity|now rewrite <- V].
  - destruct (print_plain 13642337) as (N & F & V & _); [lia|]. exists (print 13642337). split; [exact N|]. split; [exact F|]. right. split; [reflexivity|now rewrite <- V].
  - apply plain_is_number, (print_plain 1856). lia.
  - apply plain_is_number, (print_plain 1000). lia.
Qed.
Example ex_pixels : map (sample_at LE ex_raw) (seq 0 6) = [1; 2; 3; 1; 0; 259].
Proof. reflexivity. Qed.
Example ex_tool : exists out f g, db1_to_netcdf text [] (fun v => v) LE (fun _ => true) (fun _ => 0) ex_fs (codes "/data") (codes "IR_108") = Ok (Some (out, f)) /\ gt_nc f = Ok (Some g) /\ g = grid_of 1000 1856 PIXELSIZE PIXELSIZE.
Proof.
  destruct (C142_refuted_position text [] (fun v => v) LE (fun _ => true) (fun _ => 0) _ _ _ _ _ _ _ _ _ _ _ _ _ _ _ _ _ _ _ _ _ 2005 12 24 11 45 9 (codes ".120") PIXELSIZE PIXELSIZE ex_directory ex_channel ex_fit ex_image eq_refl ltac:(discriminate) ltac:(discriminate) eq_refl) as (out & f & g & T & G & _ & E); try (unfold two; lia); try (now left).
  - vm_compute. discriminate.
  - unfold factor. destruct (Rlt_dec 2000 PIXELSIZE) as [|N]; [reflexivity|exfalso; apply N; unfold PIXELSIZE; lra].
  - unfold factor. destruct (Rlt_dec 2000 PIXELSIZE) as [|N]; [reflexivity|exfalso; apply N; unfold PIXELSIZE; lra].
  - exists out, f, g. auto.
Qed.
