(** C221: the listing of a ThornSDS DB1 directory and its channel. *)
From Verif Require Import BaseFacts GeoModel IniModel IniSpec IniProofs IniFile IniProps MachineModel GribModel Db1Model Db1Spec Db1Props Db1ListModel.
Open Scope string_scope.
Open Scope list_scope.
Open Scope Z_scope.

(** ** What is asked for *)
(** Lines of a name and a value. *)
Inductive listed : list (text * (text -> Prop)) -> text -> Prop :=
| listed_nil : listed [] []
| listed_cons n (P : text -> Prop) v l t : P v -> listed l t -> listed ((n, P) :: l) (n ++ v ++ [10] ++ t).
Definition titled (t : string) : text * (text -> Prop) := (repeat 45 54 ++ [10] ++ codes t ++ [10] ++ repeat 45 54, eq []).
(** A number written down. *)
Definition number_is (n : Z) (v : text) : Prop := (0 <= n /\ plain_number v n) \/ (n < 0 /\ exists d, plain_number d (- n) /\ v = 45 :: d).
(** The text under a key of a file; the number; the flag, which is the default unless
    there is a word of yes or no. *)
Definition a_text (name : string) (doc : list item) (key : text) (def : string) : text * (text -> Prop) := (codes name, eq (text_in doc key (codes def))).
Definition a_number (name : string) (doc : list item) (key def : text) : text * (text -> Prop) := (codes name, fun v => exists n, is_number (text_in doc key def) n /\ number_is n v).
Definition a_flag (name : string) (doc : list item) (key : text) (def : Z) : text * (text -> Prop) :=
  (codes name, fun v =>
     match text_in doc key [] with
     | c :: _ => (In c (codes "yYtT1") -> v = [49]) /\ (In c (codes "nNfF0") -> v = [48]) /\ (~ In c (codes "yYtT1nNfF0") -> v = [48 + def])
     | [] => v = [48 + def]
     end).
(** The text under this key is a number of 32 bits. *)
Definition fits (doc : list item) (key def : text) : Prop := exists n, is_number (text_in doc key def) n /\ - 2 ^ 31 <= n < 2 ^ 31.
Record numbers_fit (info aoi : list item) (tk : text) (size : text) : Prop := {
  nf_aoi : Forall (fun k => fits aoi (codes k) (codes "0")) [":cfac"; ":lfac"; ":coff"; ":loff"] /\ fits aoi (codes ":npixels") size /\ fits aoi (codes ":nlines") (codes "1");
  nf_sat : fits info (codes "satellite:id") (codes "0") /\ fits info (codes "satellite:orbit") (codes "0");
  nf_image : fits info (codes "image:pixels") size /\ fits info (codes "image:lines") (codes "1") /\ fits info (codes "image:nchannels") (codes "10") /\ fits info (codes "image:nproducts") (codes "10");
  nf_channel : fits info (channel_key tk "bitsperpixel") (codes "10") }.

(** ** Lookups *)
Ltac hashed := let X := fresh in intro X; vm_compute in X; discriminate.
Ltac key_ok := first [assumption | lia | (vm_compute; tauto) | hashed].
Lemma chkey_bits k : 1 <= k <= 12 -> chkey_ok "BitsPerPixel" "bitsperpixel" k = true.
Proof. apply (twelve (chkey_ok "BitsPerPixel" "bitsperpixel")). vm_compute. reflexivity. Qed.
Lemma chkey_table k : 1 <= k <= 12 -> chkey_ok "Table" "table" k = true.
Proof. apply (twelve (chkey_ok "Table" "table")). vm_compute. reflexivity. Qed.
Lemma printd_is n : - 2 ^ 31 <= n < 2 ^ 31 -> number_is n (printd n).
Proof. intros R. unfold number_is, printd. destruct (Z.ltb_spec n 0); [right; split; [assumption|]; eexists; split; [apply print_plain; lia|reflexivity]|left; split; [assumption|apply print_plain; lia]]. Qed.
Lemma text_in_folded doc key (P : text -> Prop) k def : folded key = k -> P (text_in doc (folded key) def) -> P (text_in doc k def).
Proof. now intros ->. Qed.
Lemma int_entry d doc key k def t : tidy_doc doc -> reads d doc -> folded key = k -> dictionary_hash k <> 0 -> In 58 k -> is_number t def -> fits doc k t ->
  exists v, (let! z := getint (Some d) key def in Ok (Some (printd z))) = Ok (Some v) /\ exists n, is_number (text_in doc k t) n /\ number_is n v.
Proof.
  intros T R E H I D (n & N & B). subst k. rewrite (getint_doc d doc key def n t) by assumption. eexists. split; [reflexivity|]. exists n. split; [exact N|now apply printd_is].
Qed.
Lemma text_entry d doc key k def : tidy_doc doc -> reads d doc -> folded key = k -> dictionary_hash k <> 0 -> In 58 k ->
  exists v, getstring (Some d) key (codes def) = Ok (Some v) /\ text_in doc k (codes def) = v.
Proof. intros T R E H I. subst k. rewrite (getstring_doc d doc key) by assumption. eexists. split; reflexivity. Qed.
Lemma flag_entry d doc key k def name : tidy_doc doc -> reads d doc -> folded key = k -> dictionary_hash k <> 0 -> In 58 k -> (def = 0 \/ def = 1) ->
  exists v, (let! z := getboolean (Some d) key def in Ok (Some (if z =? 0 then [48] else [49]))) = Ok (Some v) /\ snd (a_flag name doc k def) v.
Proof.
  intros [_ T] R E H I D. subst k. unfold getboolean, iniparser_getboolean. rewrite R by exact H. cbn [bind]. pose proof (says_not_null doc (folded key) T I) as N.
  cbn [snd a_flag]. unfold text_in. destruct (content nothing (assigns [] doc) (folded key)) as [[v|]|]; [|contradiction|]; cbn [as_lookup bind].
  - destruct v as [|c v]; cbn [nth Z.eqb Pos.eqb orb bind]; [eexists; split; [reflexivity|]; destruct D as [-> | ->]; reflexivity|].
    assert (Y : (c =? 121) || (c =? 89) || (c =? 49) || (c =? 116) || (c =? 84) = true <-> In c (codes "yYtT1")) by (cbn; lia).
    assert (X : (c =? 110) || (c =? 78) || (c =? 48) || (c =? 102) || (c =? 70) = true <-> In c (codes "nNfF0")) by (cbn; lia).
    assert (A : In c (codes "yYtT1nNfF0") <-> In c (codes "yYtT1") \/ In c (codes "nNfF0")) by (cbn; tauto).
    assert (Z0 : In c (codes "yYtT1") -> ~ In c (codes "nNfF0")) by (cbn; lia).
    destruct ((c =? 121) || _ || _ || _ || _) eqn:E1; [|destruct ((c =? 110) || _ || _ || _ || _) eqn:E2]; cbn [bind]; eexists; (split; [reflexivity|]).
    + split; [reflexivity|]. split; [intros Q; exfalso; tauto|intros Q; exfalso; tauto].
    + split; [intros Q; exfalso; apply Y in Q; discriminate|]. split; [reflexivity|intros Q; exfalso; tauto].
    + split; [intros Q; exfalso; apply Y in Q; discriminate|]. split; [intros Q; exfalso; apply X in Q; discriminate|]. intros _. destruct D as [-> | ->]; reflexivity.
  - eexists. split; [reflexivity|]. destruct D as [-> | ->]; reflexivity.
Qed.

Section Listed.
Variable flt : Type.
Variable zero ninety : flt.
Variable atof : text -> flt.
Variable show : flt -> text.
Notation listing := (db1_listing flt zero ninety atof show).
Definition a_float (name : string) (doc : option (list item)) (key : string) (def : flt) : text * (text -> Prop) :=
  (codes name, eq (show (match cal_text doc (codes key) with Some v => atof v | None => def end))).
Lemma float_entry d doc key k def : match d, doc with Some d, Some doc => tidy_doc doc /\ reads d doc | None, None => True | _, _ => False end -> folded (codes key) = codes k -> dictionary_hash (codes k) <> 0 -> In 58 (codes k) ->
  exists v, (let! z := getdouble flt atof d (codes key) def in Ok (Some (show z))) = Ok (Some v) /\ show (match cal_text doc (codes k) with Some v => atof v | None => def end) = v.
Proof.
  intros R E H I. unfold getdouble, cal_text. destruct d as [d|], doc as [doc|]; try contradiction; [|eexists; split; reflexivity]. destruct R as (T & R). rewrite R by now rewrite E. rewrite E. cbn [bind].
  pose proof (says_not_null doc (codes k) (proj2 T) I) as N. destruct (content nothing (assigns [] doc) _) as [[v|]|]; [|contradiction|]; eexists; split; reflexivity.
Qed.
(** Entries that can be printed. *)
Definition printed (e : entry) (p : text * (text -> Prop)) : Prop := fst e = fst p /\ exists v, snd e = Ok (Some v) /\ snd p v.
Lemma put_listed l m : Forall2 printed l m -> exists t, put true l = Ok (t, true) /\ listed m t.
Proof.
  intros F. induction F as [|[n o] [n' P] l m (E & v & V & H) F (t & IH & L)]; [exists []; split; [reflexivity|constructor]|]. cbn [fst snd] in *. subst n' o. cbn [put bind andb]. rewrite IH. cbn [bind fst snd].
  exists (n ++ v ++ [10] ++ t). split; [f_equal; f_equal; now rewrite <- !app_assoc|now constructor].
Qed.

(** ** C221 *)
(** Once a channel is set, every entry is listed with what the files say, and the stream
    is good. *)
Theorem C221_listing_partial fs dir ch info aoi cal raw k tk b name variable letter size :
  directory fs dir ch info aoi cal raw -> channel info ch k tk b name variable letter -> keys_fit variable letter (2 ^ b) ->
  plain_number size (Z.of_nat (List.length raw) / 2) -> numbers_fit info aoi tk size ->
  exists s t, run flt zero atof fs dir [ch] = Ok s /\ listing s = Ok (t, true) /\ listed [
    titled "-           MSG DATA SATELLITE DB1 AoI               -";
    a_text "AoI Name         : " aoi (codes ":name") "Undefined"; a_number "AoI nPixels      : " aoi (codes ":npixels") size; a_number "AoI nLines       : " aoi (codes ":nlines") (codes "1"); a_text "AoI Projection   : " aoi (codes ":projection") "GRID";
    a_number "AoI CFAC         : " aoi (codes ":cfac") (codes "0"); a_number "AoI LFAC         : " aoi (codes ":lfac") (codes "0"); a_number "AoI COFF         : " aoi (codes ":coff") (codes "0"); a_number "AoI LOFF         : " aoi (codes ":loff") (codes "0");
    titled "-           MSG DATA SATELLITE DB1 INFO              -";
    a_text "Station Name     : " info (codes "station:name") "Undefined"; a_text "Satellite Name   : " info (codes "satellite:name") "Undefined"; a_number "Satellite ID     : " info (codes "satellite:id") (codes "0"); a_number "Satellite Orbit  : " info (codes "satellite:orbit") (codes "0");
    a_text "Schedule Start   : " info (codes "schedule:start") "01/01/2000 00:00:00.000"; a_text "Schedule End     : " info (codes "schedule:end") "01/01/2000 00:00:00.000"; a_float "Elevation        : " (Some info) "schedule:elevation" ninety; a_flag "NorthSouth       : " info (codes "schedule:northsouth") 0;
    a_text "Location         : " info (codes "schedule:location") "OH"; a_flag "Day              : " info (codes "schedule:day") 1; a_text "Slot             : " info (codes "schedule:slot") "HRIT"; a_text "Image Sensor     : " info (codes "image:sensor") "Seviri";
    a_number "Image Pixels     : " info (codes "image:pixels") size; a_number "Image Lines      : " info (codes "image:lines") (codes "1"); a_number "Bits per Pixel   : " info (codes "image:bitsperpixel") (codes "10"); a_flag "Image Protected  : " info (codes "image:protected") 0;
    a_number "Image Channels   : " info (codes "image:nchannels") (codes "10"); a_number "Image Products   : " info (codes "image:nproducts") (codes "10");
    titled "-           MSG DATA CHANNEL DB1 INFO                -";
    (codes "Channel Name     : ", eq name); (codes "Channel Variable : ", eq variable); a_text "Channel Units    : " info (channel_key tk "units") "Undefined"; a_number "Channel BPP      : " info (channel_key tk "bitsperpixel") (codes "10"); a_flag "Channel Table    : " info (channel_key tk "table") 0;
    titled "-           MSG DATA CHANNEL CALIBRATION             -";
    a_float "Slope            : " cal "calibration:slope" zero; a_float "Target Count     : " cal "calibration:targetcount" zero; a_float "Vc               : " cal "calibration:vc" zero; a_float "A                : " cal "calibration:a" zero; a_float "B                : " cal "calibration:b" zero] t.
Proof.
  intros D C KF SZ NF. destruct (run_one flt zero atof _ _ _ _ _ _ _ _ _ _ _ _ _ D C KF) as (s & E & L & _ & da & EA & RA). exists s. destruct L as (a & di & c & RI & RC & ES). pose proof (dr_info _ _ _ _ _ _ _ D) as [TI _]. pose proof (dr_aoi _ _ _ _ _ _ _ D) as [TA _]. pose proof (dr_raw _ _ _ _ _ _ _ D) as (_ & _ & LR).
  enough (X : exists t, listing s = Ok (t, true) /\ listed _ t) by (destruct X as (t & X1 & X2); exists t; split; [exact E|split; [exact X1|exact X2]]).
  destruct C as [(K & _) TK EN EV _ [BN BR]]. assert (tk = print k) by (apply plain_print; [exact TK|lia]). subst tk.
  assert (F : a = Some da) by (rewrite ES in EA; exact EA). subst a. destruct NF as [(A1 & A2 & A3) (S1 & S2) (I1 & I2 & I3 & I4) CB]. apply Forall_cons_iff in A1 as (A4 & A1). apply Forall_cons_iff in A1 as (A5 & A1). apply Forall_cons_iff in A1 as (A6 & A1). apply Forall_cons_iff in A1 as (A7 & _).
  assert (N0 : is_number (codes "0") 0) by (apply plain_is_number, (print_plain 0); lia). assert (N1 : is_number (codes "1") 1) by (apply plain_is_number, (print_plain 1); lia). assert (N10 : is_number (codes "10") 10) by (apply plain_is_number, (print_plain 10); lia).
  assert (FB : fits info (codes "image:bitsperpixel") (codes "10")) by (exists b; split; [exact BN|lia]).
  assert (NS : is_number size (Z.of_nat (List.length raw) / 2)) by now apply plain_is_number.
  unfold db1_listing. apply put_listed. rewrite ES. clear E EA ES D.
  unfold db1_entries, get_AoI_name, get_AoI_npixels, get_AoI_nlines, get_AoI_projection, get_AoI_cfac, get_AoI_lfac, get_AoI_coff, get_AoI_loff, get_INFO_station_name, get_INFO_satellite_name, get_INFO_satellite_id, get_INFO_satellite_orbit, get_INFO_schedule_start, get_INFO_schedule_end, get_INFO_schedule_elevation, get_INFO_schedule_northsouth, get_INFO_schedule_location, get_INFO_schedule_day, get_INFO_schedule_slot, get_INFO_image_sensor, get_INFO_image_pixels, get_INFO_image_lines, get_INFO_image_bitsperpixel, get_INFO_image_protected, get_INFO_image_nchannels, get_INFO_image_nproducts, get_channel_INFO_name, get_channel_INFO_variable, get_channel_INFO_units, get_channel_INFO_bitsperpixel, get_channel_INFO_table, get_channel_Calibration, bool_of_key, float_of_key, sized, half_size, int_of_key, str_of, is_data_ok.
  cbn [x_dir x_aoi x_info x_cal x_chnum x_raw x_ncal x_cals x_size x_leaks need bind]. replace (0 <? k) with true by lia.
  assert (HS : to_int (Z.of_nat (List.length raw) / 2) = Z.of_nat (List.length raw) / 2) by (unfold to_int; lia). rewrite HS.
  pose proof (chkey_facts _ _ _ (chkey_name k K)) as (G1 & G2 & G3). pose proof (chkey_facts _ _ _ (chkey_variable k K)) as (V1 & V2 & V3). pose proof (chkey_facts _ _ _ (chkey_units k K)) as (U1 & U2 & U3). pose proof (chkey_facts _ _ _ (chkey_bits k K)) as (B1 & B2 & B3). pose proof (chkey_facts _ _ _ (chkey_table k K)) as (W1 & W2 & W3). subst name variable.
  repeat (apply Forall2_cons; [split; [reflexivity|]; cbn [snd txt int flag float head titled a_text a_number a_float fst];
    first [ eexists; split; reflexivity
          | eapply int_entry; [eassumption|eassumption|first [eassumption|reflexivity]|key_ok|key_ok|assumption|assumption]
          | eapply text_entry; [eassumption|eassumption|first [eassumption|reflexivity]|key_ok|key_ok]
          | eapply flag_entry; [eassumption|eassumption|first [eassumption|reflexivity]|key_ok|key_ok|lia]
          | eapply float_entry; [first [exact RC|split; eassumption]|reflexivity|key_ok|key_ok]]|]). constructor.
Qed.
(** Without a channel the listing ends after the first name, and nothing that the program
    writes to the stream afterwards is seen. *)
Theorem C221_refuted_no_channel s : is_data_ok flt s = false ->
  listing s = Ok (repeat 45 54 ++ [10] ++ codes "-           MSG DATA SATELLITE DB1 AoI               -" ++ [10] ++ repeat 45 54 ++ [10] ++ codes "AoI Name         : ", false).
Proof.
  intros N. unfold db1_listing, db1_entries, get_AoI_name, get_AoI_npixels, get_AoI_nlines, get_AoI_projection, get_AoI_cfac, get_AoI_lfac, get_AoI_coff, get_AoI_loff, get_INFO_station_name, get_INFO_satellite_name, get_INFO_satellite_id, get_INFO_satellite_orbit, get_INFO_schedule_start, get_INFO_schedule_end, get_INFO_schedule_elevation, get_INFO_schedule_northsouth, get_INFO_schedule_location, get_INFO_schedule_day, get_INFO_schedule_slot, get_INFO_image_sensor, get_INFO_image_pixels, get_INFO_image_lines, get_INFO_image_bitsperpixel, get_INFO_image_protected, get_INFO_image_nchannels, get_INFO_image_nproducts, get_channel_INFO_name, get_channel_INFO_variable, get_channel_INFO_units, get_channel_INFO_bitsperpixel, get_channel_INFO_table, get_channel_Calibration, bool_of_key, float_of_key, sized, half_size, int_of_key, str_of.
  rewrite N. reflexivity.
Qed.
End Listed.
Print Assumptions C221_listing_partial.
Print Assumptions C221_refuted_no_channel.

(** The example of the directory. *)
Lemma fits_plain doc key def n t : text_in doc key def = t -> plain_number t n -> - 2 ^ 31 <= n < 2 ^ 31 -> fits doc key def.
Proof. intros <- P B. exists n. split; [now apply plain_is_number|exact B]. Qed.
Example C221_case : plain_number (codes "6") (Z.of_nat (List.length ex_raw) / 2) /\ numbers_fit ex_info ex_aoi (codes "2") (codes "6") /\
  exists s t, run text [] (fun v => v) ex_fs (codes "/data") [codes "IR_108"] = Ok s /\ db1_listing text [] (codes "90") (fun v => v) (fun v => v) s = Ok (t, true).
Proof.
  assert (P : plain_number (codes "6") (Z.of_nat (List.length ex_raw) / 2)) by (apply (print_plain 6); lia).
  assert (Q : numbers_fit ex_info ex_aoi (codes "2") (codes "6")).
  { assert (G : forall k, k = ":cfac" \/ k = ":lfac" -> fits ex_aoi (codes k) (codes "0")).
    { intros k [-> | ->]; (exists (-13642337); split; [|lia]; destruct (print_plain 13642337) as (N & F & V & _); [lia|]; exists (print 13642337); split; [exact N|]; split; [exact F|]; right; split; [vm_compute; reflexivity|now rewrite <- V]). }
    split.
    - split; [|split].
      + constructor; [apply G; auto|]. constructor; [apply G; auto|]. constructor; [eapply (fits_plain _ _ _ 1856); [vm_compute; reflexivity|apply (print_plain 1856); lia|lia]|]. constructor; [eapply (fits_plain _ _ _ 1000); [vm_compute; reflexivity|apply (print_plain 1000); lia|lia]|constructor].
      + eapply (fits_plain _ _ _ 6); [vm_compute; reflexivity|apply (print_plain 6); lia|lia].
      + eapply (fits_plain _ _ _ 1); [vm_compute; reflexivity|apply (print_plain 1); lia|lia].
    - split; (eapply (fits_plain _ _ _ 0); [vm_compute; reflexivity|apply (print_plain 0); lia|lia]).
    - split; [eapply (fits_plain _ _ _ 3); [vm_compute; reflexivity|apply (print_plain 3); lia|lia]|]. split; [eapply (fits_plain _ _ _ 2); [vm_compute; reflexivity|apply (print_plain 2); lia|lia]|].
      split; (eapply (fits_plain _ _ _ 10); [vm_compute; reflexivity|apply (print_plain 10); lia|lia]).
    - eapply (fits_plain _ _ _ 10); [vm_compute; reflexivity|apply (print_plain 10); lia|lia]. }
  split; [exact P|]. split; [exact Q|]. destruct (C221_listing_partial text [] (codes "90") (fun v => v) (fun v => v) _ _ _ _ _ _ _ _ _ _ _ _ _ _ ex_directory ex_channel ex_fit P Q) as (s & t & E & L & T). exists s, t. split; [exact E|exact L].
Qed.
