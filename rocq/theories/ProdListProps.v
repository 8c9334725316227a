(** C222: the listing of the image production statistics and of the timeliness record of the
    level 1.5 trailer. *)
From Verif Require Import Base BaseFacts IniModel IniProofs MachineModel HeaderModel GribModel GribProps NcProps Db1Spec Db1Props MsgModel MsgTimeProps ConvModel HeadListModel MachineProofs HeadListProps ProdListModel.
Open Scope string_scope.
Open Scope list_scope.
Open Scope Z_scope.

(** ** What is asked for *)
(** The numbers of the file are big endian. *)
Definition octet (b : list Z) (off : nat) : Z := nth off b 0.
Definition word (b : list Z) (off : nat) : Z := 256 * octet b off + octet b (off + 1).
Definition long (b : list Z) (off : nat) : Z := 65536 * word b off + word b (off + 2).
Definition signed_long (b : list Z) (off : nat) : Z := if long b off <? 2 ^ 31 then long b off else long b off - 2 ^ 32.
(** A Meteosat of the second generation is told by its name. *)
Definition satellite_is (id : Z) (v : str) : Prop := forall n, 1 <= n <= 4 -> (id = 320 + n <-> v = codes "MSG" ++ [48 + n]).
(** The date of the calendar and the time of the day, from a stamp of 6 bytes. *)
Definition stamp_is (b : list Z) (off : nat) (v : str) : Prop :=
  forall k y m d, long b (off + 2) < 86400000 -> date k = (1958, 1, 1) -> date (k + Z.to_nat (word b off)) = (y, m, d) ->
  v = moment_text y m d (long b (off + 2)) ++ codes " +" ++ ddd (long b (off + 2) mod 1000) ++ codes " msecs".
Definition channel_is (i : nat) (v : str) : Prop := v = [48 + (Z.of_nat i + 1) / 10; 48 + (Z.of_nat i + 1) mod 10].
Definition stats_lines (b : list Z) : list (string * (str -> Prop)) :=
  [("Satellite Id        : ", satellite_is (word b 0)); ("Nominal Image Scan. : ", num_is (octet b 2)); ("Reduced Scan        : ", num_is (octet b 3));
   ("Forw. Scan Start    : ", stamp_is b 4); ("Forw. Scan End      : ", stamp_is b 10);
   ("Nominal Behaviour   : ", num_is (octet b 16)); ("Rad Scan Irregular. : ", num_is (octet b 17)); ("Rad Stoppage        : ", num_is (octet b 18)); ("Repeat not complete : ", num_is (octet b 19));
   ("Gain change         : ", num_is (octet b 20)); ("Decontamination     : ", num_is (octet b 21)); ("No BB Calibration   : ", num_is (octet b 22)); ("Incorrect Temp.     : ", num_is (octet b 23));
   ("Invalid BB data     : ", num_is (octet b 24)); ("Invalid Aux HKTM    : ", num_is (octet b 25)); ("Refocusing actuated : ", num_is (octet b 26)); ("Mirror back ref.    : ", num_is (octet b 27))] ++
  flat_map (fun i => [("Channel ", channel_is i); ("Planned L10 lines   : ", num_is (long b (28 + 4 * i))); ("Missing L10 lines   : ", num_is (long b (76 + 4 * i)));
                      ("Corrupted L10 lines : ", num_is (long b (124 + 4 * i))); ("Replaced L10 lines  : ", num_is (long b (172 + 4 * i)))]) (seq 0 12) ++
  flat_map (fun i => [("Channel ", channel_is i); ("Nominal Image       : ", num_is (octet b (220 + 6 * i))); ("Incomplete Image    : ", num_is (octet b (221 + 6 * i)));
                      ("Non Radiometric OK  : ", num_is (octet b (222 + 6 * i))); ("Non Geometric OK    : ", num_is (octet b (223 + 6 * i))); ("Incomplete L 1.5    : ", num_is (octet b (225 + 6 * i)))]) (seq 0 12) ++
  [("Southern Line IR    : ", int_is (signed_long b 292)); ("Northern Line IR    : ", int_is (signed_long b 296)); ("Eastern Column IR   : ", int_is (signed_long b 300)); ("Western Column IR   : ", int_is (signed_long b 304));
   ("Low South Line HRV  : ", int_is (signed_long b 308)); ("Low North Line HRV  : ", int_is (signed_long b 312)); ("Low East Column HRV : ", int_is (signed_long b 316)); ("Low West Column HRV : ", int_is (signed_long b 320));
   ("Up South Line HRV   : ", int_is (signed_long b 324)); ("Up North Line HRV   : ", int_is (signed_long b 328)); ("Up East Column HRV  : ", int_is (signed_long b 332)); ("Up West Column HRV  : ", int_is (signed_long b 336))].
Definition timeliness_lines (real : Z -> str) (b : list Z) : list (string * (str -> Prop)) :=
  [("Max Delay           : ", eq (real (long b 0))); ("Min Delay           : ", eq (real (long b 4))); ("Mean Delay          : ", eq (real (long b 8)))] ++
  flat_map (fun i => [("Channel ", channel_is i); ("Planned Image Lines : ", num_is (word b (12 + 10 * i))); ("Generated Lines     : ", num_is (word b (14 + 10 * i)));
                      ("Valid Lines         : ", num_is (word b (16 + 10 * i))); ("Dummy Lines         : ", num_is (word b (18 + 10 * i))); ("Corrupted Lines     : ", num_is (word b (20 + 10 * i)))]) (seq 0 12).

(** ** Reading *)
Lemma each_ok {A} (f : nat -> outcome A) g n : forall i, (forall j, (i <= j < i + n)%nat -> f j = Ok (g j)) -> each f i n = Ok (map g (seq i n)).
Proof.
  induction n as [|n IH]; intros i E; [reflexivity|]. cbn [each seq map]. rewrite E by lia. cbn [bind]. rewrite IH; [reflexivity|]. intros j J. apply E. lia.
Qed.
Lemma octet_range b off : bytes_ok b -> 0 <= octet b off < 256.
Proof. intros B. unfold octet. destruct (nth_in_or_default off b 0) as [I| ->]; [|lia]. unfold bytes_ok in B. rewrite Forall_forall in B. exact (B _ I). Qed.
Lemma word_range b off : bytes_ok b -> 0 <= word b off < 65536.
Proof. intros B. unfold word. pose proof (octet_range b off B). pose proof (octet_range b (off + 1) B). lia. Qed.
Lemma long_range b off : bytes_ok b -> 0 <= long b off < 2 ^ 32.
Proof. intros B. unfold long. pose proof (word_range b off B). pose proof (word_range b (off + 2) B). lia. Qed.
Lemma signed_range b off : bytes_ok b -> i32 (signed_long b off).
Proof. intros B. unfold signed_long, i32. pose proof (long_range b off B). destruct (Z.ltb_spec (long b off) (2 ^ 31)); lia. Qed.
Lemma octet_read b off : (off < List.length b)%nat -> rd1 b off = Ok (octet b off).
Proof. intros L. unfold rd1, octet. rewrite (nth_error_nth' b 0 L). reflexivity. Qed.
Lemma cut_first (b : list Z) : forall off n, (off < List.length b)%nat -> firstn (S n) (skipn off b) = octet b off :: firstn n (skipn (off + 1) b).
Proof. induction b as [|x b IH]; intros off n L; cbn in L; [lia|]. destruct off as [|off]; [reflexivity|]. cbn [skipn]. rewrite IH by lia. reflexivity. Qed.
Lemma word_read h b off : (off + 2 <= List.length b)%nat -> rd_ui h b off 2 = Ok (word b off).
Proof.
  intros L. rewrite rd_ui_spec, bytes_at_ok by lia. cbn [bind]. rewrite !cut_first by lia. cbn [firstn]. unfold word. f_equal. cbn [be_val List.length]. lia.
Qed.
Lemma long_bytes b off : (off + 4 <= List.length b)%nat -> be_val (firstn 4 (skipn off b)) = long b off.
Proof.
  intros L. rewrite !cut_first by lia. cbn [firstn be_val List.length]. unfold long, word. rewrite <- !Nat.add_assoc. cbn [Nat.add]. change (Z.of_nat 3) with 3. change (Z.of_nat 2) with 2. change (Z.of_nat 1) with 1. change (Z.of_nat 0) with 0. lia.
Qed.
Lemma long_read h b off : (off + 4 <= List.length b)%nat -> rd_ui h b off 4 = Ok (long b off).
Proof. intros L. rewrite rd_ui_spec, bytes_at_ok by lia. cbn [bind]. now rewrite long_bytes. Qed.
Lemma signed_read h b off : (off + 4 <= List.length b)%nat -> rd_i h b off 4 = Ok (signed_long b off).
Proof. intros L. rewrite rd_i_spec, bytes_at_ok by lia. cbn [bind]. rewrite long_bytes by assumption. reflexivity. Qed.
Definition stamp (b : list Z) (off : nat) : cds_short :=
  mk_cds (word b off) (long b (off + 2)) (86400 * word b off + long b (off + 2) / 1000 + (-378691200)) (long b (off + 2) mod 1000).
Lemma stamp_read h b off : (off + 6 <= List.length b)%nat -> read_cds_short h b off = Ok (stamp b off).
Proof. intros L. unfold read_cds_short. rewrite word_read, long_read by lia. reflexivity. Qed.
Definition octets (b : list Z) (off n : nat) : list Z := map (fun i => octet b (off + i)) (seq 0 n).
Definition words (b : list Z) (off n : nat) : list Z := map (fun i => word b (off + i * 2)) (seq 0 n).
Definition longs (b : list Z) (off n : nat) : list Z := map (fun i => long b (off + i * 4)) (seq 0 n).
Definition signed_longs (b : list Z) (off n : nat) : list Z := map (fun i => signed_long b (off + i * 4)) (seq 0 n).
Lemma octets_read b off n : (off + n <= List.length b)%nat -> read_bytes b off n = Ok (octets b off n).
Proof. intros L. apply (each_ok _ (fun i => octet b (off + i))). intros j J. apply octet_read. lia. Qed.
Lemma words_read h b off n : (off + n * 2 <= List.length b)%nat -> read_ui2s h b off n = Ok (words b off n).
Proof. intros L. apply (each_ok _ (fun i => word b (off + i * 2))). intros j J. apply word_read. lia. Qed.
Lemma longs_read h b off n : (off + n * 4 <= List.length b)%nat -> read_ui4s h b off n = Ok (longs b off n).
Proof. intros L. apply (each_ok _ (fun i => long b (off + i * 4))). intros j J. apply long_read. lia. Qed.
Lemma signed_longs_read h b off n : (off + n * 4 <= List.length b)%nat -> read_i4s h b off n = Ok (signed_longs b off n).
Proof. intros L. apply (each_ok _ (fun i => signed_long b (off + i * 4))). intros j J. apply signed_read. lia. Qed.
Definition the_validity (b : list Z) (off : nat) : validity :=
  mk_validity (octet b off) (octet b (off + 1)) (octet b (off + 2)) (octet b (off + 3)) (octet b (off + 4)) (octet b (off + 5)).
Definition the_stats (b : list Z) : stats :=
  mk_stats (word b 0) (mk_scanning (octets b 2 2) (stamp b 4) (stamp b 10)) (octets b 16 12) (mk_reception (longs b 28 12) (longs b 76 12) (longs b 124 12) (longs b 172 12))
    (map (fun i => the_validity b (220 + i * 6)) (seq 0 12)) (signed_longs b 292 4) (signed_longs b 308 8).
Lemma stats_read h b : (340 <= List.length b)%nat -> read_stats h b = Ok (the_stats b).
Proof.
  intros L. unfold read_stats, read_scanning, read_reception. rewrite word_read by lia. cbn [bind]. rewrite octets_read by lia. cbn [bind]. rewrite !stamp_read by lia. cbn [bind].
  rewrite octets_read by lia. cbn [bind]. rewrite !longs_read by lia. cbn [bind]. rewrite (each_ok _ (fun i => the_validity b (220 + i * 6))).
  - cbn [bind]. rewrite !signed_longs_read by lia. reflexivity.
  - intros j J. unfold read_validity. rewrite !octet_read by lia. reflexivity.
Qed.
Definition the_timeliness (b : list Z) : timeliness := mk_timeliness (longs b 0 3) (map (fun i => words b (12 + i * 10) 5) (seq 0 12)).
Lemma timeliness_read h b : (132 <= List.length b)%nat -> read_timeliness h b = Ok (the_timeliness b).
Proof.
  intros L. unfold read_timeliness. rewrite longs_read by lia. cbn [bind]. rewrite (each_ok _ (fun i => words b (12 + i * 10) 5)); [reflexivity|]. intros j J. apply words_read. lia.
Qed.

(** ** Listing *)
Lemma nth_each {A} (g : nat -> A) n d i : (i < n)%nat -> nth i (map g (seq 0 n)) d = g i.
Proof. intros L. rewrite (nth_indep _ d (g 0%nat)) by (rewrite map_length, seq_length; lia). rewrite map_nth, seq_nth by lia. reflexivity. Qed.
Lemma lines_each (L : nat -> list (string * (str -> Prop))) f n : forall i, (forall j, (i <= j < i + n)%nat -> lines (L j) (f j)) -> lines (flat_map L (seq i n)) (flat_map f (seq i n)).
Proof.
  induction n as [|n IH]; intros i E; [constructor|]. cbn [seq flat_map]. apply lines_app; [apply E; lia|]. apply IH. intros j J. apply E. lia.
Qed.
Lemma satellite_shown id : satellite_is id (MSG_spacecraft_name id).
Proof.
  intros n N. assert (n = 1 \/ n = 2 \/ n = 3 \/ n = 4) as C by lia. split.
  - intros ->. destruct C as [->|[->|[->| ->]]]; reflexivity.
  - unfold MSG_spacecraft_name. cbn [named_in]. repeat match goal with |- context [id =? ?k] => destruct (Z.eqb_spec id k) as [->|?] end; destruct C as [->|[->|[->| ->]]]; cbn; intros E; solve [reflexivity|discriminate E].
Qed.
Lemma stamp_shown b off : bytes_ok b -> stamp_is b off (timestring (stamp b off)).
Proof.
  intros B k y m d MS K N. pose proof (long_range b (off + 2) B). pose proof (word_range b off B). unfold timestring, stamp. cbn [cds_unixtime cds_usecs]. rewrite zpad3 by lia.
  pose proof (gm_text_ok k (Z.to_nat (word b off)) y m d (long b (off + 2)) K N ltac:(lia) ltac:(lia)) as G. rewrite Z2Nat.id in G by lia. rewrite <- G.
  replace (86400 * word b off + long b (off + 2) / 1000 + -378691200) with (86400 * (word b off - 4383) + long b (off + 2) / 1000) by lia. reflexivity.
Qed.
Lemma channel_shown i : (i < 12)%nat -> channel_is i (zpad 2 (Z.of_nat i + 1)).
Proof. intros I. unfold channel_is. rewrite zpad2 by (unfold two; lia). reflexivity. Qed.
Lemma octet_shown b off : bytes_ok b -> num_is (octet b off) (print (octet b off)).
Proof. intros B. pose proof (octet_range b off B). apply num_shown. lia. Qed.
Lemma word_shown b off : bytes_ok b -> num_is (word b off) (print (word b off)).
Proof. intros B. pose proof (word_range b off B). apply num_shown. lia. Qed.
Lemma long_shown b off : bytes_ok b -> num_is (long b off) (print (long b off)).
Proof. intros B. pose proof (long_range b off B). apply num_shown. lia. Qed.
Lemma signed_shown b off : bytes_ok b -> int_is (signed_long b off) (print_int (signed_long b off)).
Proof. intros B. apply int_shown. now apply signed_range. Qed.
Lemma fields_cons n ns sh v vs : fields (n :: ns) sh (v :: vs) = field n (sh v) ++ fields ns sh vs.
Proof. reflexivity. Qed.
Lemma fields_nil sh : fields [] sh [] = [].
Proof. reflexivity. Qed.
#[local] Opaque print print_int zpad timestring MSG_spacecraft_name octet word long signed_long.
Ltac shown := lazymatch goal with
  | |- num_is ?x (print ?y) => unify x y; first [now apply octet_shown | now apply word_shown | now apply long_shown]
  | |- int_is ?x (print_int ?y) => unify x y; now apply signed_shown
  | |- stamp_is _ ?o (timestring (stamp _ ?q)) => unify o q; now apply stamp_shown
  | |- satellite_is _ _ => apply satellite_shown
  | |- channel_is _ _ => apply channel_shown; lia
  | |- _ = ?v => reflexivity end.

(** Every value of the record but the flags of timeliness stands in its place after its name:
    the whole listing is the title and these lines. *)
Theorem C222_statistics_partial h b : bytes_ok b -> (340 <= List.length b)%nat ->
  exists s body, read_stats h b = Ok s /\ stats_text s = title_lines "-         MSG IMAGE PRODUCTION STATISTICS            -" ++ body /\ lines (stats_lines b) body.
Proof.
  intros B L. exists (the_stats b). eexists. split; [now apply stats_read|]. split; [unfold stats_text; change (title_lines ?x) with (title x); reflexivity|].
  unfold the_stats, scanning_text, behaviour_text, reception_text, ir_text, hrv_text. cbn [st_sat st_scanning st_behaviour st_reception st_validity st_ir st_hrv sc_flags sc_start sc_end rc_planned rc_missing rc_corrupted rc_replaced].
  unfold stats_lines. remember (map (fun i => the_validity b (220 + i * 6)) (seq 0 12)) as vs eqn:VS.
  unfold octets, signed_longs. cbn [seq map Nat.add Nat.mul]. rewrite !fields_cons, !fields_nil. rewrite <- !app_assoc. cbn [app].
  do 17 (apply lines_field; [shown|]).
  apply lines_app.
  { apply (lines_each _ _ 12 0). intros i I. unfold channel_line. rewrite !fields_cons, fields_nil. unfold longs. rewrite !nth_each by lia. rewrite !(Nat.mul_comm i 4).
    do 5 (apply lines_field; [shown|]). constructor. }
  apply lines_app.
  { apply (lines_each _ _ 12 0). intros i I. unfold channel_line, validity_text. rewrite VS, (nth_each (fun i => the_validity b (220 + i * 6))) by lia. cbn [va_nominal va_incomplete va_radiometric va_geometric va_l15 the_validity]. rewrite !fields_cons, fields_nil. rewrite !(Nat.mul_comm i 6).
    replace (220 + 6 * i + 1)%nat with (221 + 6 * i)%nat by lia. replace (220 + 6 * i + 2)%nat with (222 + 6 * i)%nat by lia. replace (220 + 6 * i + 3)%nat with (223 + 6 * i)%nat by lia. replace (220 + 6 * i + 5)%nat with (225 + 6 * i)%nat by lia.
    do 6 (apply lines_field; [shown|]). constructor. }
  do 12 (apply lines_field; [shown|]). constructor.
Qed.
Print Assumptions C222_statistics_partial.
#[local] Transparent octet word long signed_long.
(** The flag that tells that a channel's image came late is read and never listed: files that
    differ only there look the same. *)
Theorem C222_refuted_timeliness h b c i : (i < 12)%nat -> bytes_ok b -> bytes_ok c -> List.length b = 340%nat -> List.length c = 340%nat ->
  (forall j, j <> (224 + 6 * i)%nat -> nth j b 0 = nth j c 0) ->
  exists s t, read_stats h b = Ok s /\ read_stats h c = Ok t /\ va_timeliness (nth i (st_validity s) no_validity) = nth (224 + 6 * i) b 0 /\
    va_timeliness (nth i (st_validity t) no_validity) = nth (224 + 6 * i) c 0 /\ stats_text s = stats_text t.
Proof.
  intros I B C LB LC E. exists (the_stats b), (the_stats c). split; [apply stats_read; lia|]. split; [apply stats_read; lia|]. cbn [st_validity the_stats].
  assert (V : forall d, va_timeliness (nth i (map (fun j => the_validity d (220 + j * 6)) (seq 0 12)) no_validity) = nth (224 + 6 * i) d 0).
  { intros d. rewrite nth_each by lia. cbn [va_timeliness the_validity]. unfold octet. f_equal. lia. }
  split; [apply V|]. split; [apply V|]. clear V.
  assert (O : forall j, j <> (224 + 6 * i)%nat -> octet b j = octet c j) by exact E.
  assert (W : forall j, (j < 219)%nat \/ (292 <= j)%nat -> word b j = word c j) by (intros j J; unfold word; rewrite !O by lia; reflexivity).
  assert (G : forall j, (j < 217)%nat \/ (292 <= j)%nat -> long b j = long c j) by (intros j J; unfold long; rewrite !W by lia; reflexivity).
  assert (S0 : forall j, (j < 217)%nat \/ (292 <= j)%nat -> signed_long b j = signed_long c j) by (intros j J; unfold signed_long; rewrite !G by lia; reflexivity).
  assert (OS : forall off n, (off + n <= 220)%nat -> octets b off n = octets c off n) by (intros off n J; apply map_ext_in; intros j K; apply in_seq in K; apply O; lia).
  assert (LS : forall off n, (off + n * 4 <= 220)%nat -> longs b off n = longs c off n) by (intros off n J; apply map_ext_in; intros j K; apply in_seq in K; apply G; lia).
  assert (SS : forall off n, (292 <= off)%nat -> signed_longs b off n = signed_longs c off n) by (intros off n J; apply map_ext_in; intros j K; apply S0; lia).
  assert (ST : forall j, (j < 200)%nat -> stamp b j = stamp c j) by (intros j J; unfold stamp; rewrite W, G by lia; reflexivity).
  assert (VT : forall j, (j < 12)%nat -> validity_text (nth j (map (fun k => the_validity b (220 + k * 6)) (seq 0 12)) no_validity) = validity_text (nth j (map (fun k => the_validity c (220 + k * 6)) (seq 0 12)) no_validity)).
  { intros j J. rewrite (nth_each (fun k => the_validity b (220 + k * 6))), (nth_each (fun k => the_validity c (220 + k * 6))) by lia. unfold validity_text.
    cbn [va_nominal va_incomplete va_radiometric va_geometric va_l15 the_validity]. rewrite !O by lia. reflexivity. }
  unfold stats_text, the_stats. cbn [st_sat st_scanning st_behaviour st_reception st_validity st_ir st_hrv]. rewrite W, !OS, !ST, !LS, !SS by lia.
  match goal with |- _ ++ _ ++ _ ++ _ ++ _ ++ ?x ++ _ = _ ++ _ ++ _ ++ _ ++ _ ++ ?y ++ _ => assert (X : x = y); [|rewrite X; reflexivity] end.
  rewrite !flat_map_concat_map. apply (f_equal (@List.concat Z)). apply map_ext_in. intros j K. apply in_seq in K. rewrite VT by lia. reflexivity.
Qed.
Print Assumptions C222_refuted_timeliness.
#[local] Opaque octet word long signed_long.
(** The other record: all of its values, each in its place. *)
Theorem C222_timeliness h real b : bytes_ok b -> (132 <= List.length b)%nat ->
  exists t body, read_timeliness h b = Ok t /\ timeliness_text real t = title_lines "-         MSG IMAGE PRODUCTION STATISTICS            -" ++ body /\ lines (timeliness_lines real b) body.
Proof.
  intros B L. exists (the_timeliness b). eexists. split; [now apply timeliness_read|]. split; [unfold timeliness_text; change (title_lines ?x) with (title x); reflexivity|].
  unfold the_timeliness. cbn [tl_delays tl_lines]. unfold timeliness_lines. remember (map (fun i => words b (12 + i * 10) 5) (seq 0 12)) as ws eqn:WS. unfold longs. cbn [seq map Nat.add Nat.mul]. rewrite !fields_cons, !fields_nil. rewrite <- !app_assoc. cbn [app].
  do 3 (apply lines_field; [shown|]). apply (lines_each _ _ 12 0). intros i I. unfold channel_line. rewrite WS, (nth_each (fun i => words b (12 + i * 10) 5)) by lia. unfold words. cbn [seq map]. rewrite !fields_cons, fields_nil.
  replace (12 + i * 10 + 0 * 2)%nat with (12 + 10 * i)%nat by lia. replace (12 + i * 10 + 1 * 2)%nat with (14 + 10 * i)%nat by lia. replace (12 + i * 10 + 2 * 2)%nat with (16 + 10 * i)%nat by lia.
  replace (12 + i * 10 + 3 * 2)%nat with (18 + 10 * i)%nat by lia. replace (12 + i * 10 + 4 * 2)%nat with (20 + 10 * i)%nat by lia.
  do 6 (apply lines_field; [shown|]). constructor.
Qed.
Print Assumptions C222_timeliness.
#[local] Transparent octet word long signed_long.
(** Two files of MSG2, the image of channel 1 on time in one and late in the other. *)
Definition a_file (late : Z) : list Z := [1; 66] ++ repeat 0 26 ++ [0; 0; 14; 136] ++ repeat 0 188 ++ [1; 0; 0; 0; late] ++ repeat 0 67 ++ [255; 255; 255; 254] ++ repeat 0 44.
Example C222_case :
  bytes_ok (a_file 0) /\ bytes_ok (a_file 1) /\ List.length (a_file 0) = 340%nat /\ List.length (a_file 1) = 340%nat /\ nth 224 (a_file 0) 0 <> nth 224 (a_file 1) 0 /\
  (forall j, j <> 224%nat -> nth j (a_file 0) 0 = nth j (a_file 1) 0) /\
  word (a_file 0) 0 = 322 /\ satellite_is 322 (codes "MSG2") /\ long (a_file 0) 28 = 3720 /\ octet (a_file 0) 220 = 1 /\ signed_long (a_file 0) 292 = -2.
Proof.
  assert (B : forall x, 0 <= x <= 1 -> bytes_ok (a_file x)) by (intros x X; unfold a_file, bytes_ok; cbn [repeat app]; repeat constructor; unfold is_byte; lia).
  split; [apply B; lia|]. split; [apply B; lia|]. do 2 (split; [reflexivity|]). split; [discriminate|]. split.
  - intros j J. unfold a_file. cbn [repeat app]. do 224 (destruct j as [|j]; [reflexivity|]; cbn [nth]). destruct j as [|j]; [contradiction|]. reflexivity.
  - split; [reflexivity|]. split; [apply (satellite_shown 322)|]. repeat split; reflexivity.
Qed.
