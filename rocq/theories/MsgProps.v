(** C130 - C135, C138: the data field of HRIT files. *)
From Coq Require Import String.
From Verif Require Import Base BaseFacts IniModel MachineModel MachineProofs HeaderModel LayoutModel ScanModel GribModel NcModel MsgModel.
Import ListNotations.
Open Scope string_scope.
Open Scope list_scope.
Open Scope Z_scope.

(** A header says that the data field has the bytes [d]. *)
Definition announces (hd : header) (d : list Z) : Prop := h_dfl hd / 8 = Z.of_nat (List.length d).
Lemma field_ok hd d rest : announces hd d -> data_field hd (d ++ rest) = Ok d.
Proof.
  unfold announces. intros A. unfold data_field. cbv zeta. rewrite A, app_length. replace (_ <? _) with false by lia. rewrite Nat2Z.id. now rewrite firstn_app_exact.
Qed.
(** A file shorter than its header says ends the program, except in the types
    without data. *)
Lemma field_short hd b : Z.of_nat (List.length b) < h_dfl hd / 8 -> data_field hd b = Terminate.
Proof. intros A. unfold data_field. now replace (_ <? _) with true by lia. Qed.

(** ** C130. Image segments that are not compressed. *)
Definition uncompressed (hd : header) : Prop := h_typecode hd = 0 /\ exists is, h_image hd = Some is /\ is_comp is = 0.
Lemma read_uncompressed h dec co m hd d rest : uncompressed hd -> announces hd d ->
  exists m', read_from h dec co m hd (d ++ rest) = Ok (m', []) /\ m_type m' = 0 /\ m_image m' = Some (mk_image (Z.of_nat (List.length d)) (Chars d)).
Proof.
  intros (T & is & I & C) A. unfold read_from. rewrite T. cbn [Z.eqb]. rewrite (field_ok _ _ _ A). cbn [bind]. rewrite I. cbn [deref bind]. rewrite C. cbn [Z.eqb]. eexists. split; [reflexivity|]. now split.
Qed.
(** The bytes of the file are kept as they are: there are two of them in each
    sample, and the first is the low one on the usual hosts. *)
Theorem C130_bytes_partial dec co m hd d rest : uncompressed hd -> announces hd d ->
  exists m' im, read_from LE dec co m hd (d ++ rest) = Ok (m', []) /\ m_image m' = Some im /\
    forall i, (2 * i + 1 < List.length d)%nat -> sample LE im i = Ok (nth (2 * i) d 0 + 256 * nth (2 * i + 1) d 0).
Proof.
  intros U A. destruct (read_uncompressed LE dec co m hd d rest U A) as (m' & E & _ & I). exists m'; eexists; split; [exact E|]. split; [exact I|]. intros i L. unfold sample. cbn [im_data].
  rewrite bytes_at_ok by lia. cbn [bind]. f_equal. assert (Q : exists x y t, skipn (2 * i) d = x :: y :: t).
  { destruct (skipn (2 * i) d) as [|x [|y t]] eqn:Q; [| |now exists x, y, t]; apply (f_equal (@List.length Z)) in Q; rewrite skipn_length in Q; cbn in Q; lia. }
  destruct Q as (x & y & t & Q). rewrite Q. cbn [firstn]. replace (nth (2 * i) d 0) with x. 2: { pose proof (nth_skipn (2 * i) d 0 0) as N. rewrite Nat.add_0_r in N. rewrite <- N, Q. reflexivity. }
  replace (nth (2 * i + 1) d 0) with y. 2: { pose proof (nth_skipn (2 * i) d 1 0) as N. rewrite <- N, Q. reflexivity. } unfold load_u, be_load. cbn [rev app fold_left]. lia.
Qed.
Print Assumptions C130_bytes_partial.
(** So a segment of [n] pixels of 8 bits has [n] samples, of which only the first
    half exists, and they are made of two pixels each; one of 16 bits, most
    significant byte first as HRIT is, has its values swapped. *)
Theorem C130_refuted_half h dec co m hd d rest : uncompressed hd -> announces hd d -> d <> [] ->
  exists m' im, read_from h dec co m hd (d ++ rest) = Ok (m', []) /\ m_image m' = Some im /\ im_len im = Z.of_nat (List.length d) /\
    forall i, (List.length d <= 2 * i + 1)%nat -> sample h im i = UB.
Proof.
  intros U A N. destruct (read_uncompressed h dec co m hd d rest U A) as (m' & E & _ & I). exists m'; eexists; split; [exact E|]. split; [exact I|]. split; [reflexivity|].
  intros i L. unfold sample. cbn [im_data]. unfold bytes_at. now replace (2 * i + 2 <=? List.length d)%nat with false by lia.
Qed.
Print Assumptions C130_refuted_half.
Definition pixels16 (l : list Z) : list Z := flat_map (be 2) l.
Lemma pixels16_length l : List.length (pixels16 l) = (2 * List.length l)%nat.
Proof. induction l as [|v l IH]; [reflexivity|]. unfold pixels16 in *. cbn [flat_map]. rewrite app_length, be_length, IH. cbn [List.length]. lia. Qed.
Lemma pixels16_nth l i : (i < List.length l)%nat -> nth (2 * i) (pixels16 l) 0 = nth i l 0 / 256 mod 256 /\ nth (2 * i + 1) (pixels16 l) 0 = nth i l 0 mod 256.
Proof.
  revert i. induction l as [|v l IH]; intros i L; [cbn in L; lia|]. unfold pixels16 in *. cbn [flat_map]. cbn [List.length] in L. destruct i as [|i].
  - cbn [Nat.mul Nat.add]. cbn [be nth app]. rewrite Z.pow_1_r, Z.pow_0_r. split; [reflexivity|now rewrite Z.div_1_r].
  - rewrite !app_nth2; rewrite be_length; [|lia|lia]. replace (2 * S i - 2)%nat with (2 * i)%nat by lia. replace (2 * S i + 1 - 2)%nat with (2 * i + 1)%nat by lia. cbn [nth]. apply IH. lia.
Qed.
Theorem C130_refuted_swapped dec co m hd l rest : uncompressed hd -> announces hd (pixels16 l) -> Forall (fun v => 0 <= v < 65536) l ->
  exists m' im, read_from LE dec co m hd (pixels16 l ++ rest) = Ok (m', []) /\ m_image m' = Some im /\
    forall i, (i < List.length l)%nat -> exists v, sample LE im i = Ok v /\ (v = nth i l 0 <-> nth i l 0 / 256 = nth i l 0 mod 256).
Proof.
  intros U A F. destruct (C130_bytes_partial dec co m hd (pixels16 l) rest U A) as (m' & im & E & I & V). exists m', im. split; [exact E|]. split; [exact I|]. intros i L.
  specialize (V i). rewrite pixels16_length in V. specialize (V ltac:(lia)). eexists. split; [exact V|]. destruct (pixels16_nth l i L) as [-> ->]. assert (B : 0 <= nth i l 0 < 65536) by (rewrite Forall_forall in F; apply F; now apply nth_In). lia.
Qed.
Print Assumptions C130_refuted_swapped.
Definition some_header (t bits comp fmt : Z) (an : option annot) : header :=
  mk_h t 0 bits 0 (Some (mk_is 8 2 2 comp 4 4)) None None an None None None (Some (mk_si 0 0 1 1 8 fmt)) None.
Example C130_case : uncompressed (some_header 0 32 0 0 None) /\ announces (some_header 0 32 0 0 None) [1; 2; 3; 4] /\ announces (some_header 0 32 0 0 None) (pixels16 [300; 257]) /\
  300 / 256 <> 300 mod 256 /\ 257 / 256 = 257 mod 256.
Proof. split; [split; [reflexivity|]; eexists; now split|]. repeat split; cbn; lia. Qed.

(** ** C131. Compressed image segments. *)
Definition compressed (hd : header) (is : img_struct) (f : Z) : Prop :=
  h_typecode hd = 0 /\ h_image hd = Some is /\ is_comp is <> 0 /\ exists si, h_seg hd = Some si /\ si_format si = f.
Lemma read_compressed h dec co m hd is f d rest : compressed hd is f -> announces hd d ->
  read_from h dec co m hd (d ++ rest) = (let! im := decode dec f d (is_bpp is) (is_cols is) (is_lines is) in Ok (set_image (with_type m 0) im, [])).
Proof.
  intros (T & I & C & si & SI & F) A. unfold read_from. rewrite T. cbn [Z.eqb]. rewrite (field_ok _ _ _ A). cbn [bind]. rewrite I. cbn [deref bind]. replace (is_comp is =? 0) with false by lia. rewrite SI. cbn [deref bind]. now rewrite F.
Qed.
(** The samples are the pixels that the library decodes, one for each column and
    line that the header announces. *)
Theorem C131_pixels_partial h dec co m hd is f d rest px : compressed hd is f -> announces hd d -> f = 1 \/ f = 2 \/ f = 3 ->
  dec f d (is_bpp is) (is_cols is) (is_lines is) = Ok px -> Z.of_nat (List.length px) = is_cols is * is_lines is -> is_cols is * is_lines is < 2 ^ 31 ->
  exists m' im, read_from h dec co m hd (d ++ rest) = Ok (m', []) /\ m_image m' = Some im /\ im_len im = is_cols is * is_lines is /\
    forall i, (i < List.length px)%nat -> sample h im i = Ok (nth i px 0).
Proof.
  intros C A F D L S31. rewrite (read_compressed h dec co m hd is f d rest C A). unfold decode. replace ((f =? 1) || (f =? 3) || (f =? 2)) with true by lia. rewrite D. cbn [bind].
  replace (2 ^ 31 <=? _) with false by lia. rewrite L. rewrite Z.ltb_irrefl. cbn [bind]. do 2 eexists. split; [reflexivity|]. split; [reflexivity|]. split; [reflexivity|].
  intros i LI. unfold sample. cbn [im_data]. unfold rd1. rewrite firstn_all2 by lia. now rewrite (nth_error_nth' px 0 LI).
Qed.
Print Assumptions C131_pixels_partial.
(** The library may make a smaller image, since its size is in the data too: then
    memory after it is read. *)
Theorem C131_refuted_small h dec co m hd is f d rest px : compressed hd is f -> announces hd d -> f = 1 \/ f = 2 \/ f = 3 ->
  dec f d (is_bpp is) (is_cols is) (is_lines is) = Ok px -> Z.of_nat (List.length px) < is_cols is * is_lines is -> read_from h dec co m hd (d ++ rest) = UB.
Proof.
  intros C A F D L. rewrite (read_compressed h dec co m hd is f d rest C A). unfold decode. replace ((f =? 1) || (f =? 3) || (f =? 2)) with true by lia. rewrite D. cbn [bind].
  destruct (2 ^ 31 <=? _); [reflexivity|]. now replace (_ <? _) with true by lia.
Qed.
Print Assumptions C131_refuted_small.
(** Any other format ends the program. *)
Theorem C131_formats h dec co m hd is f d rest : compressed hd is f -> announces hd d -> f <> 1 -> f <> 2 -> f <> 3 -> read_from h dec co m hd (d ++ rest) = Terminate.
Proof. intros C A F1 F2 F3. rewrite (read_compressed h dec co m hd is f d rest C A). unfold decode. now replace ((f =? 1) || (f =? 3) || (f =? 2)) with false by lia. Qed.
Print Assumptions C131_formats.
Example C131_case : compressed (some_header 0 16 1 3 None) (mk_is 8 2 2 1 4 4) 3 /\ announces (some_header 0 16 1 3 None) [9; 9].
Proof. split; [|reflexivity]. split; [reflexivity|]. split; [reflexivity|]. split; [discriminate|]. eexists. now split. Qed.

(** ** C132. Encryption key messages: station (2 bytes), key number (1), public key
    (192), its CRC (2). *)
Record key_entry := mk_ke { e_station : Z; e_number : Z; e_public : list Z; e_crc : Z }.
Definition entry_ok (e : key_entry) : Prop := 0 <= e_station e < 65536 /\ 0 <= e_number e < 256 /\ List.length (e_public e) = 192%nat /\ 0 <= e_crc e < 65536.
Definition entry_bytes (e : key_entry) : list Z := be 2 (e_station e) ++ [e_number e] ++ e_public e ++ be 2 (e_crc e).
Definition read_as (e : key_entry) (k : key) : Prop :=
  k_station k = e_station e /\ k_crc k = e_crc e /\ k_number k = e_station e mod 256 /\ k_public k = e_number e :: firstn 191 (e_public e).
Lemma entry_length e : entry_ok e -> List.length (entry_bytes e) = 197%nat.
Proof. intros (_ & _ & L & _). unfold entry_bytes. rewrite !app_length, !be_length. cbn [List.length]. lia. Qed.
Lemma read_keys_entries h es rest : Forall entry_ok es -> exists ks, read_keys h (List.length es) (List.concat (map entry_bytes es) ++ rest) = Ok ks /\ Forall2 read_as es ks.
Proof.
  induction 1 as [|e es E F IH]; [exists []; now split|]. destruct IH as (ks & EK & FK). cbn [map List.concat List.length read_keys].
  assert (L : List.length (entry_bytes e) = 197%nat) by now apply entry_length. rewrite <- app_assoc. set (tl := List.concat (map entry_bytes es) ++ rest) in *. destruct E as (E1 & E2 & E3 & E4).
  assert (B1 : bytes_at (entry_bytes e ++ tl) 0 2 = Ok (be 2 (e_station e))) by (rewrite bytes_at_ok by (rewrite app_length; lia); cbn [skipn]; unfold entry_bytes; rewrite <- app_assoc; now rewrite firstn_app_exact).
  assert (B4 : bytes_at (entry_bytes e ++ tl) 195 2 = Ok (be 2 (e_crc e))).
  { replace (entry_bytes e ++ tl) with ((be 2 (e_station e) ++ [e_number e] ++ e_public e) ++ be 2 (e_crc e) ++ tl) by (unfold entry_bytes; now rewrite <- !app_assoc). apply bytes_at_app; [rewrite !app_length, be_length; cbn [List.length]; lia|now rewrite be_length]. }
  rewrite !rd_ui_spec, B1, B4. cbn [bind].
  assert (B2 : rd1 (entry_bytes e ++ tl) 1 = Ok (e_station e mod 256)) by (unfold rd1, entry_bytes; cbn [be app nth_error]; change (Z.of_nat 0) with 0; now rewrite Z.pow_0_r, Z.div_1_r). rewrite B2. cbn [bind].
  assert (B3 : bytes_at (entry_bytes e ++ tl) 2 192 = Ok (e_number e :: firstn 191 (e_public e))).
  { rewrite bytes_at_ok by (rewrite app_length; lia). replace (skipn 2 (entry_bytes e ++ tl)) with (e_number e :: e_public e ++ (be 2 (e_crc e) ++ tl)) by (unfold entry_bytes; cbn [be app skipn]; now rewrite <- app_assoc).
    change (Ok (e_number e :: firstn 191 (e_public e ++ (be 2 (e_crc e) ++ tl))) = Ok (e_number e :: firstn 191 (e_public e))). rewrite firstn_app. replace (191 - List.length (e_public e))%nat with 0%nat by lia. change (firstn 0 (be 2 (e_crc e) ++ tl)) with (@nil Z). now rewrite app_nil_r. }
  rewrite B3. cbn [bind]. replace (skipn 197 (entry_bytes e ++ tl)) with tl by (symmetry; now apply skipn_app_exact). rewrite EK. cbn [bind]. eexists. split; [reflexivity|]. constructor; [|exact FK].
  unfold read_as. cbn [k_station k_crc k_number k_public]. rewrite !be_val_be_small by (change (256 ^ Z.of_nat 2) with 65536; lia). repeat split.
Qed.
Lemma concat_entries es : Forall entry_ok es -> List.length (List.concat (map entry_bytes es)) = (197 * List.length es)%nat.
Proof. induction 1 as [|e es E F IH]; [reflexivity|]. cbn [map List.concat List.length]. rewrite app_length, IH, entry_length by assumption. lia. Qed.
(** Every message has the right number of keys, with the right stations and CRCs. *)
Theorem C132_keys_partial h dec co m hd es tail rest : h_typecode hd = 3 -> Forall entry_ok es -> (1 <= List.length es)%nat -> Z.of_nat (List.length es) <= 65536 -> (List.length tail < 197)%nat ->
  announces hd (List.concat (map entry_bytes es) ++ tail) ->
  exists m' ks, read_from h dec co m hd ((List.concat (map entry_bytes es) ++ tail) ++ rest) = Ok (m', []) /\ m_key m' = Some ks /\
    map k_station ks = map e_station es /\ map k_crc ks = map e_crc es.
Proof.
  intros T F N1 N2 LT A. unfold read_from. rewrite T. cbn [Z.eqb Pos.eqb]. rewrite (field_ok _ _ _ A). cbn [bind]. unfold read_key_message.
  assert (Q : Z.of_nat (List.length (List.concat (map entry_bytes es) ++ tail)) / 197 = Z.of_nat (List.length es)) by (rewrite app_length, concat_entries by assumption; lia). rewrite Q.
  rewrite to_signed_unsigned by lia. replace ((65536 <? Z.of_nat (List.length es)) || (Z.of_nat (List.length es) <=? 0)) with false by lia. rewrite Nat2Z.id.
  destruct (read_keys_entries h es tail F) as (ks & EK & FK). rewrite EK. cbn [bind]. eexists; exists ks; split; [reflexivity|]. split; [reflexivity|]. clear - FK. split; induction FK as [|e k es ks R FK IH]; cbn [map]; try reflexivity; f_equal; try apply R; assumption.
Qed.
Print Assumptions C132_keys_partial.
(** No key is ever right: the number is the low byte of the station, the public key
    starts with the number and lacks its last byte. *)
Theorem C132_refuted_keys h dec co m hd es tail rest : h_typecode hd = 3 -> Forall entry_ok es -> (1 <= List.length es)%nat -> Z.of_nat (List.length es) <= 65536 -> (List.length tail < 197)%nat ->
  announces hd (List.concat (map entry_bytes es) ++ tail) ->
  exists m' ks, read_from h dec co m hd ((List.concat (map entry_bytes es) ++ tail) ++ rest) = Ok (m', []) /\ m_key m' = Some ks /\ Forall2 read_as es ks /\
    Forall2 (fun e k => (k_number k = e_number e <-> e_station e mod 256 = e_number e) /\ (k_public k = e_public e <-> e_public e = repeat (e_number e) 192)) es ks.
Proof.
  intros T F N1 N2 LT A. unfold read_from. rewrite T. cbn [Z.eqb Pos.eqb]. rewrite (field_ok _ _ _ A). cbn [bind]. unfold read_key_message.
  assert (Q : Z.of_nat (List.length (List.concat (map entry_bytes es) ++ tail)) / 197 = Z.of_nat (List.length es)) by (rewrite app_length, concat_entries by assumption; lia). rewrite Q.
  rewrite to_signed_unsigned by lia. replace ((65536 <? Z.of_nat (List.length es)) || (Z.of_nat (List.length es) <=? 0)) with false by lia. rewrite Nat2Z.id.
  destruct (read_keys_entries h es tail F) as (ks & EK & FK). rewrite EK. cbn [bind]. eexists; exists ks; split; [reflexivity|]. split; [reflexivity|]. split; [exact FK|]. clear - FK F.
  induction FK as [|e k es ks R FK IH]; constructor; [|apply IH; now inversion F]. inversion F as [|? ? E _]; subst. destruct E as (_ & _ & L & _). destruct R as (_ & _ & R1 & R2). rewrite R1, R2. split; [reflexivity|].
  generalize (e_number e) as c. intros c. generalize dependent (e_public e). clear. intros l _ L.
  change 192%nat with (S 191) in *. generalize dependent 191%nat. intros n L. revert l L c. induction n as [|n IHn]; intros l L c.
  - destruct l as [|x [|y l]]; try discriminate. cbn. split; congruence.
  - destruct l as [|x l]; [discriminate|]. cbn [List.length] in L. injection L as L. cbn [firstn repeat]. split; intros H.
    + injection H as H1 H2. subst x. f_equal. apply (IHn l L c). exact H2.
    + injection H as H1 H2. subst x. f_equal. apply (IHn l L c). exact H2.
Qed.
Print Assumptions C132_refuted_keys.
(** A message without a whole key, or with more than 65536, ends the program. *)
Theorem C132_size h dec co m hd d rest : h_typecode hd = 3 -> announces hd d -> Z.of_nat (List.length d) < 197 \/ 65536 < Z.of_nat (List.length d) / 197 < 2 ^ 31 -> read_from h dec co m hd (d ++ rest) = Terminate.
Proof.
  intros T A S0. unfold read_from. rewrite T. cbn [Z.eqb Pos.eqb]. rewrite (field_ok _ _ _ A). cbn [bind]. unfold read_key_message. rewrite to_signed_unsigned by lia.
  now replace ((65536 <? Z.of_nat (List.length d) / 197) || (Z.of_nat (List.length d) / 197 <=? 0)) with true by lia.
Qed.
Print Assumptions C132_size.
Example C132_case : Forall entry_ok [mk_ke 513 7 (repeat 65 192) 12; mk_ke 2 2 (repeat 2 192) 0] /\ announces (some_header 3 3152 0 0 None) (List.concat (map entry_bytes [mk_ke 513 7 (repeat 65 192) 12; mk_ke 2 2 (repeat 2 192) 0])).
Proof. split; [repeat constructor; cbn; lia|]. unfold announces. rewrite concat_entries by (repeat constructor; cbn; lia). reflexivity. Qed.

(** ** C133. Texts, GTS and binary messages; the files written. *)
Theorem C133_text h dec co m hd d rest : h_typecode hd = 2 -> announces hd d -> d <> [] ->
  exists m', read_from h dec co m hd (d ++ rest) = Ok (m', []) /\ m_text m' = Some d.
Proof.
  intros T A N. unfold read_from. rewrite T. cbn [Z.eqb Pos.eqb]. rewrite (field_ok _ _ _ A). cbn [bind]. unfold read_text. replace (_ =? 0) with false by (destruct d; [contradiction|cbn [List.length]; lia]). cbn [bind]. eexists. now split.
Qed.
Print Assumptions C133_text.
Theorem C133_gts h dec co m hd an d rest : h_typecode hd = 1 -> announces hd d -> d <> [] -> Z.of_nat (List.length d) <= 15000 * 65535 -> h_annot hd = Some an -> co (an_text an ++ codes ".bin") = true ->
  exists m', read_from h dec co m hd (d ++ rest) = Ok (m', [(an_text an ++ codes ".bin", d)]) /\ m_gts m' = Some d.
Proof.
  intros T A N L AN CO. unfold read_from. rewrite T. cbn [Z.eqb Pos.eqb]. rewrite (field_ok _ _ _ A). cbn [bind]. unfold read_gts. replace ((_ =? 0) || _) with false by (destruct d; [contradiction|cbn [List.length] in *; lia]). cbn [bind]. rewrite AN. cbn [deref bind]. rewrite CO. eexists. now split.
Qed.
Print Assumptions C133_gts.
Theorem C133_binary h dec co m hd an d rest : h_typecode hd = 144 -> announces hd d -> h_annot hd = Some an ->
  (co (an_text an ++ codes ".bin") = true -> exists m', read_from h dec co m hd (d ++ rest) = Ok (m', [(an_text an ++ codes ".bin", d)])) /\
  (co (an_text an ++ codes ".bin") = false -> read_from h dec co m hd (d ++ rest) = Terminate).
Proof.
  intros T A AN. unfold read_from. rewrite T. cbn [Z.eqb Pos.eqb]. rewrite (field_ok _ _ _ A). cbn [bind]. rewrite AN. cbn [deref bind]. split; intros CO; rewrite CO; [eexists; reflexivity|reflexivity].
Qed.
Print Assumptions C133_binary.
(** Reading any other file writes nothing. *)
Theorem C133_nothing_else h dec co m hd b m' w : h_typecode hd <> 1 -> h_typecode hd <> 144 -> read_from h dec co m hd b = Ok (m', w) -> w = [].
Proof.
  intros N1 N2. unfold read_from. replace (h_typecode hd =? 1) with false by lia. replace (h_typecode hd =? 144) with false by lia.
  destruct (h_typecode hd =? 0). { destruct (data_field hd b) as [d| | | |]; cbn [bind]; try discriminate. destruct (h_image hd) as [is|]; cbn [deref bind]; try discriminate. destruct (is_comp is =? 0); [intros H; now injection H|]. destruct (h_seg hd) as [si|]; cbn [deref bind]; try discriminate. destruct (decode _ _ _ _ _ _); cbn [bind]; try discriminate. intros H; now injection H. }
  destruct (h_typecode hd =? 2). { destruct (data_field hd b) as [d| | | |]; cbn [bind]; try discriminate. destruct (read_text d); cbn [bind]; try discriminate. intros H; now injection H. }
  destruct (h_typecode hd =? 3). { destruct (data_field hd b) as [d| | | |]; cbn [bind]; try discriminate. destruct (read_key_message h d); cbn [bind]; try discriminate. intros H; now injection H. }
  destruct (h_typecode hd =? 128). { destruct (data_field hd b) as [d| | | |]; cbn [bind]; try discriminate. destruct (h_annot hd) as [an|]; cbn [deref bind]; try discriminate. destruct (find _ _). { destruct (fetch d _); cbn [bind]; try discriminate. intros H; now injection H. } destruct (foreign _); [|intros H; now injection H]. destruct (read_sgs h d); cbn [bind]; try discriminate. intros H; now injection H. }
  destruct (h_typecode hd =? 129). { destruct (data_field hd b) as [d| | | |]; cbn [bind]; try discriminate. destruct (h_annot hd) as [an|]; cbn [deref bind]; try discriminate. destruct (find _ _); [|intros H; now injection H]. destruct (fetch d _); cbn [bind]; try discriminate. intros H; now injection H. }
  destruct (h_typecode hd =? 130); [intros H; now injection H|discriminate].
Qed.
Print Assumptions C133_nothing_else.
(** The name comes from the file being read, whatever it is: it may lead out of the
    current directory. *)
Theorem C133_refuted_directory h dec co m hd an d rest : h_typecode hd = 144 -> announces hd d -> h_annot hd = Some an -> In 47 (an_text an) -> co (an_text an ++ codes ".bin") = true ->
  exists m' name, read_from h dec co m hd (d ++ rest) = Ok (m', [(name, d)]) /\ In 47 name.
Proof. intros T A AN I CO. destruct (proj1 (C133_binary h dec co m hd an d rest T A AN) CO) as (m' & E). exists m', (an_text an ++ codes ".bin"). split; [exact E|]. apply in_or_app. now left. Qed.
Print Assumptions C133_refuted_directory.
(** A GTS message whose copy cannot be written is read as if it had been. *)
Theorem C133_refuted_lost h dec co m hd an d rest : h_typecode hd = 1 -> announces hd d -> d <> [] -> Z.of_nat (List.length d) <= 15000 * 65535 -> h_annot hd = Some an -> co (an_text an ++ codes ".bin") = false ->
  exists m', read_from h dec co m hd (d ++ rest) = Ok (m', []) /\ m_gts m' = Some d.
Proof.
  intros T A N L AN CO. unfold read_from. rewrite T. cbn [Z.eqb Pos.eqb]. rewrite (field_ok _ _ _ A). cbn [bind]. unfold read_gts. replace ((_ =? 0) || _) with false by (destruct d; [contradiction|cbn [List.length] in *; lia]). cbn [bind]. rewrite AN. cbn [deref bind]. rewrite CO. eexists. now split.
Qed.
Print Assumptions C133_refuted_lost.
(** Such annotations exist: 61 characters in a header record. *)
Example C133_case : exists an, read_annotation ([4; 0; 64] ++ codes "../../../../tmp/MSG2__-MSG2________-GTS______-000000001-20061") = Ok an /\ In 47 (an_text an) /\
  announces (some_header 144 16 0 0 (Some an)) [1; 2].
Proof. eexists. split; [vm_compute; reflexivity|]. split; [cbn; tauto|reflexivity]. Qed.

(** ** C134. Prologues of foreign satellites. *)
Record sgs_file := mk_sf { g_skip : list Z; g_time : list Z; g_four : Z * Z * Z * Z; g_base : list Z; g_prod : list Z; g_skip2 : list Z; g_len : Z; g_rest : list Z }.
Definition sgs_ok (f : sgs_file) : Prop :=
  List.length (g_skip f) = 4%nat /\ List.length (g_time f) = 6%nat /\ List.length (g_base f) = 16%nat /\ List.length (g_prod f) = 16%nat /\ List.length (g_skip2 f) = 4%nat /\ 0 <= g_len f < 2 ^ 32.
Definition sgs_bytes (f : sgs_file) : list Z :=
  let '(q, c, t, i) := g_four f in g_skip f ++ g_time f ++ [q; c; t; i] ++ g_base f ++ g_prod f ++ g_skip2 f ++ be 4 (g_len f) ++ g_rest f.
Ltac lengths := rewrite ?app_length, ?be_length; cbn [List.length]; lia.
Lemma read_sgs_ok h f : sgs_ok f -> read_sgs h (sgs_bytes f) =
  let '(q, c, t, i) := g_four f in
  if Z.of_nat (List.length (g_rest f)) <? (g_len f - 8) mod 2 ^ 32 then UB
  else Ok (mk_sgs (mk_cds (be_val (firstn 2 (g_time f))) (be_val (skipn 2 (g_time f))) (86400 * be_val (firstn 2 (g_time f)) + be_val (skipn 2 (g_time f)) / 1000 + -378691200) (be_val (skipn 2 (g_time f)) mod 1000))
                  q c t i (g_base f) (g_prod f) (g_len f) (firstn (Z.to_nat ((g_len f - 8) mod 2 ^ 32)) (g_rest f))).
Proof.
  intros (L1 & L2 & L3 & L4 & L5 & L6). unfold read_sgs, sgs_bytes. destruct f as [sk ti [[[q c] t] i] ba pr sk2 len rs]. cbn [g_skip g_time g_four g_base g_prod g_skip2 g_len g_rest] in *.
  destruct sk as [|a0 [|a1 [|a2 [|a3 [|]]]]]; try discriminate. destruct ti as [|b0 [|b1 [|b2 [|b3 [|b4 [|b5 [|]]]]]]]; try discriminate. destruct sk2 as [|c0 [|c1 [|c2 [|c3 [|]]]]]; try discriminate.
  rewrite (read_cds_short_spec h _ 4 [b0; b1; b2; b3; b4; b5]) by reflexivity. cbn [bind]. cbn [app]. unfold rd1. cbn [nth_error bind].
  set (B := [a0; a1; a2; a3; b0; b1; b2; b3; b4; b5; q; c; t; i]). set (T := [c0; c1; c2; c3] ++ be 4 len ++ rs).
  change (a0 :: a1 :: _) with (B ++ ba ++ pr ++ T).
  rewrite (bytes_at_app B ba) by (reflexivity || (symmetry; assumption)). cbn [bind]. rewrite (app_assoc B ba). rewrite (bytes_at_app (B ++ ba) pr) by (rewrite ?app_length; subst B; cbn [List.length]; lia). cbn [bind].
  replace (skipn 46 ((B ++ ba) ++ pr ++ T)) with T by (rewrite app_assoc; symmetry; apply skipn_app_exact; rewrite !app_length; subst B; cbn [List.length]; lia).
  rewrite rd_ui_spec. unfold T. rewrite (bytes_at_app [c0; c1; c2; c3] (be 4 len) rs) by (rewrite ?be_length; reflexivity). cbn [bind]. rewrite be_val_be_small by (change (256 ^ Z.of_nat 4) with (2 ^ 32); lia).
  set (n := (len - 8) mod 2 ^ 32). assert (N : 0 <= n) by (apply Z.mod_pos_bound; lia). clearbody n. rewrite !app_length, be_length. cbn [List.length]. replace (Z.of_nat (4 + (4 + List.length rs)) <? 8 + n) with (Z.of_nat (List.length rs) <? n) by lia.
  destruct (Z.of_nat (List.length rs) <? n) eqn:E; [reflexivity|]. cbn [bind]. rewrite bytes_at_ok by (rewrite !app_length, be_length; cbn [List.length]; lia). cbn [bind]. do 2 f_equal.
Qed.
Definition foreign_prologue (hd : header) : Prop := h_typecode hd = 128 /\ exists an, h_annot hd = Some an /\ find (codes "MSG") (an_pid1 an) = false /\ foreign (an_pid1 an) = true.
Lemma read_foreign h dec co m hd d rest : foreign_prologue hd -> announces hd d -> read_from h dec co m hd (d ++ rest) = (let! s := read_sgs h d in Ok (set_sgs (with_type m 128) s, [])).
Proof. intros (T & an & AN & F1 & F2) A. unfold read_from. rewrite T. cbn [Z.eqb Pos.eqb]. rewrite (field_ok _ _ _ A). cbn [bind]. rewrite AN. cbn [deref bind]. now rewrite F1, F2. Qed.
Theorem C134_prologue_partial h dec co m hd f rest q c t i : foreign_prologue hd -> sgs_ok f -> g_four f = (q, c, t, i) -> announces hd (sgs_bytes f) -> 8 <= g_len f -> g_len f - 8 <= Z.of_nat (List.length (g_rest f)) ->
  exists m' s, read_from h dec co m hd (sgs_bytes f ++ rest) = Ok (m', []) /\ m_sgs m' = Some s /\
    s_quality s = q /\ s_completeness s = c /\ s_timeliness s = t /\ s_instance s = i /\ s_base s = g_base f /\ s_product s = g_prod f /\
    cds_day (s_time s) = be_val (firstn 2 (g_time f)) /\ cds_msec (s_time s) = be_val (skipn 2 (g_time f)) /\
    s_length s = g_len f /\ s_payload s = firstn (Z.to_nat (g_len f - 8)) (g_rest f).
Proof.
  intros F O Q A L1 L2. rewrite (read_foreign h dec co m hd _ rest F A), (read_sgs_ok h f O), Q. destruct O as (_ & _ & _ & _ & _ & O). rewrite Z.mod_small by lia. replace (_ <? _) with false by lia. cbn [bind].
  do 2 eexists. split; [reflexivity|]. split; [reflexivity|]. cbn. repeat split; reflexivity.
Qed.
Print Assumptions C134_prologue_partial.
(** A length that is too large for the data field, or less than its own header, reads
    outside of it. *)
Theorem C134_refuted_length h dec co m hd f rest : foreign_prologue hd -> sgs_ok f -> announces hd (sgs_bytes f) ->
  8 + Z.of_nat (List.length (g_rest f)) < g_len f \/ g_len f < 8 /\ Z.of_nat (List.length (g_rest f)) < 2 ^ 32 - 8 -> read_from h dec co m hd (sgs_bytes f ++ rest) = UB.
Proof.
  intros F O A B. rewrite (read_foreign h dec co m hd _ rest F A), (read_sgs_ok h f O). destruct (g_four f) as [[[q c] t] i]. destruct O as (_ & _ & _ & _ & _ & O).
  replace (Z.of_nat (List.length (g_rest f)) <? (g_len f - 8) mod 2 ^ 32) with true; [reflexivity|]. symmetry. apply Z.ltb_lt. destruct B as [B|[B1 B2]]; [rewrite Z.mod_small by lia; lia|].
  assert (U : g_len f - 8 + 2 ^ 32 = (g_len f - 8) mod 2 ^ 32) by (apply (Z.mod_unique _ _ (-1)); lia). rewrite <- U. lia.
Qed.
Print Assumptions C134_refuted_length.
Definition goes_annot : annot := mk_an (codes "H-000-GOES10") [] [] [] (codes "GOES10______") [] [] [] [].
Example C134_case : foreign_prologue (some_header 128 456 0 0 (Some goes_annot)) /\ sgs_ok (mk_sf [0; 0; 0; 0] [0; 1; 0; 0; 0; 9] (1, 2, 3, 4) (repeat 66 16) (repeat 67 16) [0; 0; 0; 0] 11 [7; 8; 9]) /\
  announces (some_header 128 456 0 0 (Some goes_annot)) (sgs_bytes (mk_sf [0; 0; 0; 0] [0; 1; 0; 0; 0; 9] (1, 2, 3, 4) (repeat 66 16) (repeat 67 16) [0; 0; 0; 0] 11 [7; 8; 9])).
Proof. split; [split; [reflexivity|]; eexists; repeat split; reflexivity|]. split; [repeat split; cbn; lia|reflexivity]. Qed.

(** ** C135. Printing what was read. *)
Definition has_nul (l : list Z) : Prop := In 0 l.
Lemma upto_nul_none l : upto_nul l = None <-> ~ In 0 l.
Proof.
  induction l as [|b l IH]; cbn; [tauto|]. destruct (b =? 0) eqn:E; [split; [discriminate|]; intros N; exfalso; apply N; left; lia|]. destruct (upto_nul l); cbn; split; intros H; try discriminate; try reflexivity.
  - exfalso. apply H. right. destruct (in_dec Z.eq_dec 0 l) as [I|I]; [exact I|]. apply IH in I. discriminate.
  - intros [J|J]; [lia|]. now apply IH.
Qed.
Lemma c_string_ub l : c_string l = UB <-> ~ has_nul l.
Proof. unfold c_string, has_nul. rewrite <- upto_nul_none. destruct (upto_nul l); split; intros H; try discriminate; reflexivity. Qed.
Lemma c_string_cases l : c_string l = UB \/ exists s, c_string l = Ok s.
Proof. unfold c_string. destruct (upto_nul l); [right; now eexists|now left]. Qed.
Lemma print_keys_cases ks : print_keys ks = UB /\ Exists (fun k => ~ has_nul (k_public k)) ks \/ (exists s, print_keys ks = Ok s) /\ Forall (fun k => has_nul (k_public k)) ks.
Proof.
  induction ks as [|k ks IH]; [right; split; [now eexists|constructor]|]. cbn [print_keys]. unfold print_key. destruct (c_string_cases (k_public k)) as [E|(s & E)]; rewrite E; cbn [bind].
  - left. split; [reflexivity|]. left. now apply c_string_ub.
  - assert (N : has_nul (k_public k)). { destruct (in_dec Z.eq_dec 0 (k_public k)) as [I|I]; [exact I|]. apply c_string_ub in I. rewrite I in E. discriminate. }
    destruct IH as [[-> X]|[(r & ->) F]]; cbn [bind]; [left; split; [reflexivity|now right]|right; split; [now eexists|now constructor]].
Qed.
Lemma print_samples_all h im i n : (forall j, (i <= j < i + n)%nat -> exists v, sample h im j = Ok v) -> exists s, print_samples h im i n = Ok s.
Proof.
  revert i. induction n as [|n IH]; intros i H; [now eexists|]. cbn [print_samples]. destruct (H i ltac:(lia)) as (v & ->). cbn [bind]. destruct (IH (S i)) as (s & ->); [intros j J; apply H; lia|]. cbn [bind]. now eexists.
Qed.
Lemma print_samples_chars h len l i n : (List.length l <= 2 * (i + n) - 1)%nat -> (0 < n)%nat -> print_samples h (mk_image len (Chars l)) i n = UB.
Proof.
  revert i. induction n as [|n IH]; intros i L N; [lia|]. cbn [print_samples]. unfold sample. cbn [im_data]. unfold bytes_at. destruct (2 * i + 2 <=? List.length l)%nat eqn:E; [|reflexivity]. cbn [bind]. rewrite IH; [reflexivity|lia|lia].
Qed.
(** What can be printed. *)
Definition printable (m : mdata) : Prop :=
  match m_type m with
  | 0 => exists im, m_image m = Some im /\ match im_data im with Samples _ => True | Chars l => l = [] end
  | 2 => exists x, m_text m = Some x /\ has_nul x
  | 3 => exists ks, m_key m = Some ks /\ Forall (fun k => has_nul (k_public k)) ks
  | 128 => m_prologue m <> None
  | 129 => m_epilogue m <> None
  | _ => True
  end.
(** Everything that is read prints, or prints with undefined behaviour: images not
    compressed, texts and keys without a NUL, prologues and epilogues of other
    satellites. *)
Definition dims_ok (hd : header) : Prop := forall is, h_image hd = Some is -> 0 <= is_cols is * is_lines is.
Theorem C135_print_partial h dec co hd b show m w : (forall p, exists s, show p = Ok s) -> dims_ok hd -> h_dfl hd / 8 < 2 ^ 31 -> read_from h dec co new_mdata hd b = Ok (m, w) ->
  (printable m -> exists s, print_data h show m = Ok s) /\ (~ printable m -> print_data h show m = UB).
Proof.
  intros SH DM SZ. unfold read_from. destruct (h_typecode hd =? 0) eqn:T0.
  { assert (T : h_typecode hd = 0) by lia. rewrite T. unfold data_field. destruct (Z.of_nat (List.length b) <? h_dfl hd / 8) eqn:LB; [discriminate|]. cbn [bind]. destruct (h_image hd) as [is|] eqn:IS; cbn [deref bind]; [|discriminate]. specialize (DM is IS).
    set (d := firstn (Z.to_nat (h_dfl hd / 8)) b). assert (LD : Z.of_nat (List.length d) < 2 ^ 31) by (subst d; rewrite firstn_length; lia). clearbody d.
    destruct (is_comp is =? 0).
    - intros E. injection E as <- _. unfold print_data, printable. cbn [m_type set_image with_type Z.eqb m_image deref bind]. unfold print_image. cbn [im_len]. rewrite to_signed_unsigned by lia. rewrite Nat2Z.id. split.
      + intros (im & Q & P). injection Q as <-. cbn [im_data] in P. subst d. cbn [List.length print_samples bind]. now eexists.
      + intros N. rewrite print_samples_chars; [reflexivity|lia|]. destruct d; [exfalso; apply N; eexists; split; reflexivity|cbn [List.length]; lia].
    - destruct (h_seg hd) as [si|]; cbn [deref bind]; [|discriminate]. unfold decode. destruct ((si_format si =? 1) || (si_format si =? 3) || (si_format si =? 2)); [|discriminate]. destruct (dec _ _ _ _ _) as [px| | | |]; cbn [bind]; try discriminate.
      destruct (2 ^ 31 <=? is_cols is * is_lines is) eqn:E31; [discriminate|]. destruct (Z.of_nat (List.length px) <? is_cols is * is_lines is) eqn:EL; [discriminate|]. cbn [bind]. intros E. injection E as <- _. unfold print_data, printable. cbn [m_type set_image with_type Z.eqb m_image deref bind]. split.
      + intros _. unfold print_image. cbn [im_len im_data]. rewrite to_signed_unsigned by lia. destruct (print_samples_all h (mk_image (is_cols is * is_lines is) (Samples (firstn (Z.to_nat (is_cols is * is_lines is)) px))) 0 (Z.to_nat (is_cols is * is_lines is))) as (s & ->); [|cbn [bind]; now eexists].
        intros j J. unfold sample. cbn [im_data]. unfold rd1. destruct (nth_error _ j) eqn:NE; [now eexists|]. apply nth_error_None in NE. rewrite firstn_length in NE. lia.
      + intros N. exfalso. apply N. eexists. split; [reflexivity|cbn; exact Logic.I]. }
  destruct (h_typecode hd =? 1) eqn:T1.
  { assert (T : h_typecode hd = 1) by lia. rewrite T. destruct (data_field hd b) as [d| | | |]; cbn [bind]; try discriminate. destruct (read_gts d) as [g| | | |]; cbn [bind]; try discriminate. destruct (h_annot hd); cbn [deref bind]; try discriminate. intros E. injection E as <- _.
    unfold print_data, printable. cbn [m_type set_gts with_type Z.eqb Pos.eqb m_gts deref bind]. split; [intros _; now eexists|tauto]. }
  destruct (h_typecode hd =? 2) eqn:T2.
  { assert (T : h_typecode hd = 2) by lia. rewrite T. destruct (data_field hd b) as [d| | | |]; cbn [bind]; try discriminate. destruct (read_text d) as [x| | | |]; cbn [bind]; try discriminate. intros E. injection E as <- _.
    unfold print_data, printable. cbn [m_type set_text with_type Z.eqb Pos.eqb m_text deref bind]. destruct (c_string_cases x) as [C|(s & C)]; rewrite C; cbn [bind]; split; intros P; try reflexivity; try now eexists.
    - destruct P as (y & Q & P). injection Q as <-. now apply c_string_ub in C.
    - exfalso. apply P. exists x. split; [reflexivity|]. destruct (in_dec Z.eq_dec 0 x) as [I|I]; [exact I|]. apply c_string_ub in I. rewrite I in C. discriminate. }
  destruct (h_typecode hd =? 3) eqn:T3.
  { assert (T : h_typecode hd = 3) by lia. rewrite T. destruct (data_field hd b) as [d| | | |]; cbn [bind]; try discriminate. destruct (read_key_message h d) as [ks| | | |]; cbn [bind]; try discriminate. intros E. injection E as <- _.
    unfold print_data, printable. cbn [m_type set_key with_type Z.eqb Pos.eqb m_key deref bind]. destruct (print_keys_cases ks) as [[C X]|[(s & C) F]]; rewrite C; cbn [bind]; split; intros P; try reflexivity; try now eexists.
    - destruct P as (y & Q & P). injection Q as <-. exfalso. rewrite Exists_exists in X. destruct X as (k & IK & NK). rewrite Forall_forall in P. now apply NK, P.
    - exfalso. apply P. now exists ks. }
  destruct (h_typecode hd =? 128) eqn:T4.
  { assert (T : h_typecode hd = 128) by lia. rewrite T. destruct (data_field hd b) as [d| | | |]; cbn [bind]; try discriminate. destruct (h_annot hd) as [an|]; cbn [deref bind]; try discriminate. destruct (find _ _).
    - destruct (fetch d _) as [p| | | |]; cbn [bind]; try discriminate. intros E. injection E as <- _. unfold print_data, printable. cbn [m_type set_prologue with_type Z.eqb Pos.eqb m_prologue deref bind]. destruct (SH p) as (s & ->). cbn [bind]. split; [intros _; now eexists|]. intros N. exfalso. apply N. discriminate.
    - destruct (foreign _); [destruct (read_sgs h d) as [sg| | | |]; cbn [bind]; try discriminate|]; intros E; injection E as <- _; unfold print_data, printable; cbn [m_type set_sgs with_type new_mdata Z.eqb Pos.eqb m_prologue deref bind]; split; intros P; try reflexivity; now contradiction P. }
  destruct (h_typecode hd =? 129) eqn:T5.
  { assert (T : h_typecode hd = 129) by lia. rewrite T. destruct (data_field hd b) as [d| | | |]; cbn [bind]; try discriminate. destruct (h_annot hd) as [an|]; cbn [deref bind]; try discriminate. destruct (find _ _).
    - destruct (fetch d _) as [p| | | |]; cbn [bind]; try discriminate. intros E. injection E as <- _. unfold print_data, printable. cbn [m_type set_epilogue with_type Z.eqb Pos.eqb m_epilogue deref bind]. destruct (SH p) as (s & ->). cbn [bind]. split; [intros _; now eexists|]. intros N. exfalso. apply N. discriminate.
    - intros E; injection E as <- _; unfold print_data, printable; cbn [m_type with_type new_mdata Z.eqb Pos.eqb m_epilogue deref bind]; split; intros P; try reflexivity; now contradiction P. }
  destruct (h_typecode hd =? 130) eqn:T6.
  { assert (T : h_typecode hd = 130) by lia. rewrite T. intros E; injection E as <- _; unfold print_data, printable; cbn [m_type with_type new_mdata Z.eqb Pos.eqb bind]. split; [intros _; now eexists|tauto]. }
  destruct (h_typecode hd =? 144) eqn:T7; [|discriminate].
  assert (T : h_typecode hd = 144) by lia. rewrite T. destruct (data_field hd b) as [d| | | |]; cbn [bind]; try discriminate. destruct (h_annot hd) as [an|]; cbn [deref bind]; try discriminate. destruct (co _); [|discriminate].
  intros E; injection E as <- _; unfold print_data, printable; cbn [m_type with_type new_mdata Z.eqb Pos.eqb bind]. split; [intros _; now eexists|tauto].
Qed.
Print Assumptions C135_print_partial.
(** Each of these is read without complaint. *)
Theorem C135_refuted_text h dec co hd show d rest : h_typecode hd = 2 -> announces hd d -> d <> [] -> ~ In 0 d ->
  exists m', read_from h dec co new_mdata hd (d ++ rest) = Ok (m', []) /\ print_data h show m' = UB.
Proof.
  intros T A N I. unfold read_from. rewrite T. cbn [Z.eqb Pos.eqb]. rewrite (field_ok _ _ _ A). cbn [bind]. unfold read_text. replace (_ =? 0) with false by (destruct d; [contradiction|cbn [List.length]; lia]). cbn [bind]. eexists. split; [reflexivity|].
  unfold print_data. cbn [m_type set_text with_type Z.eqb Pos.eqb m_text deref bind]. apply c_string_ub in I. now rewrite I.
Qed.
Print Assumptions C135_refuted_text.
Theorem C135_refuted_image h dec co hd show d rest : uncompressed hd -> announces hd d -> d <> [] -> Z.of_nat (List.length d) < 2 ^ 31 ->
  exists m', read_from h dec co new_mdata hd (d ++ rest) = Ok (m', []) /\ print_data h show m' = UB.
Proof.
  intros U A N L. destruct (read_uncompressed h dec co new_mdata hd d rest U A) as (m' & E & T & I). exists m'. split; [exact E|]. unfold print_data. rewrite T, I. cbn [Z.eqb deref bind]. unfold print_image. cbn [im_len]. rewrite to_signed_unsigned by lia. rewrite Nat2Z.id. rewrite print_samples_chars; [reflexivity|lia|]. destruct d; [contradiction|cbn [List.length]; lia].
Qed.
Print Assumptions C135_refuted_image.
Theorem C135_refuted_foreign h dec co hd show f rest : foreign_prologue hd -> sgs_ok f -> announces hd (sgs_bytes f) -> 8 <= g_len f -> g_len f - 8 <= Z.of_nat (List.length (g_rest f)) ->
  exists m', read_from h dec co new_mdata hd (sgs_bytes f ++ rest) = Ok (m', []) /\ print_data h show m' = UB.
Proof.
  intros F O A L1 L2. rewrite (read_foreign h dec co new_mdata hd _ rest F A), (read_sgs_ok h f O). destruct (g_four f) as [[[q c] t] i]. destruct O as (_ & _ & _ & _ & _ & O). rewrite Z.mod_small by lia. replace (_ <? _) with false by lia. cbn [bind]. eexists. split; reflexivity.
Qed.
Print Assumptions C135_refuted_foreign.
Example C135_case : announces (some_header 2 24 0 0 None) (codes "abc") /\ ~ In 0 (codes "abc") /\ (exists s, print_data LE (fun _ => Ok []) (set_text (with_type new_mdata 2) (codes "abc" ++ [0])) = Ok s).
Proof. split; [reflexivity|]. split; [cbn; lia|]. eexists. reflexivity. Qed.

(** ** C138. Objects of the data class can be destroyed. *)
(** One made empty and filled once is destroyed with all that it holds. *)
Definition objects (m : mdata) : nat :=
  ((if m_key m then 1 else 0) + (if m_gts m then 1 else 0) + (if m_text m then 1 else 0) + (if m_prologue m then 1 else 0) + (if m_epilogue m then 1 else 0) + (if m_image m then 1 else 0) + (if m_sgs m then 1 else 0))%nat.
Theorem C138_default_partial h dec co hd b m w : read_from h dec co new_mdata hd b = Ok (m, w) -> life h dec co default_pointers hd b = Ok (objects m).
Proof.
  intros E. unfold life. rewrite E. cbn [bind fst]. unfold pointers_of, default_pointers, objects. cbn [repeat combine map]. destruct (m_key m), (m_gts m), (m_text m), (m_prologue m), (m_epilogue m), (m_image m), (m_sgs m); reflexivity.
Qed.
Print Assumptions C138_default_partial.
(** At most one object is made by a read. *)
Theorem C138_one h dec co hd b m w : read_from h dec co new_mdata hd b = Ok (m, w) -> (objects m <= 1)%nat.
Proof.
  unfold read_from. destruct (h_typecode hd =? 0).
  { destruct (data_field hd b) as [d| | | |]; cbn [bind]; try discriminate. destruct (h_image hd) as [is|]; cbn [deref bind]; try discriminate. destruct (is_comp is =? 0); [intros H; injection H as <- _; cbn; lia|]. destruct (h_seg hd) as [si|]; cbn [deref bind]; try discriminate. destruct (decode _ _ _ _ _ _); cbn [bind]; try discriminate. intros H; injection H as <- _; cbn; lia. }
  destruct (h_typecode hd =? 1). { destruct (data_field hd b) as [d| | | |]; cbn [bind]; try discriminate. destruct (read_gts d); cbn [bind]; try discriminate. destruct (h_annot hd); cbn [deref bind]; try discriminate. intros H; injection H as <- _; cbn; lia. }
  destruct (h_typecode hd =? 2). { destruct (data_field hd b) as [d| | | |]; cbn [bind]; try discriminate. destruct (read_text d); cbn [bind]; try discriminate. intros H; injection H as <- _; cbn; lia. }
  destruct (h_typecode hd =? 3). { destruct (data_field hd b) as [d| | | |]; cbn [bind]; try discriminate. destruct (read_key_message h d); cbn [bind]; try discriminate. intros H; injection H as <- _; cbn; lia. }
  destruct (h_typecode hd =? 128). { destruct (data_field hd b) as [d| | | |]; cbn [bind]; try discriminate. destruct (h_annot hd) as [an|]; cbn [deref bind]; try discriminate. destruct (find _ _). { destruct (fetch d _); cbn [bind]; try discriminate. intros H; injection H as <- _; cbn; lia. } destruct (foreign _); [|intros H; injection H as <- _; cbn; lia]. destruct (read_sgs h d); cbn [bind]; try discriminate. intros H; injection H as <- _; cbn; lia. }
  destruct (h_typecode hd =? 129). { destruct (data_field hd b) as [d| | | |]; cbn [bind]; try discriminate. destruct (h_annot hd) as [an|]; cbn [deref bind]; try discriminate. destruct (find _ _); [|intros H; injection H as <- _; cbn; lia]. destruct (fetch d _); cbn [bind]; try discriminate. intros H; injection H as <- _; cbn; lia. }
  destruct (h_typecode hd =? 130); [intros H; injection H as <- _; cbn; lia|]. destruct (h_typecode hd =? 144); [|discriminate]. destruct (data_field hd b) as [d| | | |]; cbn [bind]; try discriminate. destruct (h_annot hd) as [an|]; cbn [deref bind]; try discriminate. destruct (co _); [|discriminate]. intros H; injection H as <- _; cbn; lia.
Qed.
Print Assumptions C138_one.
(** One made from an open file has pointers that were never set, and its destructor
    deletes them. *)
Theorem C138_refuted_stream h dec co hd b m w : read_from h dec co new_mdata hd b = Ok (m, w) -> life h dec co stream_pointers hd b = UB.
Proof.
  intros E. pose proof (C138_one h dec co hd b m w E) as O. unfold life. rewrite E. cbn [bind fst]. unfold pointers_of, stream_pointers, objects in *. cbn [repeat combine map]. destruct (m_key m), (m_gts m), (m_text m), (m_prologue m), (m_epilogue m), (m_image m), (m_sgs m); cbn in O |- *; try reflexivity; lia.
Qed.
Print Assumptions C138_refuted_stream.
Example C138_case : exists m, read_from LE (fun _ _ _ _ _ => Throw) (fun _ => true) new_mdata (some_header 2 24 0 0 None) (codes "abc") = Ok (m, []) /\ objects m = 1%nat.
Proof. eexists. split; reflexivity. Qed.
