From Verif Require Import BaseFacts MachineModel MachineProofs HeaderModel HeaderSpec.

(** * Reading laid out fields *)
Lemma ba_cons x l o n : bytes_at (x :: l) (S o) n = bytes_at l o n.
Proof. reflexivity. Qed.
Lemma ba_app a l o n : (List.length a <= o)%nat ->
  bytes_at (a ++ l) o n = bytes_at l (o - List.length a) n.
Proof.
  intros H. unfold bytes_at. rewrite app_length, skipn_app, skipn_all2 by lia. cbn [app].
  replace (o + n <=? List.length a + List.length l)%nat
    with (o - List.length a + n <=? List.length l)%nat; [reflexivity|].
  apply eq_true_iff_eq. rewrite !Nat.leb_le. lia.
Qed.
Lemma ba_here a l n : n = List.length a -> bytes_at (a ++ l) 0 n = Ok a.
Proof. intros ->. apply (bytes_at_app [] a l); reflexivity. Qed.

Lemma rdu_cons h x l o n : rd_ui h (x :: l) (S o) n = rd_ui h l o n.
Proof. reflexivity. Qed.
Lemma rdi_cons h x l o n : rd_i h (x :: l) (S o) n = rd_i h l o n.
Proof. reflexivity. Qed.
Lemma rd1_cons x l o : rd1 (x :: l) (S o) = rd1 l o.
Proof. reflexivity. Qed.
Lemma rd1_here x l : rd1 (x :: l) 0 = Ok x.
Proof. reflexivity. Qed.
Lemma rdu_app h a l o n : (List.length a <= o)%nat ->
  rd_ui h (a ++ l) o n = rd_ui h l (o - List.length a) n.
Proof. intros H. unfold rd_ui. now rewrite ba_app. Qed.
Lemma rdi_app h a l o n : (List.length a <= o)%nat ->
  rd_i h (a ++ l) o n = rd_i h l (o - List.length a) n.
Proof. intros H. unfold rd_i. now rewrite ba_app. Qed.
Lemma rd1_app a l o : (List.length a <= o)%nat -> rd1 (a ++ l) o = rd1 l (o - List.length a).
Proof. intros H. unfold rd1. now rewrite nth_error_app2. Qed.
Lemma rdu_here h n v l : 0 <= v < 256 ^ Z.of_nat n -> rd_ui h (be n v ++ l) 0 n = Ok v.
Proof.
  intros H. rewrite rd_ui_spec, ba_here by now rewrite be_length. cbn [bind].
  now rewrite be_val_be_small.
Qed.
Lemma rdi_here h v l : - 2 ^ 31 <= v < 2 ^ 31 -> rd_i h (be 4 (unsigned32 v) ++ l) 0 4 = Ok v.
Proof.
  intros H. rewrite rd_i_spec, ba_here by now rewrite be_length. cbn [bind].
  change (8 * Z.of_nat 4) with 32.
  rewrite be_val_be. change (256 ^ Z.of_nat 4) with (2 ^ 32). unfold unsigned32.
  rewrite Z.mod_mod by lia. rewrite to_signed_unsigned by (change (32 - 1) with 31; lia). reflexivity.
Qed.
Lemma cds_cons h x l o : read_cds_short h (x :: l) (S o) = read_cds_short h l o.
Proof. reflexivity. Qed.
Lemma cds_app h a l o : (List.length a <= o)%nat ->
  read_cds_short h (a ++ l) o = read_cds_short h l (o - List.length a).
Proof.
  intros H. unfold read_cds_short. rewrite !rdu_app by lia.
  replace (o + 2 - List.length a)%nat with (o - List.length a + 2)%nat by lia. reflexivity.
Qed.
Lemma cds_here h d m l : 0 <= d < 2 ^ 16 -> 0 <= m < 2 ^ 32 ->
  read_cds_short h (be 2 d ++ be 4 m ++ l) 0 = Ok (report_time d m).
Proof.
  intros Hd Hm. unfold read_cds_short. rewrite rdu_here by exact Hd. cbn [bind].
  rewrite rdu_app by (rewrite be_length; lia). rewrite be_length. cbn [Nat.add Nat.sub].
  rewrite rdu_here by exact Hm. cbn [bind]. unfold report_time. f_equal. f_equal. lia.
Qed.

(** Steps the reader over one laid out piece. *)
Ltac rdstep :=
  first
  [ rewrite ba_cons | rewrite rdu_cons | rewrite rdi_cons | rewrite rd1_cons | rewrite cds_cons
  | rewrite rd1_here
  | rewrite rdu_here by lia | rewrite rdi_here by lia | rewrite cds_here by lia
  | rewrite rdu_app by (rewrite ?be_length; lia)
  | rewrite rdi_app by (rewrite ?be_length; lia)
  | rewrite rd1_app by (rewrite ?be_length; lia)
  | rewrite cds_app by (rewrite ?be_length; lia)
  | rewrite ba_app by (rewrite ?be_length; lia) ];
  rewrite ?be_length; cbn [Nat.sub Nat.add bind].
Ltac rdall := repeat rdstep.

Lemma fits_iff bits v : fits bits v = true <-> 0 <= v < 2 ^ bits.
Proof. unfold fits. lia. Qed.
Lemma fits32_iff v : fits_signed32 v = true <-> - 2 ^ 31 <= v < 2 ^ 31.
Proof. unfold fits_signed32. lia. Qed.
Lemma all_bytes_iff l : all_bytes l = true <-> bytes_ok l.
Proof.
  unfold all_bytes, bytes_ok. rewrite forallb_forall, Forall_forall.
  split; intros H x Hx; specialize (H x Hx).
  - apply fits_iff in H. exact H.
  - apply fits_iff. exact H.
Qed.
Ltac wfsplit :=
  repeat match goal with
  | H : (_ && _)%bool = true |- _ => apply andb_true_iff in H; destruct H
  | H : fits _ _ = true |- _ => apply fits_iff in H
  | H : fits_signed32 _ = true |- _ => apply fits32_iff in H
  | H : (_ <? _) = true |- _ => apply Z.ltb_lt in H
  | H : (_ =? _) = true |- _ => apply Z.eqb_eq in H
  | H : (_ =? _)%nat = true |- _ => apply Nat.eqb_eq in H
  end.

(** * Text fields *)
Lemma upto_nul_app0 l : upto_nul (l ++ [0]) = Some (take_until (Z.eqb 0) l).
Proof.
  induction l as [|b l IH]; cbn [app upto_nul take_until]; [reflexivity|].
  rewrite (Z.eqb_sym 0 b). destruct (b =? 0); [reflexivity|]. rewrite IH. reflexivity.
Qed.
Lemma take_until_none stop l : existsb stop l = false -> take_until stop l = l.
Proof.
  induction l as [|b l IH]; cbn; [reflexivity|]. intros H. apply orb_false_iff in H as [H1 H2].
  rewrite H1, IH by exact H2. reflexivity.
Qed.
Lemma strchr_spec c l : c <> 0 -> forall i,
  if existsb (nul_or c) l then
    (exists k, strchr c l i = Some (Some (i + k)%nat) /\
               upto_nul (set_nth l k 0) = Some (take_until (nul_or c) l)) \/
    (strchr c l i = Some None /\ upto_nul l = Some (take_until (nul_or c) l))
  else strchr c l i = None.
Proof.
  intros Hc. induction l as [|b l IH]; intros i; cbn [existsb]; [reflexivity|].
  unfold nul_or at 1. cbn [strchr take_until upto_nul].
  destruct (Z.eqb_spec b c) as [->|Hbc].
  - replace (c =? 0) with false by lia. cbn [orb]. left. exists 0%nat. cbn [set_nth upto_nul].
    rewrite Nat.add_0_r. unfold nul_or. rewrite (Z.eqb_refl c), orb_true_r. auto.
  - destruct (Z.eqb_spec b 0) as [->|Hb0].
    + cbn [orb]. right. unfold nul_or. cbn. auto.
    + cbn [orb]. specialize (IH (S i)).
      assert (Hn : nul_or c b = false) by (unfold nul_or; lia). rewrite Hn.
      destruct (existsb (nul_or c) l).
      * destruct IH as [(k & Hs & Hu)|[Hs Hu]].
        -- left. exists (S k). rewrite Hs, Nat.add_succ_r. split; [reflexivity|].
           cbn [set_nth upto_nul]. replace (b =? 0) with false by lia. rewrite Hu. reflexivity.
        -- right. rewrite Hs, Hu. auto.
      * exact IH.
Qed.

(** * One record *)
Definition put {A} (new : option A) (old : option A) : option A :=
  match new with Some x => Some x | None => old end.
Definition apply_rec (hd : header) (r : rec) : header :=
  mk_h (h_typecode hd) (h_total hd) (h_dfl hd) (h_filesize hd)
    (put (report_image r) (h_image hd)) (put (report_navig r) (h_navig hd))
    (put (report_func r) (h_datafunc hd)) (put (report_annot r) (h_annot hd))
    (put (report_stamp r) (h_time hd)) (put (report_anc r) (h_anc hd))
    (put (report_key r) (h_key hd)) (put (report_seg r) (h_seg hd))
    (put (report_qual r) (h_quality hd)).

Lemma framed_rec_len t body : List.length (framed_rec t body) = (3 + List.length body)%nat.
Proof. unfold framed_rec. cbn [List.length]. rewrite app_length, be_length. lia. Qed.
Lemma framed_rec_app t body tl :
  framed_rec t body ++ tl = t :: be 2 (3 + Z.of_nat (List.length body)) ++ body ++ tl.
Proof. unfold framed_rec. cbn [app]. now rewrite <- app_assoc. Qed.

Lemma image_size pixels bpp : 0 <= pixels * bpp ->
  (if pixels * bpp mod 8 =? 0 then pixels * bpp / 8 else pixels * bpp / 8 + 1) = (pixels * bpp + 7) / 8.
Proof.
  generalize (pixels * bpp). intros x Hx. destruct (Z.eqb_spec (x mod 8) 0); lia.
Qed.

Lemma read_image_rec h bpp cols lines comp L tl :
  wf_rec None (RImage bpp cols lines comp) = true ->
  read_image_struct h (1 :: be 2 L ++ ([bpp] ++ be 2 cols ++ be 2 lines ++ [comp]) ++ tl) =
    Ok (mk_is bpp cols lines comp (cols * lines) ((cols * lines * bpp + 7) / 8)).
Proof.
  intros H. cbn [wf_rec] in H. wfsplit.
  cbn [app]. rewrite <- !app_assoc. cbn [app]. unfold read_image_struct. rdall.
  destruct (Z.leb_spec (2 ^ 31) (cols * lines)); [lia|].
  rewrite image_size by nia. reflexivity.
Qed.

Lemma nth_list_eq {A} (l : list A) i j d : i = j -> nth i l d = nth j l d.
Proof. intros ->; reflexivity. Qed.

Lemma read_navig_rec h name cfac lfac coff loff L tl :
  wf_rec None (RNavig name cfac lfac coff loff) = true ->
  exists v, report_navig (RNavig name cfac lfac coff loff) = Some v /\
  read_image_navig h (2 :: be 2 L ++ (name ++ be 4 (unsigned32 cfac) ++ be 4 (unsigned32 lfac)
                         ++ be 4 (unsigned32 coff) ++ be 4 (unsigned32 loff)) ++ tl) = Ok v.
Proof.
  intros H. cbn [wf_rec] in H. wfsplit. unfold wf_name in H. wfsplit.
  eexists. split; [reflexivity|].
  rewrite <- !app_assoc. unfold read_image_navig.
  rewrite ba_cons, ba_app, be_length by (rewrite be_length; lia). cbn [Nat.sub].
  rewrite ba_here by congruence. cbn [bind].
  repeat (rdstep; rewrite ?H; cbn [Nat.sub]).
  destruct name as [|c0 name]; [discriminate|]. destruct name as [|c1 name]; [discriminate|].
  change (nth 0 (c0 :: c1 :: name) 0) with c0. change (nth 1 (c0 :: c1 :: name) 0) with c1.
  destruct (Z.eqb_spec c0 71) as [->|H71].
  - destruct name as [|c2 [|c3 [|c4 name]]]; try discriminate.
    cbn [set_nth skipn firstn] in *.
    assert (E := strchr_spec 41 name ltac:(lia) 0). match goal with Hx : existsb _ name = true |- _ => rewrite Hx in E end.
    assert (Eu : upto_nul (71 :: c1 :: c2 :: c3 :: 0 :: name)
               = Some (take_until (Z.eqb 0) [71; c1; c2; c3])).
    { cbn [upto_nul take_until]. rewrite (Z.eqb_sym 0 c1), (Z.eqb_sym 0 c2), (Z.eqb_sym 0 c3).
      destruct (c1 =? 0), (c2 =? 0), (c3 =? 0); reflexivity. }
    rewrite Eu.
    destruct E as [(k & Hs & Hu)|[Hs Hu]]; rewrite Hs; cbn [Nat.add]; rewrite Hu; reflexivity.
  - destruct (Z.eqb_spec c0 80) as [->|H80]; cbn [andb].
    + destruct (Z.eqb_spec c1 79) as [->|H79]; [discriminate|].
      destruct (Z.eqb_spec c1 83) as [->|H83]; [reflexivity|].
      change (80 =? 77) with false. cbn iota.
      destruct c1 as [|p|p]; try reflexivity.
      repeat (destruct p as [p|p|]; try reflexivity; try (exfalso; apply H83; reflexivity)).
    + destruct (Z.eqb_spec c0 77) as [->|H77]; [reflexivity|].
      destruct c0 as [|p|p]; try reflexivity.
      repeat (destruct p as [p|p|]; try reflexivity;
        try (exfalso; solve [apply H77; reflexivity|apply H80; reflexivity|apply H71; reflexivity])).
Qed.

Lemma read_func_rec h text tl : all_bytes text = true -> Z.of_nat (List.length text) < 2 ^ 16 - 3 ->
  read_datafunc h (3 :: be 2 (3 + Z.of_nat (List.length text)) ++ text ++ tl)
    = Ok (take_until (Z.eqb 0) text).
Proof.
  intros _ H. unfold read_datafunc. rdall.
  rewrite Z.mod_small by lia.
  replace (3 + Z.of_nat (List.length text) - 2 =? 0) with false by lia.
  replace (2 ^ 63 <=? 3 + Z.of_nat (List.length text) - 2) with false by lia.
  replace (Z.to_nat (3 + Z.of_nat (List.length text) - 2 - 1)) with (List.length text) by lia.
  rewrite ba_here by reflexivity. cbn [bind]. rewrite upto_nul_app0. reflexivity.
Qed.

Lemma read_anc_rec h text tl : 0 < Z.of_nat (List.length text) -> Z.of_nat (List.length text) < 2 ^ 16 - 3 ->
  read_ancillary h (6 :: be 2 (3 + Z.of_nat (List.length text)) ++ text ++ tl) = Ok text.
Proof.
  intros H0 H. unfold read_ancillary. rdall.
  rewrite Z.mod_small by lia.
  replace (3 + Z.of_nat (List.length text) - 3 =? 0) with false by lia.
  replace (2 ^ 63 <=? 3 + Z.of_nat (List.length text) - 3) with false by lia.
  replace (Z.to_nat (3 + Z.of_nat (List.length text) - 3)) with (List.length text) by lia.
  rewrite ba_here by reflexivity. reflexivity.
Qed.

Lemma read_annot_rec text L tl : List.length text = 61%nat -> existsb (Z.eqb 0) text = false ->
  Some (read_annotation (4 :: be 2 L ++ text ++ tl)) = option_map Ok (report_annot (RAnnot text)).
Proof.
  intros Hl Hn. unfold read_annotation.
  rewrite ba_cons, ba_app by (rewrite be_length; lia). rewrite be_length. cbn [Nat.sub].
  rewrite ba_here by congruence. cbn [bind]. rewrite upto_nul_app0, take_until_none by exact Hn.
  unfold substr. rewrite Hl. reflexivity.
Qed.

Lemma read_line_qs_rec h : forall ls pre tl off, forallb wf_lq ls = true ->
  off = List.length pre ->
  read_line_qs h (pre ++ flat_map encode_lq ls ++ tl) off (List.length ls) = Ok (map report_lq ls).
Proof.
  induction ls as [|q ls IH]; intros pre tl off Hwf Hoff; [reflexivity|].
  cbn [forallb] in Hwf. apply andb_true_iff in Hwf as [Hq Hwf].
  unfold wf_lq in Hq. wfsplit.
  cbn [List.length read_line_qs flat_map map].
  replace (read_line_q h (pre ++ (encode_lq q ++ flat_map encode_lq ls) ++ tl) off) with (Ok (report_lq q)).
  - cbn [bind]. rewrite <- app_assoc, app_assoc. rewrite IH; [reflexivity|exact Hwf|].
    unfold encode_lq. rewrite !app_length, !be_length. cbn [List.length]. lia.
  - symmetry. unfold read_line_q. subst off.
    rewrite rdi_app, cds_app, !(rd1_app pre) by lia.
    replace (List.length pre - List.length pre)%nat with 0%nat by lia.
    replace (List.length pre + 4 - List.length pre)%nat with 4%nat by lia.
    replace (List.length pre + 10 - List.length pre)%nat with 10%nat by lia.
    replace (List.length pre + 11 - List.length pre)%nat with 11%nat by lia.
    replace (List.length pre + 12 - List.length pre)%nat with 12%nat by lia.
    unfold encode_lq. rewrite <- !app_assoc. cbn [app].
    rdall. reflexivity.
Qed.

Lemma flat_map_len {A} (f : A -> list Z) n l : (forall x, List.length (f x) = n) ->
  List.length (flat_map f l) = (n * List.length l)%nat.
Proof. intros H. induction l as [|a l IH]; cbn [flat_map List.length]; [lia|]. rewrite app_length, IH, H. lia. Qed.
Lemma encode_lq_len q : List.length (encode_lq q) = 13%nat.
Proof. unfold encode_lq. rewrite !app_length, !be_length. reflexivity. Qed.

Lemma be2_len_read h t (body tl : list Z) L : L = 3 + Z.of_nat (List.length body) -> L < 2 ^ 16 ->
  rd_ui h (t :: be 2 L ++ body ++ tl) 1 2 = Ok L.
Proof. intros -> H. rdall. reflexivity. Qed.

Lemma fixed_ok h t body tl L k hd : L = 3 + Z.of_nat (List.length body) -> L < 2 ^ 16 -> k = Ok hd ->
  fixed h (t :: be 2 L ++ body ++ tl) L k = Ok (hd, L).
Proof.
  intros HL HL' ->. unfold fixed. rewrite be2_len_read by assumption. cbn [bind].
  rewrite Z.eqb_refl. reflexivity.
Qed.

Lemma read_record_rec h hd r tl :
  wf_rec (option_map is_lines (h_image hd)) r = true ->
  read_record h hd (encode_rec r ++ tl) = Ok (apply_rec hd r, Z.of_nat (List.length (encode_rec r))).
Proof.
  intros H. destruct r as [bpp cols lines comp|name cfac lfac coff loff|text|text|resv d m|text|num seed
    |sc ch seq first last fmt|ls pad]; cbn [encode_rec]; rewrite framed_rec_len, framed_rec_app;
    unfold read_record; rewrite rd1_here; cbn [bind].
  - set (body := [bpp] ++ be 2 cols ++ be 2 lines ++ [comp]).
    replace (List.length body) with 6%nat by (unfold body; rewrite !app_length, !be_length; reflexivity).
    change (1 =? 1) with true. cbn iota. apply fixed_ok; [reflexivity|reflexivity|].
    unfold body. rewrite read_image_rec by exact H. reflexivity.
  - set (body := name ++ _).
    assert (Hb : List.length body = 48%nat).
    { unfold body. rewrite !app_length, !be_length. cbn [wf_rec] in H. wfsplit. unfold wf_name in H. wfsplit. lia. }
    rewrite Hb. change (2 =? 1) with false. change (2 =? 2) with true. cbn iota.
    apply fixed_ok; [rewrite Hb; reflexivity|reflexivity|].
    destruct (read_navig_rec h name cfac lfac coff loff (3 + Z.of_nat 48) tl H) as (v & Hv & Er).
    unfold body. rewrite Er. cbn [bind]. unfold apply_rec. rewrite Hv. reflexivity.
  - cbn [wf_rec] in H. wfsplit. cbn [Z.eqb Pos.eqb].
    rewrite be2_len_read by lia. cbn [bind].
    rewrite read_func_rec by assumption. cbn [bind].
    unfold with_datafunc, apply_rec. cbn [report_image report_navig report_func report_annot report_stamp report_anc report_key report_seg report_qual put].
    f_equal. f_equal. lia.
  - cbn [wf_rec] in H. wfsplit. cbn [Z.eqb Pos.eqb].
    match goal with Hx : List.length text = _ |- _ => rewrite Hx; rename Hx into Hl end.
    apply fixed_ok; [rewrite Hl; reflexivity|reflexivity|].
    match goal with Hx : negb _ = true |- _ => apply negb_true_iff in Hx; rename Hx into Hn end.
    assert (E := read_annot_rec text (3 + Z.of_nat 61) tl Hl Hn). cbn [report_annot option_map] in E.
    assert (E' : forall (A : Type) (x y : A), Some x = Some y -> x = y) by congruence.
    apply E' in E. rewrite E. reflexivity.
  - cbn [wf_rec] in H. wfsplit. cbn [Z.eqb Pos.eqb].
    set (body := [resv] ++ _).
    replace (List.length body) with 7%nat by (unfold body; rewrite !app_length, !be_length; reflexivity).
    apply fixed_ok; [reflexivity|reflexivity|].
    unfold body, read_timestamp. rewrite <- !app_assoc. cbn [app]. rdall. reflexivity.
  - cbn [wf_rec] in H. wfsplit. cbn [Z.eqb Pos.eqb].
    rewrite be2_len_read by lia. cbn [bind].
    rewrite read_anc_rec by assumption. cbn [bind].
    unfold with_anc, apply_rec. cbn [report_image report_navig report_func report_annot report_stamp report_anc report_key report_seg report_qual put].
    f_equal. f_equal. lia.
  - cbn [wf_rec] in H. wfsplit. cbn [Z.eqb Pos.eqb].
    set (body := [num] ++ _).
    replace (List.length body) with 9%nat by (unfold body; rewrite !app_length, !be_length; reflexivity).
    apply fixed_ok; [reflexivity|reflexivity|].
    unfold body, read_key. rewrite <- !app_assoc. cbn [app]. rdall. reflexivity.
  - cbn [wf_rec] in H. wfsplit. cbn [Z.eqb Pos.eqb].
    set (body := be 2 sc ++ _).
    replace (List.length body) with 10%nat by (unfold body; rewrite !app_length, !be_length; reflexivity).
    apply fixed_ok; [unfold body; rewrite !app_length, !be_length; reflexivity|reflexivity|].
    unfold body, read_segment_id. rewrite <- !app_assoc. cbn [app]. rdall.
    rewrite <- ?app_assoc. cbn [app]. rdall. reflexivity.
  - cbn [wf_rec] in H. destruct (h_image hd) as [im|] eqn:Him; [|discriminate]. cbn [option_map] in H. wfsplit.
    cbn [Z.eqb Pos.eqb].
    assert (Hb : List.length (flat_map encode_lq ls ++ pad) = (13 * List.length ls + List.length pad)%nat)
      by (rewrite app_length, (flat_map_len _ 13) by exact encode_lq_len; reflexivity).
    rewrite Hb. rewrite be2_len_read by (rewrite ?Hb; lia).
    set (L := 3 + Z.of_nat (13 * List.length ls + List.length pad)).
    replace (Z.to_nat (is_lines im)) with (List.length ls) by lia.
    replace (129 :: be 2 L ++ (flat_map encode_lq ls ++ pad) ++ tl)
      with ((129 :: be 2 L) ++ flat_map encode_lq ls ++ (pad ++ tl)) by (cbn [app]; now rewrite <- !app_assoc).
    rewrite read_line_qs_rec by (auto; cbn [List.length]; rewrite be_length; reflexivity).
    cbn [bind]. unfold with_quality, apply_rec. cbn [report_image report_navig report_func report_annot report_stamp report_anc report_key report_seg report_qual put].
    f_equal. f_equal. unfold L. lia.
Qed.

Lemma encode_rec_pos r : (3 <= List.length (encode_rec r))%nat.
Proof. destruct r; cbn [encode_rec]; rewrite framed_rec_len; lia. Qed.

Lemma read_records_encode h : forall rs hd fuel, 
  wf_recs (option_map is_lines (h_image hd)) rs = true ->
  Z.of_nat (List.length (encode_recs rs)) < 2 ^ 32 ->
  (List.length (encode_recs rs) < fuel)%nat ->
  read_records fuel h hd (encode_recs rs) (Z.of_nat (List.length (encode_recs rs))) =
    Ok (fold_left apply_rec rs hd).
Proof.
  induction rs as [|r rs IH]; intros hd fuel Hwf Hlen Hf.
  - destruct fuel; reflexivity.
  - cbn [wf_recs] in Hwf. apply andb_true_iff in Hwf as [Hr Hwf].
    change (encode_recs (r :: rs)) with (encode_rec r ++ encode_recs rs) in *.
    rewrite app_length in *. assert (Hp := encode_rec_pos r).
    destruct fuel as [|fuel]; [lia|]. cbn [read_records].
    replace (Z.of_nat _ =? 0) with false by lia.
    rewrite read_record_rec by exact Hr. cbn [bind].
    replace (Z.of_nat (List.length (encode_rec r)) =? 0) with false by lia.
    rewrite Nat2Z.id, skipn_app_exact by reflexivity.
    replace ((Z.of_nat (List.length (encode_rec r) + List.length (encode_recs rs)) - Z.of_nat (List.length (encode_rec r))) mod 2 ^ 64)
      with (Z.of_nat (List.length (encode_recs rs))) by (rewrite Z.mod_small; lia).
    cbn [fold_left]. apply IH; [|lia|lia].
    destruct r; cbn [apply_rec h_image report_image put next_lines] in *; exact Hwf.
Qed.

Lemma fold_apply rs : forall hd,
  fold_left apply_rec rs hd =
  mk_h (h_typecode hd) (h_total hd) (h_dfl hd) (h_filesize hd)
    (last_of report_image (h_image hd) rs) (last_of report_navig (h_navig hd) rs)
    (last_of report_func (h_datafunc hd) rs) (last_of report_annot (h_annot hd) rs)
    (last_of report_stamp (h_time hd) rs) (last_of report_anc (h_anc hd) rs)
    (last_of report_key (h_key hd) rs) (last_of report_seg (h_seg hd) rs)
    (last_of report_qual (h_quality hd) rs).
Proof.
  induction rs as [|r rs IH]; intros hd; [destruct hd; reflexivity|].
  cbn [fold_left]. rewrite IH. unfold apply_rec, last_of.
  cbn [fold_left h_typecode h_total h_dfl h_filesize h_image h_navig h_datafunc h_annot h_time h_anc h_key h_seg h_quality].
  reflexivity.
Qed.

Lemma header_round_trip h before ft dfl rs rest :
  wf_header (option_map is_lines (h_image before)) ft dfl rs = true ->
  read_header h before (encode_header ft dfl rs ++ rest) = Ok (expected before ft dfl rs, rest).
Proof.
  intros H. unfold wf_header in H. wfsplit.
  unfold encode_header. set (N := Z.of_nat (List.length (encode_recs rs))) in *.
  set (prim := [0] ++ be 2 16 ++ [ft] ++ be 4 (16 + N) ++ be 8 dfl).
  assert (Hp : List.length prim = 16%nat) by reflexivity.
  replace (([0] ++ be 2 16 ++ [ft] ++ be 4 (16 + N) ++ be 8 dfl ++ encode_recs rs) ++ rest)
    with (prim ++ encode_recs rs ++ rest) by (unfold prim; cbn [app]; now rewrite <- !app_assoc).
  unfold read_header.
  replace (List.length (prim ++ encode_recs rs ++ rest) <? 16)%nat with false
    by (rewrite app_length; lia).
  rewrite firstn_app_exact, skipn_app_exact by (symmetry; exact Hp).
  unfold prim. cbn [app]. rdall. cbn [app]. rdall.
  change (negb (0 =? 0)) with false. change (negb (16 =? 16)) with false. cbn iota.
  rewrite <- (app_nil_r (be 8 dfl)). rdall.
  replace (16 + N - 16) with N by lia. rewrite (Z.mod_small N) by lia.
  replace (Z.of_nat (List.length (encode_recs rs ++ rest)) <? N) with false by (rewrite app_length; lia).
  assert (HN : Z.to_nat N = List.length (encode_recs rs)) by (unfold N; lia).
  rewrite HN, firstn_app_exact, skipn_app_exact by reflexivity.
  assert (E := read_records_encode h rs). fold N in E.
  rewrite E; [cbn [bind]|assumption|lia|lia].
  rewrite fold_apply. unfold expected. cbn [h_typecode h_total h_dfl h_filesize h_image h_navig h_datafunc h_annot h_time h_anc h_key h_seg h_quality].
  fold N. rewrite (Z.add_comm (dfl / 8)). reflexivity.
Qed.

Lemma encode_header_length ft dfl rs :
  Z.of_nat (List.length (encode_header ft dfl rs)) = h_total (expected empty_header ft dfl rs).
Proof. unfold encode_header, expected. cbn [h_total]. rewrite !app_length, !be_length. cbn [List.length]. lia. Qed.
