(** Properties C158-C161: the tools for OpenMTP-IDS files. *)
From Coq Require Import Reals Lra.
From Flocq Require Import Core.
From Verif Require Import BaseFacts IniSpec Db1Spec Db1Props GribModel IdsModel IdsSpec IdsProofs IdsBytes IdsProps IdsToolModel IdsToolSpec.
Open Scope string_scope.
Open Scope list_scope.
Open Scope Z_scope.

(** ** What a file that can be read holds *)
Lemma read_consistent content x : bytes_ok content -> Z.of_nat (List.length content) < 2 ^ 32 - 1 -> read_file content = Ok x -> consistent x.
Proof. intros B L E. apply read_file_bytes in E as (w & tail & _ & W); [|exact B|exact L]. now exists w. Qed.
Lemma seq_forall {A} (P : A -> list Z -> Prop) l b : seq_bytes P l b -> Forall (fun x => exists w, P x w) l.
Proof. induction 1; constructor; eauto. Qed.
Lemma forall_seq {A} (P : A -> list Z -> Prop) l : Forall (fun x => exists w, P x w) l -> exists b, seq_bytes P l b.
Proof. induction 1 as [|x l [w W] _ [b B]]; [exists []; constructor|]. exists (w ++ b). now constructor. Qed.
Lemma consistent_sizes x : consistent x -> announced (id_header x) = Z.of_nat (List.length (id_records x)) /\
  Forall (fun r => rh_no_scanlines (rc_header r) = Z.of_nat (List.length (rc_lines r))) (id_records x) /\
  Forall (fun l => exists w, line_bytes l w) (image_lines x).
Proof.
  intros [w H]. inversion H as [f nrec y d h m py pd ph pm nch vis wv ir sat sid rlen nv nw ni avg smp irc wvc fine irs wvs rs fl b F1 F2 S1 S2 FL W1 W2 NR RL SQ EX EW]. cbn [id_header id_records]. apply seq_forall in SQ. split; [|split].
  - unfold announced. cbn [fh_no_records]. pose proof (Forall_inv W1) as Q. unfold word in Q. rewrite NR. rewrite Z.mod_small; lia.
  - eapply Forall_impl; [|exact SQ]. intros r [v V]. inversion V. reflexivity.
  - unfold image_lines. cbn [id_records]. clear - SQ. induction SQ as [|r l [v V] _ IH]; cbn [map List.concat]; [constructor|]. apply Forall_app. split; [|exact IH]. inversion V. cbn [rc_lines]. eapply seq_forall. eassumption.
Qed.

(** ** C158: the images *)
Lemma channel_rows_ok ch rs : Forall (fun r => rh_no_scanlines (rc_header r) = Z.of_nat (List.length (rc_lines r))) rs ->
  channel_rows ch rs = Ok (map sl_pixels (filter (fun l => lh_channel_id (sl_header l) =? ch) (List.concat (map rc_lines rs)))).
Proof.
  induction 1 as [|r rs E _ IH]; [reflexivity|]. cbn [channel_rows map List.concat]. rewrite E, Z.leb_refl, IH. cbn [bind]. rewrite Nat2Z.id, firstn_all, filter_app, map_app. reflexivity.
Qed.
Lemma write_channel_ok can ch x d : consistent x -> ch <> 0 ->
  write_channel_pgm can ch x d = Ok (write_pgm can (filename ch) (map sl_pixels (channel_lines ch x)) d).
Proof.
  intros C N. destruct (consistent_sizes x C) as (A & R & _). unfold write_channel_pgm. replace (ch =? 0) with false by lia. rewrite A, Z.leb_refl, Nat2Z.id, firstn_all, (channel_rows_ok _ _ R). reflexivity.
Qed.
Lemma put_rows_all n rows : Forall (fun r => List.length r = n) rows -> put_rows n rows = (List.concat rows, true).
Proof. induction 1 as [|r rows E _ IH]; [reflexivity|]. cbn [put_rows List.concat]. rewrite E, Nat.eqb_refl, IH. reflexivity. Qed.
Lemma write_pgm_ok can name rows d : rectangular rows -> can name = true -> Z.of_nat (List.length rows) < 10 ^ 19 -> Forall (fun r => Z.of_nat (List.length r) < 10 ^ 19) rows ->
  exists b, write_pgm can name rows d = (true, put_file d name b) /\ pgm_image b rows.
Proof.
  intros (N & width & W & F) C L M. destruct rows as [|r rows]; [contradiction|]. pose proof (Forall_inv F) as E. cbn beta in E. unfold write_pgm. rewrite E. replace (width =? 0)%nat with false by lia. rewrite C, put_rows_all by exact F.
  pose proof (Forall_inv M) as Q. cbn beta in Q. eexists. split; [reflexivity|]. exists width, (print (Z.of_nat width)), (print (Z.of_nat (List.length (r :: rows)))). split; [discriminate|]. split; [exact W|]. split; [exact F|]. split; [apply print_plain; lia|]. split; [apply print_plain; lia|reflexivity].
Qed.
Lemma write_pgm_nothing can name d : write_pgm can name [] d = (false, d).
Proof. reflexivity. Qed.
Lemma write_pgm_other can name rows d n : n <> name -> snd (write_pgm can name rows d) n = d n.
Proof.
  intros N. unfold write_pgm. destruct rows as [|r rows]; [reflexivity|]. destruct (_ =? 0)%nat; [reflexivity|]. destruct (can name); [|reflexivity]. destruct (put_rows _ _) as [b ok]. cbn [snd]. unfold put_file. destruct (String.eqb_spec n name); [contradiction|reflexivity].
Qed.
Lemma line_small l w : line_bytes l w -> (List.length (sl_pixels l) < Z.to_nat 65536)%nat /\ lh_no_pixels (sl_header l) = Z.of_nat (List.length (sl_pixels l)).
Proof. intros H. inversion H as [len line start chan qual p0 p1 px fl W]. cbn [sl_pixels sl_header lh_no_pixels]. repeat rewrite Forall_cons_iff in W. unfold word in W. lia. Qed.
Lemma consistent_small x : consistent x -> Z.of_nat (List.length (image_lines x)) < 2 ^ 32.
Proof.
  intros [w H]. inversion H as [f nrec y d h m py pd ph pm nch vis wv ir sat sid rlen nv nw ni avg smp irc wvc fine irs wvs rs fl b F1 F2 S1 S2 FL W1 W2 NR RL SQ EX EW]. pose proof (Forall_inv W1) as Q. unfold word in Q. unfold image_lines. cbn [id_records].
  assert (T : Z.of_nat (List.length (List.concat (map rc_lines rs))) <= 65535 * Z.of_nat (List.length rs)); [|lia].
  apply seq_forall in SQ. clear - SQ. induction SQ as [|r l [v V] _ IH]; cbn [map List.concat List.length]; [lia|]. rewrite app_length. inversion V as [f0 hl rl z ls b0 A B W C]. cbn [rc_lines]. repeat rewrite Forall_cons_iff in W. unfold word in W. lia.
Qed.
Lemma filter_le {A} (f : A -> bool) l : (List.length (filter f l) <= List.length l)%nat.
Proof. induction l as [|a l IH]; cbn [filter]; [lia|]. destruct (f a); cbn [List.length]; lia. Qed.
Lemma channel_pgm can ch x d : consistent x -> ch <> 0 -> rectangular (map sl_pixels (channel_lines ch x)) -> can (filename ch) = true ->
  exists b, write_channel_pgm can ch x d = Ok (true, put_file d (filename ch) b) /\ pgm_image b (map sl_pixels (channel_lines ch x)).
Proof.
  intros C N R K. rewrite write_channel_ok by assumption. destruct (write_pgm_ok can (filename ch) _ d R K) as (b & E & P).
  - rewrite map_length. pose proof (consistent_small x C). pose proof (filter_le (fun l => lh_channel_id (sl_header l) =? ch) (image_lines x)). unfold channel_lines. lia.
  - apply Forall_map. destruct (consistent_sizes x C) as (_ & _ & F). rewrite Forall_forall in F. apply Forall_forall. intros l I. apply filter_In in I as [I _]. destruct (F l I) as [w W]. apply line_small in W. lia.
  - exists b. rewrite E. auto.
Qed.
(** No line of the channel, or no channel: nothing is written. *)
Lemma channel_none can ch x d : consistent x -> ch = 0 \/ channel_lines ch x = [] -> write_channel_pgm can ch x d = Ok (false, d).
Proof. intros C [->|E]; [reflexivity|]. destruct (Z.eq_dec ch 0) as [->|N]; [reflexivity|]. rewrite write_channel_ok, E by assumption. reflexivity. Qed.
Lemma channel_total can ch x d : consistent x -> exists ok d', write_channel_pgm can ch x d = Ok (ok, d') /\ forall n, n <> filename ch -> d' n = d n.
Proof.
  intros C. destruct (Z.eq_dec ch 0) as [->|N]; [exists false, d; now split|]. rewrite write_channel_ok by assumption. destruct (write_pgm _ _ _ _) as [ok d'] eqn:E. exists ok, d'. split; [reflexivity|]. intros n M. rewrite <- (write_pgm_other can (filename ch) (map sl_pixels (channel_lines ch x)) d n M), E. reflexivity.
Qed.
Lemma vis_name ch : In ch vis_ids -> ch <> 0 /\ filename ch = "vis.pgm".
Proof. cbn. intros H. repeat destruct H as [<-|H]; try (split; [discriminate|reflexivity]). contradiction. Qed.
Lemma ir_name ch : In ch ir_ids -> ch <> 0 /\ filename ch = "ir.pgm".
Proof. cbn. intros H. repeat destruct H as [<-|H]; try (split; [discriminate|reflexivity]). contradiction. Qed.
Lemma wv_name ch : In ch wv_ids -> ch <> 0 /\ filename ch = "wv.pgm".
Proof. cbn. intros H. repeat destruct H as [<-|H]; try (split; [discriminate|reflexivity]). contradiction. Qed.
(** One channel: its file, and no other. *)
Lemma channel_step can ch name x d : consistent x -> (forall n, can n = true) -> ch = 0 \/ ch <> 0 /\ filename ch = name ->
  exists ok d', write_channel_pgm can ch x d = Ok (ok, d') /\
    (ch <> 0 -> rectangular (map sl_pixels (channel_lines ch x)) -> exists b, d' name = Some b /\ pgm_image b (map sl_pixels (channel_lines ch x))) /\
    (ch = 0 \/ channel_lines ch x = [] -> d' name = d name) /\ forall n, n <> name -> d' n = d n.
Proof.
  intros C K [->|[N <-]].
  - exists false, d. split; [reflexivity|]. split; [now intros []|]. auto.
  - destruct (channel_total can ch x d C) as (ok & d' & E & O). exists ok, d'. split; [exact E|]. split; [|split; [|exact O]].
    + intros _ R. destruct (channel_pgm can ch x d C N R (K _)) as (b & E' & P). rewrite E in E'. apply Ok_inj in E'. apply (f_equal snd) in E'. cbn [snd] in E'. subst d'. exists b. split; [|exact P]. unfold put_file. now rewrite String.eqb_refl.
    + intros Z. rewrite (channel_none can ch x d C Z) in E. apply Ok_inj in E. apply (f_equal snd) in E. cbn [snd] in E. now subst d'.
Qed.
(** Each channel that the header names and whose lines are equally long becomes an
    image of exactly its lines; no other file is touched. *)
Theorem C158_images_partial can content x d : bytes_ok content -> Z.of_nat (List.length content) < 2 ^ 32 - 1 -> read_file content = Ok x ->
  let h := id_header x in
  In (fh_vis_id h) (0 :: vis_ids) -> In (fh_ir_id h) (0 :: ir_ids) -> In (fh_wv_id h) (0 :: wv_ids) -> (forall n, can n = true) ->
  exists status d', pgm_main can (Some content) d = Ok (status, d') /\
    (forall ch name, In (ch, name) [(fh_vis_id h, "vis.pgm"); (fh_ir_id h, "ir.pgm"); (fh_wv_id h, "wv.pgm")] ->
       (ch <> 0 -> rectangular (map sl_pixels (channel_lines ch x)) -> exists b, d' name = Some b /\ pgm_image b (map sl_pixels (channel_lines ch x))) /\
       (ch = 0 \/ channel_lines ch x = [] -> d' name = d name)) /\
    forall name, ~ In name ["vis.pgm"; "ir.pgm"; "wv.pgm"] -> d' name = d name.
Proof.
  intros B L E h V I W K. pose proof (read_consistent _ _ B L E) as C. unfold pgm_main. rewrite E. cbn [bind]. unfold openmtp_ids_to_pgm. fold h.
  destruct (channel_step can (fh_vis_id h) "vis.pgm" x d C K) as (o1 & d1 & E1 & R1 & Z1 & O1); [destruct V as [<-|V]; [now left|right; now apply vis_name]|].
  destruct (channel_step can (fh_ir_id h) "ir.pgm" x d1 C K) as (o2 & d2 & E2 & R2 & Z2 & O2); [destruct I as [<-|I]; [now left|right; now apply ir_name]|].
  destruct (channel_step can (fh_wv_id h) "wv.pgm" x d2 C K) as (o3 & d3 & E3 & R3 & Z3 & O3); [destruct W as [<-|W]; [now left|right; now apply wv_name]|].
  rewrite E1. cbn [bind snd]. rewrite E2. cbn [bind snd]. rewrite E3. cbn [bind fst snd]. eexists _, d3. split; [reflexivity|]. split.
  - intros ch name [P|[P|[P|[]]]]; apply pair_equal_spec in P as [<- <-].
    + rewrite O3, O2 by discriminate. auto.
    + rewrite O3 by discriminate. rewrite <- (O1 "ir.pgm") by discriminate. auto.
    + rewrite <- (O1 "wv.pgm"), <- (O2 "wv.pgm") by discriminate. auto.
  - intros name N. rewrite O3, O2, O1; [reflexivity|..]; intros ->; apply N; cbn; auto.
Qed.
Print Assumptions C158_images_partial.
(** A file holds one image. *)
Lemma number_end a b c d k : Forall digit a -> Forall digit b -> ~ digit k -> a ++ k :: c = b ++ k :: d -> a = b /\ c = d.
Proof.
  intros A. revert b. induction A as [|x a X _ IH]; intros b B N E; destruct B as [|y b Y B]; cbn [app] in E; pose proof (f_equal (hd 0) E) as E1; pose proof (f_equal (@tl Z) E) as E2; cbn [hd tl] in E1, E2; clear E.
  - now subst. - subst; contradiction. - subst; contradiction.
  - apply IH in E2 as [-> ->]; [|assumption..]. subst. auto.
Qed.
Lemma app_inv_len {A} (a : list A) : forall b c d, a ++ c = b ++ d -> List.length a = List.length b -> a = b /\ c = d.
Proof. induction a as [|x a IH]; intros [|y b] c d E L; try discriminate; [now split|]. cbn [app] in E. injection E as -> E. apply IH in E as [-> ->]; [now split|now apply Nat.succ_inj]. Qed.
Lemma plain_val t n m : plain_number t n -> plain_number t m -> n = m.
Proof. intros (_ & _ & -> & _) (_ & _ & -> & _). reflexivity. Qed.
Lemma concat_inj n (a : list (list Z)) : Forall (fun r => List.length r = n) a -> forall b, Forall (fun r => List.length r = n) b -> List.length a = List.length b -> List.concat a = List.concat b -> a = b.
Proof.
  induction 1 as [|x a X _ IH]; intros b Y L E; destruct Y as [|y b Y Y']; try discriminate; [reflexivity|]. cbn [List.concat] in E. apply app_inv_len in E as [-> E]; [|congruence]. f_equal. apply IH; [assumption|now apply Nat.succ_inj|exact E].
Qed.
Theorem C158_one_image b rows rows' : pgm_image b rows -> pgm_image b rows' -> rows = rows'.
Proof.
  intros (w & tw & th & _ & _ & F & W & H & E) (w' & tw' & th' & _ & _ & F' & W' & H' & E'). rewrite E in E'. cbn [codes app] in E'. apply (f_equal (skipn 3)) in E'. cbn in E'.
  assert (D32 : ~ digit 32) by (unfold digit; lia). assert (D10 : ~ digit 10) by (unfold digit; lia).
  destruct W as (W1 & W2 & W3 & W4). destruct W' as (W1' & W2' & W3' & W4'). destruct H as (H1 & H2 & H3 & H4). destruct H' as (H1' & H2' & H3' & H4').
  apply number_end in E' as [-> E']; [|assumption..]. apply number_end in E' as [-> E']; [|assumption..]. apply (f_equal (skipn 4)) in E'. cbn in E'. rewrite <- W3 in W3'. rewrite <- H3 in H3'. assert (w' = w) by lia. subst w'. eapply concat_inj; [exact F|exact F'|lia|exact E'].
Qed.
Print Assumptions C158_one_image.
(** The lines of a channel that are not equally long leave a file that is no image. *)
Lemma put_rows_short n rows : fst (put_rows n rows) = List.concat rows /\ Forall (fun r => List.length r = n) rows \/
  (List.length (fst (put_rows n rows)) < n * List.length rows)%nat /\ snd (put_rows n rows) = false \/ n = 0%nat.
Proof.
  induction rows as [|r rows IH]; [left; now split|]. cbn [put_rows List.concat]. destruct (Nat.eqb_spec (List.length r) n) as [E|E].
  - destruct (put_rows n rows) as [b ok]. cbn [fst snd] in *. destruct IH as [[-> F]|[[L ->]|Z]]; [left; split; [reflexivity|now constructor]| |auto]. right. left. split; [|reflexivity]. rewrite app_length. cbn [List.length]. lia.
  - right. destruct n as [|n]; [now right|left]. cbn [fst snd List.length]. split; [lia|reflexivity].
Qed.
Lemma concat_length n (rows : list (list Z)) : Forall (fun r => List.length r = n) rows -> List.length (List.concat rows) = (n * List.length rows)%nat.
Proof. induction 1 as [|r rows E _ IH]; cbn [List.concat List.length]; [lia|]. rewrite app_length. lia. Qed.
Lemma ragged_file can name r rows d : can name = true -> r <> [] -> ~ Forall (fun q => List.length q = List.length r) rows ->
  Z.of_nat (List.length r) < 10 ^ 19 -> Z.of_nat (List.length (r :: rows)) < 10 ^ 19 ->
  exists b, write_pgm can name (r :: rows) d = (false, put_file d name b) /\ forall image, ~ pgm_image b image.
Proof.
  intros K N F L M. unfold write_pgm. replace (List.length r =? 0)%nat with false by (destruct r; [contradiction|reflexivity]). rewrite K.
  destruct (put_rows_short (List.length r) (r :: rows)) as [[_ G]|[[S1 S2]|Z0]]; [exfalso; apply F; now inversion G| |destruct r; [contradiction|discriminate]].
  destruct (put_rows (List.length r) (r :: rows)) as [b ok]. cbn [fst snd] in S1, S2. subst ok. eexists. split; [reflexivity|].
  intros image (w & tw & th & _ & _ & G & W & H & E). apply (f_equal (skipn 3)) in E. cbn [codes app skipn] in E.
  assert (D32 : ~ digit 32) by (unfold digit; lia). assert (D10 : ~ digit 10) by (unfold digit; lia).
  destruct (print_plain (Z.of_nat (List.length r))) as (P1 & P2 & P3 & P4); [lia|]. destruct (print_plain (Z.of_nat (List.length (r :: rows)))) as (Q1 & Q2 & Q3 & Q4); [lia|].
  destruct W as (W1 & W2 & W3 & W4). destruct H as (H1 & H2 & H3 & H4).
  apply number_end in E as [E1 E]; [|assumption..]. apply number_end in E as [E2 E]; [|assumption..]. apply (f_equal (skipn 4)) in E. cbn [skipn app] in E. rewrite E1 in P3. rewrite E2 in Q3. apply (f_equal (@List.length Z)) in E. rewrite (concat_length _ _ G) in E. assert (w = List.length r) by lia. assert (List.length image = List.length (r :: rows)) by lia. subst w. rewrite H0 in E. cbn [app] in E. lia.
Qed.
Definition ragged (rows : list (list Z)) : Prop := exists r rest, rows = r :: rest /\ r <> [] /\ ~ Forall (fun q => List.length q = List.length r) rest.
Lemma main_channels can content x d : bytes_ok content -> Z.of_nat (List.length content) < 2 ^ 32 - 1 -> read_file content = Ok x ->
  let h := id_header x in
  In (fh_vis_id h) (0 :: vis_ids) -> In (fh_ir_id h) (0 :: ir_ids) -> In (fh_wv_id h) (0 :: wv_ids) ->
  exists status d', pgm_main can (Some content) d = Ok (status, d') /\
    (forall ch name, In (ch, name) [(fh_vis_id h, "vis.pgm"); (fh_ir_id h, "ir.pgm"); (fh_wv_id h, "wv.pgm")] ->
      ch = 0 \/ filename ch = name /\ exists d0 ok d1, write_channel_pgm can ch x d0 = Ok (ok, d1) /\ d0 name = d name /\ d1 name = d' name).
Proof.
  intros B L E h V I W. pose proof (read_consistent _ _ B L E) as C. unfold pgm_main. rewrite E. cbn [bind]. unfold openmtp_ids_to_pgm. fold h.
  assert (V' : fh_vis_id h = 0 \/ filename (fh_vis_id h) = "vis.pgm") by (destruct V as [<-|V]; [now left|right; now apply vis_name]).
  assert (I' : fh_ir_id h = 0 \/ filename (fh_ir_id h) = "ir.pgm") by (destruct I as [<-|I]; [now left|right; now apply ir_name]).
  assert (W' : fh_wv_id h = 0 \/ filename (fh_wv_id h) = "wv.pgm") by (destruct W as [<-|W]; [now left|right; now apply wv_name]).
  assert (ST : forall ch name d, ch = 0 \/ filename ch = name -> exists ok d', write_channel_pgm can ch x d = Ok (ok, d') /\ forall n, n <> name -> d' n = d n).
  { intros ch name d0 [->|<-]; [exists false, d0; now split|now apply channel_total]. }
  destruct (ST _ "vis.pgm" d V') as (o1 & d1 & E1 & O1). destruct (ST _ "ir.pgm" d1 I') as (o2 & d2 & E2 & O2). destruct (ST _ "wv.pgm" d2 W') as (o3 & d3 & E3 & O3).
  rewrite E1. cbn [bind snd]. rewrite E2. cbn [bind snd]. rewrite E3. cbn [bind fst snd]. eexists _, d3. split; [reflexivity|].
  intros ch name [P|[P|[P|[]]]]; apply pair_equal_spec in P as [<- <-].
  - destruct V' as [V'|V']; [now left|right]. split; [exact V'|]. exists d, o1, d1. rewrite O3, O2 by discriminate. auto.
  - destruct I' as [I'|I']; [now left|right]. split; [exact I'|]. exists d1, o2, d2. rewrite O3 by discriminate. rewrite O1 by discriminate. auto.
  - destruct W' as [W'|W']; [now left|right]. split; [exact W'|]. exists d2, o3, d3. rewrite O2, O1 by discriminate. auto.
Qed.
Theorem C158_refuted_ragged can content x d : bytes_ok content -> Z.of_nat (List.length content) < 2 ^ 32 - 1 -> read_file content = Ok x ->
  let h := id_header x in
  In (fh_vis_id h) (0 :: vis_ids) -> In (fh_ir_id h) (0 :: ir_ids) -> In (fh_wv_id h) (0 :: wv_ids) ->
  exists status d', pgm_main can (Some content) d = Ok (status, d') /\
    forall ch name, In (ch, name) [(fh_vis_id h, "vis.pgm"); (fh_ir_id h, "ir.pgm"); (fh_wv_id h, "wv.pgm")] ->
      ch <> 0 -> can name = true -> ragged (map sl_pixels (channel_lines ch x)) -> exists b, d' name = Some b /\ forall image, ~ pgm_image b image.
Proof.
  intros B L E h V I W. pose proof (read_consistent _ _ B L E) as C. destruct (main_channels can content x d B L E V I W) as (st & d' & M & S). exists st, d'. split; [exact M|].
  intros ch name P N K (r & rest & Q & R & F). destruct (S ch name P) as [Z0|(Y & d0 & ok & d1 & X & _ & D)]; [contradiction|].
  assert (LC : Z.of_nat (List.length (channel_lines ch x)) < 2 ^ 32) by (pose proof (consistent_small x C); pose proof (filter_le (fun l => lh_channel_id (sl_header l) =? ch) (image_lines x)); unfold channel_lines; lia).
  rewrite write_channel_ok, Q, Y in X by assumption. destruct (ragged_file can name r rest d0 K R F) as (b & WR & NI).
  - destruct (consistent_sizes x C) as (_ & _ & FL). rewrite Forall_forall in FL. assert (J : In r (map sl_pixels (channel_lines ch x))) by (rewrite Q; now left). apply in_map_iff in J as (l & <- & J). apply filter_In in J as [J _]. destruct (FL l J) as [w Wl]. apply line_small in Wl. lia.
  - rewrite <- Q, map_length. lia.
  - rewrite WR in X. apply Ok_inj in X. apply (f_equal snd) in X. cbn [snd] in X. exists b. split; [|exact NI]. rewrite <- D, <- X. unfold put_file. now rewrite String.eqb_refl.
Qed.
Print Assumptions C158_refuted_ragged.
(** Two channels that are not in the list go to the same file: the first is lost. *)
Theorem C158_refuted_unknown can content x d : bytes_ok content -> Z.of_nat (List.length content) < 2 ^ 32 - 1 -> read_file content = Ok x ->
  let h := id_header x in let vis := map sl_pixels (channel_lines (fh_vis_id h) x) in let wv := map sl_pixels (channel_lines (fh_wv_id h) x) in
  12 < fh_vis_id h -> 12 < fh_wv_id h -> In (fh_ir_id h) (0 :: ir_ids) -> (forall n, can n = true) -> rectangular vis -> rectangular wv -> vis <> wv ->
  (forall name b, d name = Some b -> ~ pgm_image b vis) -> vis <> map sl_pixels (channel_lines (fh_ir_id h) x) ->
  exists status d', pgm_main can (Some content) d = Ok (status, d') /\ forall name b, d' name = Some b -> ~ pgm_image b vis.
Proof.
  intros B L E h vis wv V W I K RV RW NE D NI. pose proof (read_consistent _ _ B L E) as C. unfold pgm_main. rewrite E. cbn [bind]. unfold openmtp_ids_to_pgm. fold h.
  assert (U : forall c, 12 < c -> filename c = "unknown-channel.pgm") by (intros c Hc; unfold filename; repeat rewrite (proj2 (Z.eqb_neq c _)) by lia; reflexivity).
  destruct (channel_pgm can (fh_vis_id h) x d C) as (b1 & E1 & P1); [lia|exact RV|apply K|]. rewrite E1. cbn [bind snd]. fold vis in P1.
  destruct (channel_step can (fh_ir_id h) "ir.pgm" x (put_file d (filename (fh_vis_id h)) b1) C K) as (o2 & d2 & E2 & R2 & Z2 & O2); [destruct I as [<-|I]; [now left|right; now apply ir_name]|]. rewrite E2. cbn [bind snd].
  destruct (channel_pgm can (fh_wv_id h) x d2 C) as (b3 & E3 & P3); [lia|exact RW|apply K|]. rewrite E3. cbn [bind snd fst]. fold wv in P3.
  eexists _, _. split; [reflexivity|]. rewrite (U _ W). intros name b H G. unfold put_file in H. destruct (String.eqb_spec name "unknown-channel.pgm") as [->|N1].
  { injection H as <-. apply NE. eapply C158_one_image; eassumption. }
  destruct (String.eqb_spec name "ir.pgm") as [->|N2].
  2: { rewrite O2 in H by exact N2. rewrite (U _ V) in H. unfold put_file in H. destruct (String.eqb_spec name "unknown-channel.pgm"); [contradiction|]. exact (D _ _ H G). }
  assert (SAME : d2 "ir.pgm" = d "ir.pgm" -> False). { intros S2. rewrite S2 in H. exact (D _ _ H G). }
  destruct (Z.eq_dec (fh_ir_id h) 0) as [I0|I0].
  - apply SAME. rewrite Z2 by now left. rewrite (U _ V). reflexivity.
  - rewrite write_channel_ok in E2 by assumption. assert (FN : filename (fh_ir_id h) = "ir.pgm") by (destruct I as [I|I]; [congruence|now apply ir_name]). rewrite FN in E2.
    destruct (map sl_pixels (channel_lines (fh_ir_id h) x)) as [|r rest] eqn:Q.
    + apply SAME. cbn [write_pgm] in E2. apply Ok_inj in E2. apply (f_equal snd) in E2. cbn [snd] in E2. rewrite <- E2, (U _ V). reflexivity.
    + destruct (Nat.eq_dec (List.length r) 0) as [L0|L0].
      { apply SAME. unfold write_pgm in E2. rewrite L0 in E2. cbn [Nat.eqb] in E2. apply Ok_inj in E2. apply (f_equal snd) in E2. cbn [snd] in E2. rewrite <- E2, (U _ V). reflexivity. }
      destruct (Forall_dec (fun q => List.length q = List.length r) (fun q => Nat.eq_dec _ _) rest) as [F|F].
      * destruct R2 as (b2 & H2 & P2); [exact I0|split; [discriminate|]; exists (List.length r); split; [lia|now constructor]|]. rewrite H2 in H. injection H as <-. apply NI. eapply C158_one_image; eassumption.
      * assert (LC : Z.of_nat (List.length (r :: rest)) < 2 ^ 32) by (rewrite <- Q, map_length; pose proof (consistent_small x C); pose proof (filter_le (fun l => lh_channel_id (sl_header l) =? fh_ir_id h) (image_lines x)); unfold channel_lines; lia).
        destruct (ragged_file can "ir.pgm" r rest (put_file d (filename (fh_vis_id h)) b1) (K _)) as (b2 & H2 & NI2); [intros ->; contradiction|exact F| |lia|].
        { destruct (consistent_sizes x C) as (_ & _ & FL). rewrite Forall_forall in FL. assert (J : In r (map sl_pixels (channel_lines (fh_ir_id h) x))) by (rewrite Q; now left). apply in_map_iff in J as (l & <- & J). apply filter_In in J as [J _]. destruct (FL l J) as [w Wl]. apply line_small in Wl. lia. }
        rewrite H2 in E2. apply Ok_inj in E2. apply (f_equal snd) in E2. cbn [snd] in E2. subst d2. unfold put_file in H. rewrite String.eqb_refl in H. injection H as <-. exact (NI2 _ G).
Qed.
Print Assumptions C158_refuted_unknown.

(** ** C159: the exit status *)
(** It is success exactly when the water vapour image is not written. *)
Theorem C159_refuted_status can content x d : bytes_ok content -> Z.of_nat (List.length content) < 2 ^ 32 - 1 -> read_file content = Ok x ->
  let wv := fh_wv_id (id_header x) in
  exists status d', pgm_main can (Some content) d = Ok (status, d') /\
    (wv = 0 \/ channel_lines wv x = [] -> status = 0) /\
    (wv <> 0 -> rectangular (map sl_pixels (channel_lines wv x)) -> can (filename wv) = true ->
       status = 1 /\ exists b, d' (filename wv) = Some b /\ pgm_image b (map sl_pixels (channel_lines wv x))).
Proof.
  intros B L E wv. pose proof (read_consistent _ _ B L E) as C. unfold pgm_main. rewrite E. cbn [bind]. unfold openmtp_ids_to_pgm. fold wv.
  destruct (channel_total can (fh_vis_id (id_header x)) x d C) as (o1 & d1 & E1 & _). destruct (channel_total can (fh_ir_id (id_header x)) x d1 C) as (o2 & d2 & E2 & _). destruct (channel_total can wv x d2 C) as (o3 & d3 & E3 & _).
  rewrite E1. cbn [bind snd]. rewrite E2. cbn [bind snd]. rewrite E3. cbn [bind fst snd]. eexists _, d3. split; [reflexivity|]. split.
  - intros Z0. rewrite channel_none in E3 by assumption. apply Ok_inj in E3. apply (f_equal fst) in E3. cbn [fst] in E3. now subst o3.
  - intros N R K. destruct (channel_pgm can wv x d2 C N R K) as (b & E' & P). rewrite E' in E3. apply Ok_inj in E3. pose proof (f_equal fst E3) as T. apply (f_equal snd) in E3. cbn [fst snd] in T, E3. subst o3 d3. split; [reflexivity|]. exists b. split; [|exact P]. unfold put_file. now rewrite String.eqb_refl.
Qed.
Print Assumptions C159_refuted_status.
(** A file that is no OpenMTP-IDS file: failure, and no file is touched. *)
Theorem C159_unreadable_partial can content d : bytes_ok content -> Z.of_nat (List.length content) < 2 ^ 32 - 1 ->
  (forall x w tail, content = w ++ tail -> ~ ids_bytes x w) -> pgm_main can (Some content) d = Ok (1, d).
Proof.
  intros B L N. unfold pgm_main. destruct (C73_accepted_is_wellformed content B L) as [A [[x E]| ->]]; [|reflexivity]. apply A in E as (w & tail & -> & W). destruct (N x w tail eq_refl W).
Qed.
Print Assumptions C159_unreadable_partial.

(** ** C160: the sector *)
Lemma dyadic m e : (Z.abs m < 2 ^ 53)%Z -> (- 60 <= e)%Z -> generic_format radix2 (FLX_exp 53) (IZR m * bpow radix2 e).
Proof. intros M E. apply generic_format_FLX. exists (Float radix2 m e); [reflexivity|exact M]. Qed.
Lemma rnd53_le x y : (x <= y)%R -> (rnd53 x <= rnd53 y)%R.
Proof. apply round_le; [now apply FLX_exp_valid|apply valid_rnd_N]. Qed.
Lemma rnd53_id x m e : x = (IZR m * bpow radix2 e)%R -> (Z.abs m < 2 ^ 53)%Z -> (- 60 <= e)%Z -> rnd53 x = x.
Proof. intros -> M E. apply round_generic; [apply valid_rnd_N|now apply dyadic]. Qed.
Lemma half_512 : bpow radix2 (-9) = (/ 512)%R.
Proof. reflexivity. Qed.
(** The nearest integer to the root, when it is not too near to a half. *)
Lemma root_near n k : (1 <= k <= 4)%Z -> ((IZR k - / 2 + / 512) * (IZR k - / 2 + / 512) <= IZR n / 32 <= (IZR k + / 2 - / 512) * (IZR k + / 2 - / 512))%R -> (1 <= n <= 510)%Z ->
  record_lines n 256 = Ok k.
Proof.
  intros K [A B] N. unfold record_lines. cbn [Z.eqb Pos.eqb]. f_equal.
  assert (Q : (IZR (8 * n) / IZR 256)%R = (IZR n * bpow radix2 (-5))%R) by (rewrite mult_IZR; change (bpow radix2 (-5)) with (/ 32)%R; field).
  rewrite (rnd53_id _ n (-5) Q) by lia. rewrite Q. change (bpow radix2 (-5)) with (/ 32)%R. fold (IZR n / 32)%R.
  assert (K1 : (1 <= IZR k <= 4)%R) by (split; [apply IZR_le|apply IZR_le]; lia).
  assert (L : (IZR k - / 2 + / 512 <= sqrt (IZR n / 32))%R) by (rewrite <- (sqrt_square (IZR k - / 2 + / 512)) by lra; apply sqrt_le_1_alt; exact A).
  assert (U : (sqrt (IZR n / 32) <= IZR k + / 2 - / 512)%R) by (rewrite <- (sqrt_square (IZR k + / 2 - / 512)) by lra; apply sqrt_le_1_alt; exact B).
  apply rnd53_le in L. apply rnd53_le in U.
  rewrite (rnd53_id _ (512 * k - 255) (-9)) in L; [|rewrite half_512, minus_IZR, mult_IZR; field|lia|lia].
  rewrite (rnd53_id (IZR k + / 2 - / 512) (512 * k + 255) (-9)) in U; [|rewrite half_512, plus_IZR, mult_IZR; field|lia|lia].
  apply Znearest_imp. apply Rabs_def1; lra.
Qed.
(** The root is a half: ties go to even. *)
Lemma root_half n j : (0 <= j <= 3)%Z -> n = (8 * (2 * j + 1) * (2 * j + 1))%Z -> record_lines n 256 = Ok (if Z.even j then j else j + 1).
Proof.
  intros J ->. unfold record_lines. cbn [Z.eqb Pos.eqb]. f_equal.
  assert (Q : (IZR (8 * (8 * (2 * j + 1) * (2 * j + 1))) / IZR 256)%R = (IZR ((2 * j + 1) * (2 * j + 1)) * bpow radix2 (-2))%R) by (rewrite !mult_IZR; change (bpow radix2 (-2)) with (/ 4)%R; field).
  rewrite (rnd53_id _ ((2 * j + 1) * (2 * j + 1)) (-2) Q) by nia. rewrite Q. change (bpow radix2 (-2)) with (/ 4)%R.
  replace (IZR ((2 * j + 1) * (2 * j + 1)) * / 4)%R with ((IZR (2 * j + 1) / 2) * (IZR (2 * j + 1) / 2))%R by (rewrite mult_IZR; field).
  rewrite sqrt_square by (assert (0 <= IZR (2 * j + 1))%R by (apply IZR_le; lia); lra).
  rewrite (rnd53_id _ (2 * j + 1) (-1)); [|reflexivity|lia|lia].
  unfold Znearest. assert (F : Zfloor (IZR (2 * j + 1) / 2) = j) by (apply Zfloor_imp; rewrite !plus_IZR, mult_IZR; lra). rewrite F.
  rewrite Rcompare_Eq by (rewrite plus_IZR, mult_IZR; field).
  assert (Cc : Zceil (IZR (2 * j + 1) / 2) = (j + 1)%Z) by (apply Zceil_imp; replace (j + 1 - 1)%Z with j by lia; rewrite !plus_IZR, mult_IZR; lra). rewrite Cc. destruct (Z.even j); reflexivity.
Qed.
Lemma ceil_div n k m : (1 <= k <= 4)%Z -> (1 <= n <= 510)%Z -> ((m - 1) * k < n <= m * k)%Z -> no_records n k = Ok m.
Proof.
  intros K N M. unfold no_records. replace (k =? 0)%Z with false by lia. f_equal. apply Zceil_imp.
  assert (K1 : (0 < IZR k)%R) by (apply IZR_lt; lia). assert (M1 : (1 <= m <= 510)%Z) by nia.
  assert (L : (IZR (m - 1) + / 4 <= IZR n / IZR k)%R).
  { apply Rmult_le_reg_r with (IZR k); [exact K1|]. unfold Rdiv. rewrite Rmult_assoc, Rinv_l, Rmult_1_r by lra. assert (IZR k <= 4)%R by (apply IZR_le; lia). assert (IZR ((m - 1) * k + 1) <= IZR n)%R by (apply IZR_le; lia). rewrite plus_IZR, mult_IZR in H0. lra. }
  assert (U : (IZR n / IZR k <= IZR m)%R).
  { apply Rmult_le_reg_r with (IZR k); [exact K1|]. unfold Rdiv. rewrite Rmult_assoc, Rinv_l, Rmult_1_r by lra. rewrite <- mult_IZR. apply IZR_le. lia. }
  apply rnd53_le in L. apply rnd53_le in U.
  rewrite (rnd53_id _ (4 * m - 3) (-2)) in L; [|change (bpow radix2 (-2)) with (/ 4)%R; rewrite !minus_IZR, mult_IZR; field|lia|lia].
  rewrite (rnd53_id (IZR m) m 0) in U; [|change (bpow radix2 0) with 1%R; ring|lia|lia]. lra.
Qed.
(** Lines per record and records, by the number of lines of the sector. *)
Lemma packing n : 1 <= n <= 510 -> exists k, record_lines n 256 = Ok k /\
  (n <= 8 -> k = 0) /\ (8 < n -> 1 <= k <= 4 /\ exists m, no_records n k = Ok m /\ (m - 1) * k < n <= m * k /\ 1 <= m) /\ (n = 510 -> k = 4).
Proof.
  intros N. assert (CD : forall k, 1 <= k <= 4 -> exists m, no_records n k = Ok m /\ (m - 1) * k < n <= m * k /\ 1 <= m).
  { intros k K. exists ((n + k - 1) / k). assert (X : ((n + k - 1) / k - 1) * k < n <= (n + k - 1) / k * k) by (pose proof (Z.div_mod (n + k - 1) k); pose proof (Z.mod_pos_bound (n + k - 1) k); nia). split; [apply ceil_div; [exact K|lia|exact X]|]. split; [exact X|nia]. }
  assert (RN : forall k a b, 1 <= k <= 4 -> a <= n <= b -> ((IZR k - / 2 + / 512) * (IZR k - / 2 + / 512) <= IZR a / 32)%R -> (IZR b / 32 <= (IZR k + / 2 - / 512) * (IZR k + / 2 - / 512))%R -> record_lines n 256 = Ok k).
  { intros k a b K AB A B. apply root_near; [exact K| |lia]. assert (IZR a <= IZR n <= IZR b)%R by (split; apply IZR_le; lia). lra. }
  assert (FIN : forall k, 1 <= k <= 4 -> 8 < n -> record_lines n 256 = Ok k -> (n = 510 -> k = 4) -> exists k0, record_lines n 256 = Ok k0 /\
    (n <= 8 -> k0 = 0) /\ (8 < n -> 1 <= k0 <= 4 /\ exists m, no_records n k0 = Ok m /\ (m - 1) * k0 < n <= m * k0 /\ 1 <= m) /\ (n = 510 -> k0 = 4)).
  { intros k K G E F. exists k. split; [exact E|]. split; [lia|]. split; [auto|exact F]. }
  destruct (Z.eq_dec n 8) as [E|]. { exists 0. split; [apply (root_half n 0); lia|]. lia. }
  destruct (Z.eq_dec n 72) as [E|]. { apply (FIN 2); [lia|lia|apply (root_half n 1); lia|lia]. }
  destruct (Z.eq_dec n 200) as [E|]. { apply (FIN 2); [lia|lia|apply (root_half n 2); lia|lia]. }
  destruct (Z.eq_dec n 392) as [E|]. { apply (FIN 4); [lia|lia|apply (root_half n 3); lia|lia]. }
  destruct (Z_lt_dec n 8).
  { exists 0. split; [|lia]. unfold record_lines. cbn [Z.eqb Pos.eqb]. f_equal.
    assert (Q : (IZR (8 * n) / IZR 256)%R = (IZR n * bpow radix2 (-5))%R) by (rewrite mult_IZR; change (bpow radix2 (-5)) with (/ 32)%R; field).
    rewrite (rnd53_id _ n (-5) Q) by lia. rewrite Q. change (bpow radix2 (-5)) with (/ 32)%R.
    assert (N1 : (0 <= IZR n <= 7)%R) by (split; apply IZR_le; lia).
    assert (L : (0 <= sqrt (IZR n * / 32))%R) by apply sqrt_pos.
    assert (U : (sqrt (IZR n * / 32) <= / 2 - / 512)%R) by (rewrite <- (sqrt_square (/ 2 - / 512)) by lra; apply sqrt_le_1_alt; lra).
    apply rnd53_le in L. apply rnd53_le in U. rewrite (rnd53_id 0 0 0) in L; [|ring|lia|lia]. rewrite (rnd53_id (/ 2 - / 512) 255 (-9)) in U; [|rewrite half_512; field|lia|lia].
    apply Znearest_imp. apply Rabs_def1; lra. }
  destruct (Z_lt_dec n 72); [apply (FIN 1); [lia|lia|apply (RN 1 9 71); [lia|lia|lra|lra]|lia]|].
  destruct (Z_lt_dec n 200); [apply (FIN 2); [lia|lia|apply (RN 2 73 199); [lia|lia|lra|lra]|lia]|].
  destruct (Z_lt_dec n 392); [apply (FIN 3); [lia|lia|apply (RN 3 201 391); [lia|lia|lra|lra]|lia]|].
  apply (FIN 4); [lia|lia|apply (RN 4 393 510); [lia|lia|lra|lra]|lia].
Qed.
Definition cut (l : scan_line) : scan_line :=
  let h := sl_header l in
  mk_scan_line (mk_line_header 272 (lh_line h) 546 256 (lh_channel_id h) (lh_quality h) (lh_pad0 h) (lh_pad1 h)) (sector_pixels l).
Lemma sector_pixels_length l : (802 <= List.length (sl_pixels l))%nat -> List.length (sector_pixels l) = 256%nat.
Proof. intros H. unfold sector_pixels. rewrite firstn_length, skipn_length. lia. Qed.
Lemma sector_line_ok l : (802 <= List.length (sl_pixels l))%nat -> sector_line l = Ok (cut l).
Proof.
  intros H. unfold sector_line. change PIXEL_1 with 802%nat. change PIXEL_0 with 546%nat. replace (802 <=? List.length (sl_pixels l))%nat with true by lia. change (802 - 546)%nat with 256%nat. fold (sector_pixels l). rewrite (sector_pixels_length l H). reflexivity.
Qed.
Lemma all_lines_ok ls : Forall (fun l => (802 <= List.length (sl_pixels l))%nat) ls -> all_lines sector_line ls = Ok (map cut ls).
Proof. induction 1 as [|l ls H _ IH]; [reflexivity|]. cbn [all_lines map]. rewrite (sector_line_ok l H), IH. reflexivity. Qed.
Lemma all_lines_narrow ls : Exists (fun l => (List.length (sl_pixels l) < 802)%nat) ls -> all_lines sector_line ls = UB.
Proof.
  intros X. induction ls as [|l ls IH]; [inversion X|]. cbn [all_lines]. destruct (le_lt_dec 802 (List.length (sl_pixels l))) as [G|G].
  - rewrite (sector_line_ok l G). cbn [bind]. rewrite IH; [reflexivity|]. inversion X; [lia|assumption].
  - unfold sector_line. change PIXEL_1 with 802%nat. replace (802 <=? List.length (sl_pixels l))%nat with false by lia. reflexivity.
Qed.
Lemma sector_range x : scanline_range x LINE_0 LINE_1 = sector_lines x.
Proof. rewrite C41_range. reflexivity. Qed.
Lemma cut_bytes l : (exists w, line_bytes l w) -> (802 <= List.length (sl_pixels l))%nat -> exists w, line_bytes (cut l) w.
Proof.
  intros [w H] L. pose proof (sector_pixels_length l L) as SL. inversion H as [len line start chan qual p0 p1 px fl W B1 B2 E]. subst l. cbn [sl_pixels sl_header] in *. unfold cut. cbn [sl_header lh_line lh_channel_id lh_quality lh_pad0 lh_pad1].
  set (q := sector_pixels _) in *. replace 256 with (Z.of_nat (List.length q)) by (rewrite SL; reflexivity). eexists. apply (line_bytes_intro 272 line 546 chan qual p0 p1 q []).
  - repeat rewrite Forall_cons_iff in *. rewrite SL. unfold word in *. repeat split; try tauto; try lia.
  - unfold q, sector_pixels. cbn [sl_pixels]. apply Forall_forall. intros z Z0. apply (proj1 (Forall_forall _ _) B1). rewrite <- (firstn_skipn 546 px). apply in_or_app. right. rewrite <- (firstn_skipn 256 (skipn 546 px)). apply in_or_app. now left.
  - constructor.
  - rewrite SL. reflexivity.
Qed.
Definition blank : scan_line := mk_scan_line (mk_line_header 272 0 0 256 0 0 0 0) (repeat 0 256).
Lemma blank_bytes : exists w, line_bytes blank w.
Proof.
  eexists. unfold blank. change 256 with (Z.of_nat (List.length (repeat 0 256))) at 1. apply (line_bytes_intro 272 0 0 0 0 0 0 (repeat 0 256) []).
  - rewrite repeat_length. repeat constructor; unfold word; lia.
  - apply zeros_ok. - constructor. - rewrite repeat_length. reflexivity.
Qed.
Lemma fill_concat dummy k m : forall ls, (List.length ls <= k * m)%nat -> List.concat (fill dummy k m ls) = ls ++ repeat dummy (k * m - List.length ls).
Proof.
  induction m as [|m IH]; intros ls L; cbn [fill List.concat].
  - destruct ls; [|cbn [List.length] in L; lia]. rewrite Nat.mul_0_r. reflexivity.
  - rewrite IH by (rewrite skipn_length; lia). rewrite firstn_length, skipn_length. destruct (le_lt_dec k (List.length ls)) as [G|G].
    + rewrite Nat.min_l, Nat.sub_diag by lia. cbn [repeat]. rewrite app_nil_r, app_assoc, firstn_skipn. f_equal. f_equal. lia.
    + rewrite Nat.min_r, firstn_all2, skipn_all2 by lia. cbn [app]. rewrite <- app_assoc, <- repeat_app. f_equal. f_equal. lia.
Qed.
Lemma fill_length dummy k m : forall ls, List.length (fill dummy k m ls) = m /\ Forall (fun c => List.length c = k) (fill dummy k m ls).
Proof.
  induction m as [|m IH]; intros ls; cbn [fill]; [now split|]. destruct (IH (skipn k ls)) as [A B]. split; [cbn [List.length]; now rewrite A|]. constructor; [|exact B]. rewrite app_length, repeat_length, firstn_length. lia.
Qed.
Lemma in_fill dummy k m : forall ls c l, In c (fill dummy k m ls) -> In l c -> In l ls \/ l = dummy.
Proof.
  induction m as [|m IH]; intros ls c l; cbn [fill]; [intros []|]. intros [<-|I] J.
  - apply in_app_or in J as [J|J]; [left; rewrite <- (firstn_skipn k ls); apply in_or_app; now left|right; now apply repeat_spec in J].
  - destruct (IH _ _ _ I J) as [H|H]; [left; rewrite <- (firstn_skipn k ls); apply in_or_app; now right|now right].
Qed.
Lemma map_rc_lines h cs : map rc_lines (map (mk_record h) cs) = cs.
Proof. rewrite map_map. cbn [rc_lines]. apply map_id. Qed.
Lemma wide_sector x : Forall (fun l => (802 <= List.length (sl_pixels l))%nat) (sector_lines x) -> 2664 <= Z.of_nat (List.length (image_lines x)) -> consistent x ->
  exists k m, 1 <= k <= 4 /\ (3165 <= Z.of_nat (List.length (image_lines x)) -> k = 4 /\ m = 128) /\ 1 <= m <= 510 /\ (m - 1) * k < Z.of_nat (List.length (sector_lines x)) <= m * k /\
    let y := mk_ids (with_sizes (id_header x) (m + 1) (k * 272 + 8)) (map (mk_record (mk_record_header FORTRAN 8 k (k * 272 + 8) 0)) (fill blank (Z.to_nat k) (Z.to_nat m) (map cut (sector_lines x)))) in
    openmtp_ids_sector true x = write_ids y /\ consistent y.
Proof.
  intros W N C. assert (SL : List.length (sector_lines x) = Nat.min 510 (List.length (image_lines x) - Z.to_nat 2655)) by (unfold sector_lines; rewrite firstn_length, skipn_length; reflexivity).
  destruct (packing (Z.of_nat (List.length (sector_lines x)))) as (k & E & _ & P & F); [lia|]. destruct P as (K & m & Em & M & M1); [lia|].
  exists k, m. split; [exact K|]. split; [intros G; assert (k = 4) by (apply F; lia); subst k; split; [reflexivity|lia]|]. split; [nia|]. split; [exact M|]. cbv zeta. set (cs := fill blank (Z.to_nat k) (Z.to_nat m) (map cut (sector_lines x))).
  destruct (fill_length blank (Z.to_nat k) (Z.to_nat m) (map cut (sector_lines x))) as [FL FF]. fold cs in FL, FF. split.
  - unfold openmtp_ids_sector, sector. rewrite sector_range, (all_lines_ok _ W). cbn [bind]. unfold repack. assert (SN : exists l0 r, sector_lines x = l0 :: r) by (destruct (sector_lines x); [cbn [List.length] in *; lia|eauto]). destruct SN as (l0 & r & SN).
    assert (L0 : (802 <= List.length (sl_pixels l0))%nat) by (rewrite SN in W; exact (Forall_inv W)).
    assert (H0 : exists c0 r0, map cut (sector_lines x) = c0 :: r0 /\ List.length (sl_pixels c0) = 256%nat) by (rewrite SN; cbn [map]; eexists _, _; split; [reflexivity|]; cbn [cut sl_pixels]; now apply sector_pixels_length). destruct H0 as (c0 & r0 & H0 & H1).
    rewrite H0 at 1. rewrite H1. change (Z.of_nat 256) with 256. rewrite map_length, E. cbn [bind]. rewrite Em. cbn [bind]. change (256 + 16) with 272. change (Z.to_nat 256) with 256%nat. fold blank. fold cs.
    destruct cs as [|c cs'] eqn:EC; [cbn [List.length] in FL; lia|]. cbn [map rc_header rh_record_length]. f_equal. f_equal. f_equal. cbn [List.length] in FL |- *. rewrite map_length. lia.
  - destruct C as [w0 H]. pose proof (consistent_sizes x (ex_intro _ w0 H)) as (_ & _ & LB).
    assert (LS : Forall (fun l => exists w, line_bytes l w) (map cut (sector_lines x))).
    { apply Forall_map. apply Forall_forall. intros l I. apply cut_bytes; [|now apply (proj1 (Forall_forall _ _) W)]. apply (proj1 (Forall_forall _ _) LB). unfold sector_lines in I. rewrite <- (firstn_skipn (Z.to_nat 2655) (image_lines x)). apply in_or_app. right. rewrite <- (firstn_skipn 510 (skipn (Z.to_nat 2655) (image_lines x))). apply in_or_app. now left. }
    assert (RS : exists b, seq_bytes record_bytes (map (mk_record (mk_record_header FORTRAN 8 k (k * 272 + 8) 0)) cs) b).
    { apply forall_seq. apply Forall_map. apply Forall_forall. intros c I. assert (LC : List.length c = Z.to_nat k) by (now apply (proj1 (Forall_forall _ _) FF)).
      destruct (forall_seq line_bytes c) as [b B]. { apply Forall_forall. intros l J. destruct (in_fill _ _ _ _ _ _ I J) as [Q| ->]; [now apply (proj1 (Forall_forall _ _) LS)|exact blank_bytes]. }
      pose proof (record_bytes_intro FORTRAN 8 (k * 272 + 8) 0 c b) as RI. replace (Z.of_nat (List.length c)) with k in RI by lia. eexists. apply RI; [reflexivity|repeat constructor; unfold is_byte; lia| |exact B]. repeat constructor; unfold word; lia. }
    destruct RS as [b RS]. inversion H as [f nrec y d h mi py pd ph pm nch vis wv ir sat sid rlen nv nw ni avg smp irc wvc fine irs wvs rs fl b0 F1 F2 S1 S2 FLb W1 W2 NR RL SQ EX EW]. unfold with_sizes. cbn [id_header fh_fortran fh_year fh_julian_day fh_hour fh_minute fh_process_year fh_process_julian_day fh_process_hour fh_process_minute fh_no_channels fh_vis_id fh_wv_id fh_ir_id fh_satellite fh_satellite_id fh_no_vis_average fh_no_wv_average fh_no_ir_average fh_averaging_type fh_sample_interval fh_ir_calibration fh_wv_calibration fh_fine_adjustment fh_ir_space_count fh_wv_space_count].
    eexists. apply (ids_bytes_intro f (m + 1) y d h mi py pd ph pm nch vis wv ir sat sid (k * 272 + 8) nv nw ni avg smp irc wvc fine irs wvs _ (repeat 0 (Z.to_nat (k * 272 + 8 - 58))) b); try assumption.
    + apply zeros_ok.
    + inversion W1. constructor; [unfold word; nia|assumption].
    + inversion W2 as [|? ? A1 A2]. inversion A2 as [|? ? A3 A4]. constructor; [exact A1|]. constructor; [unfold word; lia|exact A4].
    + rewrite map_length, FL. lia.
    + rewrite repeat_length. lia.
Qed.
Lemma sector_written content x : bytes_ok content -> Z.of_nat (List.length content) < 2 ^ 32 - 1 -> read_file content = Ok x ->
  2664 <= Z.of_nat (List.length (image_lines x)) -> Forall (fun l => (802 <= List.length (sl_pixels l))%nat) (sector_lines x) ->
  exists w y pad, sector_main true (Some content) = Ok w /\ read_file w = Ok y /\ image_lines y = map cut (sector_lines x) ++ repeat blank pad /\
    (pad < 4)%nat /\ header_facts (id_header y) = header_facts (id_header x) /\ (3165 <= Z.of_nat (List.length (image_lines x)) -> pad = 2%nat /\ List.length (id_records y) = 128%nat).
Proof.
  intros B L E N W. pose proof (read_consistent _ _ B L E) as C. destruct (wide_sector x W N C) as (k & m & K & F & M1 & M & S & CY). set (y := mk_ids _ _) in S, CY.
  destruct (C39_round_trip y CY) as (w & WR & _ & RD & _). exists w, y, (Z.to_nat k * Z.to_nat m - List.length (sector_lines x))%nat. unfold sector_main. rewrite E. cbn [uncaught bind]. rewrite S, WR. cbn [uncaught].
  split; [reflexivity|]. split; [exact RD|]. assert (LL : (List.length (sector_lines x) <= Z.to_nat k * Z.to_nat m)%nat) by nia. split; [|split; [|split; [|]]].
  - unfold image_lines, y. cbn [id_records]. rewrite map_rc_lines, fill_concat by (rewrite map_length; exact LL). now rewrite map_length.
  - nia.
  - reflexivity.
  - intros G. destruct (F G) as [-> ->]. assert (SL : List.length (sector_lines x) = Nat.min 510 (List.length (image_lines x) - Z.to_nat 2655)) by (unfold sector_lines; rewrite firstn_length, skipn_length; reflexivity). split; [change (Z.to_nat 4) with 4%nat; change (Z.to_nat 128) with 128%nat; lia|]. unfold y. cbn [id_records]. rewrite map_length. apply (fill_length blank (Z.to_nat 4) (Z.to_nat 128)).
Qed.
(** The file written can be read; it has the lines and the pixels of the sector, with
    fewer than four blank lines at the end, and the facts of the original. *)
Theorem C160_sector_partial content x : bytes_ok content -> Z.of_nat (List.length content) < 2 ^ 32 - 1 -> read_file content = Ok x ->
  2664 <= Z.of_nat (List.length (image_lines x)) -> Forall (fun l => (802 <= List.length (sl_pixels l))%nat) (sector_lines x) ->
  exists w y pad, sector_main true (Some content) = Ok w /\ read_file w = Ok y /\
    map sl_pixels (image_lines y) = map sector_pixels (sector_lines x) ++ repeat (repeat 0 256) pad /\
    map identity (image_lines y) = map identity (sector_lines x) ++ repeat (0, 0, 0, 0, 0) pad /\ (pad < 4)%nat /\
    (forall ch, ch <> 0 -> map sl_pixels (channel_lines ch y) = map sector_pixels (filter (fun l => lh_channel_id (sl_header l) =? ch) (sector_lines x))) /\
    header_facts (id_header y) = header_facts (id_header x) /\
    (3165 <= Z.of_nat (List.length (image_lines x)) -> pad = 2%nat /\ List.length (id_records y) = 128%nat).
Proof.
  intros B L E N W. destruct (sector_written content x B L E N W) as (w & y & pad & S & R & I & P & H & G). exists w, y, pad. split; [exact S|]. split; [exact R|].
  assert (RM : forall A (f : scan_line -> A) n, map f (repeat blank n) = repeat (f blank) n) by (intros A f n; induction n as [|n IH]; cbn [repeat map]; [reflexivity|now rewrite IH]).
  split; [|split; [|split; [exact P|split; [|split; [exact H|exact G]]]]].
  - rewrite I, map_app, map_map, RM. reflexivity.
  - rewrite I, map_app, map_map, RM. f_equal.
  - intros ch N0. unfold channel_lines. rewrite I, filter_app, map_app.
    assert (FB : filter (fun l => lh_channel_id (sl_header l) =? ch) (repeat blank pad) = []) by (clear - N0; induction pad as [|n IH]; cbn [repeat filter]; [reflexivity|]; change (lh_channel_id (sl_header blank)) with 0; replace (0 =? ch) with false by lia; exact IH).
    rewrite FB. cbn [map]. rewrite app_nil_r. clear. induction (sector_lines x) as [|l ls IH]; [reflexivity|]. cbn [map filter]. change (lh_channel_id (sl_header (cut l))) with (lh_channel_id (sl_header l)). destruct (_ =? ch); cbn [map]; [f_equal|]; exact IH.
Qed.
Print Assumptions C160_sector_partial.
(** The position of the first pixel is 546 in every line, wherever the original line
    started. *)
Theorem C160_refuted_start content x : bytes_ok content -> Z.of_nat (List.length content) < 2 ^ 32 - 1 -> read_file content = Ok x ->
  2664 <= Z.of_nat (List.length (image_lines x)) -> Forall (fun l => (802 <= List.length (sl_pixels l))%nat) (sector_lines x) ->
  exists w y, sector_main true (Some content) = Ok w /\ read_file w = Ok y /\
    forall i l, nth_error (sector_lines x) i = Some l -> lh_start (sl_header l) <> 0 ->
      exists l', nth_error (image_lines y) i = Some l' /\ lh_start (sl_header l') <> lh_start (sl_header l) + 546.
Proof.
  intros B L E N W. destruct (sector_written content x B L E N W) as (w & y & pad & S & R & I & _). exists w, y. split; [exact S|]. split; [exact R|]. intros i l H Q. exists (cut l). split.
  - rewrite I, nth_error_app1; [now apply map_nth_error|]. rewrite map_length. apply nth_error_Some. congruence.
  - cbn. lia.
Qed.
Print Assumptions C160_refuted_start.

(** ** C161: what cannot be cut *)
(** A file that is no OpenMTP-IDS file aborts the program: the handler is for another
    type. *)
Theorem C161_refuted_unreadable can_write content : bytes_ok content -> Z.of_nat (List.length content) < 2 ^ 32 - 1 ->
  (forall x w tail, content = w ++ tail -> ~ ids_bytes x w) -> sector_main can_write (Some content) = Terminate.
Proof.
  intros B L N. unfold sector_main. destruct (C73_accepted_is_wellformed content B L) as [A [[x E]| ->]]; [|reflexivity]. apply A in E as (w & tail & -> & W). destruct (N x w tail eq_refl W).
Qed.
Print Assumptions C161_refuted_unreadable.
(** An image that ends before or just after the first line of the sector, or has a
    narrow line in it, is read outside its memory or divided by zero. *)
Theorem C161_refuted_small can_write content x : bytes_ok content -> Z.of_nat (List.length content) < 2 ^ 32 - 1 -> read_file content = Ok x ->
  Z.of_nat (List.length (image_lines x)) < 2664 \/ Exists (fun l => (List.length (sl_pixels l) < 802)%nat) (sector_lines x) -> sector_main can_write (Some content) = UB.
Proof.
  intros B L E H. pose proof (read_consistent _ _ B L E) as C. unfold sector_main. rewrite E. cbn [uncaught bind]. unfold openmtp_ids_sector, sector. rewrite sector_range.
  destruct (Exists_dec (fun l => (List.length (sl_pixels l) < 802)%nat) (sector_lines x)) as [X|X]; [intros l; apply lt_dec|rewrite (all_lines_narrow _ X); reflexivity|].
  destruct H as [H|H]; [|contradiction]. assert (W : Forall (fun l => (802 <= List.length (sl_pixels l))%nat) (sector_lines x)).
  { apply Forall_forall. intros l I. destruct (le_lt_dec 802 (List.length (sl_pixels l))); [assumption|]. exfalso. apply X. apply Exists_exists. eauto. }
  rewrite (all_lines_ok _ W). cbn [bind]. assert (SL : List.length (sector_lines x) = Nat.min 510 (List.length (image_lines x) - Z.to_nat 2655)) by (unfold sector_lines; rewrite firstn_length, skipn_length; reflexivity).
  unfold repack. destruct (sector_lines x) as [|l0 r] eqn:SN; [reflexivity|]. pose proof (Forall_inv W) as L0. cbn beta in L0. cbn [map]. change (sl_pixels (cut l0)) with (sector_pixels l0). rewrite (sector_pixels_length l0 L0). change (Z.of_nat 256) with 256.
  destruct (packing (Z.of_nat (List.length (cut l0 :: map cut r)))) as (k & R & Z0 & _); [cbn [List.length] in *; rewrite map_length; lia|]. rewrite R. cbn [bind]. rewrite Z0 by (cbn [List.length] in *; rewrite map_length; lia). reflexivity.
Qed.
Print Assumptions C161_refuted_small.

(** ** Cases *)
Definition small_line (n ch : Z) (px : list Z) : scan_line := mk_scan_line (mk_line_header (16 + Z.of_nat (List.length px)) n 1 (Z.of_nat (List.length px)) ch 0 0 0) px.
Definition small_file (vis ir wv : Z) (ls : list scan_line) : ids :=
  mk_ids (mk_file_header [0; 1] 2 1995 32 12 0 1995 32 12 30 3 vis wv ir (codes "METEOSAT") 20 60 1 1 1 0 1 0 0 0 0 0)
         [mk_record (mk_record_header [0; 1] 8 (Z.of_nat (List.length ls)) 100 0) ls].
Definition run_pgm (x : ids) : option (Z * list (option (list Z))) :=
  match write_ids x with
  | Ok w => match pgm_main (fun _ => true) (Some w) (fun _ => None) with Ok (s, d) => Some (s, map d ["vis.pgm"; "ir.pgm"; "wv.pgm"; "unknown-channel.pgm"]) | _ => None end
  | _ => None
  end.
Definition pgm_text (size : string) (b : list Z) : list Z := codes "P5" ++ [10] ++ codes size ++ [10] ++ codes "255" ++ [10] ++ b.
(** Three channels; a ragged one; two unknown ones. The status is failure when the
    water vapour image is there. *)
Example C158_case :
  run_pgm (small_file 1 4 6 [small_line 1 1 [10; 20]; small_line 1 4 [7]; small_line 1 6 [1; 2; 3]; small_line 2 1 [30; 40]]) =
    Some (1, [Some (pgm_text "2 2" [10; 20; 30; 40]); Some (pgm_text "1 1" [7]); Some (pgm_text "3 1" [1; 2; 3]); None]) /\
  run_pgm (small_file 1 0 6 [small_line 1 1 [10; 20]; small_line 2 1 [30]; small_line 3 1 [40; 50]]) = Some (0, [Some (pgm_text "2 3" [10; 20]); None; None; None]) /\
  run_pgm (small_file 20 0 21 [small_line 1 20 [10; 20]; small_line 2 21 [30]]) = Some (1, [None; None; None; Some (pgm_text "1 1" [30])]).
Proof. repeat split; vm_compute; reflexivity. Qed.
Example C159_case : pgm_main (fun _ => true) (Some [0; 1; 2]) (fun _ => None) = Ok (1, fun _ => None) /\ sector_main true (Some [0; 1; 2]) = Terminate /\
  match write_ids (small_file 1 4 6 [small_line 1 1 [10; 20]]) with Ok w => sector_main true (Some w) = UB | _ => False end.
Proof. repeat split. Qed.
(** An image of 3165 lines of 802 pixels. *)
Definition wide_line : scan_line := mk_scan_line (mk_line_header 818 1 1 802 4 0 0 0) (repeat 7 802).
Definition big_file : ids :=
  mk_ids (mk_file_header [0; 1] 634 1995 32 12 0 1995 32 12 30 1 0 0 4 (codes "METEOSAT") 20 4098 1 1 1 0 1 0 0 0 0 0)
         (repeat (mk_record (mk_record_header [0; 1] 8 5 4098 0) (repeat wide_line 5)) (Z.to_nat 633)).
Lemma seq_repeat {A} (P : A -> list Z -> Prop) x w n : P x w -> seq_bytes P (repeat x n) (List.concat (repeat w n)).
Proof. intros H. induction n as [|n IH]; cbn [repeat List.concat]; now constructor. Qed.
Lemma concat_repeat {A} (l : list A) n : List.length (List.concat (repeat l n)) = (n * List.length l)%nat.
Proof. induction n as [|n IH]; cbn [repeat List.concat]; [reflexivity|]. rewrite app_length, IH. lia. Qed.
Lemma big_bytes : exists w, ids_bytes big_file w /\ (List.length w <= 4000 * 1000)%nat.
Proof.
  assert (WL : exists w, line_bytes wide_line w /\ List.length w = 818%nat).
  { eexists. split.
    - unfold wide_line. change 802 with (Z.of_nat (List.length (repeat 7 802))). apply (line_bytes_intro 818 1 1 4 0 0 0 (repeat 7 802) []); [rewrite repeat_length; repeat constructor; unfold word; lia|apply Forall_forall; intros z I; apply repeat_spec in I; unfold is_byte; lia|constructor|now rewrite repeat_length].
    - rewrite !app_length, repeat_length. reflexivity. }
  destruct WL as (lw & WL & LL).
  assert (WR : exists w, record_bytes (mk_record (mk_record_header [0; 1] 8 5 4098 0) (repeat wide_line 5)) w /\ List.length w = 4100%nat).
  { eexists. split.
    - apply (record_bytes_intro [0; 1] 8 4098 0 (repeat wide_line 5) (List.concat (repeat lw 5))); [reflexivity|repeat constructor; unfold is_byte; lia|cbn [List.length repeat]; repeat constructor; unfold word; lia|now apply seq_repeat].
    - rewrite !app_length, concat_repeat, LL. reflexivity. }
  destruct WR as (rw & WR & LR). eexists. split.
  - unfold big_file. apply (ids_bytes_intro [0; 1] 634 1995 32 12 0 1995 32 12 30 1 0 0 4 (codes "METEOSAT") 20 4098 1 1 1 0 1 0 0 0 0 0 _ (repeat 0 (Z.to_nat 4040)) (List.concat (repeat rw (Z.to_nat 633)))).
    + reflexivity. + repeat constructor; unfold is_byte; lia. + reflexivity. + repeat constructor; unfold is_byte; lia. + apply zeros_ok.
    + repeat constructor; unfold word; lia. + repeat constructor; unfold word; lia. + rewrite repeat_length. reflexivity. + rewrite repeat_length. reflexivity. + now apply seq_repeat.
  - rewrite !app_length, concat_repeat, repeat_length, LR. cbn [List.length codes words flat_map be app]. lia.
Qed.
Lemma big_lines : image_lines big_file = repeat wide_line (Z.to_nat 3165).
Proof.
  unfold image_lines, big_file. cbn [id_records]. set (r := mk_record _ _).
  assert (G : forall n, List.concat (map rc_lines (repeat r n)) = repeat wide_line (5 * n)).
  { induction n as [|n IH]; [reflexivity|]. change (repeat r (S n)) with (r :: repeat r n). cbn [map List.concat]. rewrite IH. replace (5 * S n)%nat with (5 + 5 * n)%nat by lia. rewrite (repeat_app wide_line 5). reflexivity. }
  rewrite G. f_equal.
Qed.
Example C160_case : exists content x, bytes_ok content /\ Z.of_nat (List.length content) < 2 ^ 32 - 1 /\ read_file content = Ok x /\ 3165 <= Z.of_nat (List.length (image_lines x)) /\
  Forall (fun l => (802 <= List.length (sl_pixels l))%nat) (sector_lines x) /\ exists l, nth_error (sector_lines x) 0 = Some l /\ lh_start (sl_header l) <> 0.
Proof.
  destruct big_bytes as (w & W & L). exists w, big_file. split; [exact (ids_bytes_ok _ _ W)|]. split; [lia|]. split; [now apply C39_any_padding|]. rewrite big_lines, repeat_length. split; [lia|].
  assert (S : sector_lines big_file = repeat wide_line 510).
  { unfold sector_lines. rewrite big_lines. replace (Z.to_nat 3165) with (Z.to_nat 2655 + 510)%nat by lia. rewrite repeat_app, skipn_app, skipn_all2, repeat_length, Nat.sub_diag by (rewrite repeat_length; lia). cbn [app skipn]. apply firstn_all2. rewrite repeat_length. lia. }
  rewrite S. split; [|exists wide_line; split; [reflexivity|discriminate]]. apply Forall_forall. intros l I. apply repeat_spec in I. subst l. unfold wide_line. cbn [sl_pixels]. rewrite repeat_length. lia.
Qed.
