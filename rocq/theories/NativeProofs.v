(** MSG native files: unpacking, reading lines, ownership. *)
From Verif Require Import BaseFacts MachineModel MachineProofs NativeModel NativeSpec IdsBytes.
From Coq Require Import Permutation.

(** ** Digits in base 1024 *)
Definition ten (v : Z) : Prop := 0 <= v < 1024.
Fixpoint v10 (s : list Z) : Z :=
  match s with [] => 0 | v :: s' => v * 1024 ^ Z.of_nat (List.length s') + v10 s' end.
Lemma val10_acc s : forall a, fold_left (fun a v => a * 1024 + v) s a = a * 1024 ^ Z.of_nat (List.length s) + v10 s.
Proof.
  induction s as [|v s IH]; intros a; cbn [fold_left v10 List.length]; [lia|]. rewrite IH, Nat2Z.inj_succ, Z.pow_succ_r by lia. lia.
Qed.
Lemma val10_v10 s : val10 s = v10 s.
Proof. unfold val10. rewrite val10_acc. lia. Qed.
Lemma v10_range s : Forall ten s -> 0 <= v10 s < 1024 ^ Z.of_nat (List.length s).
Proof.
  induction 1 as [|v s H _ IH]; cbn [v10 List.length]; [lia|]. rewrite Nat2Z.inj_succ, Z.pow_succ_r by lia. unfold ten in H. nia.
Qed.
Lemma v10_digit s : Forall ten s -> forall i, (i < List.length s)%nat -> nth i s 0 = group (v10 s) (List.length s) i.
Proof.
  induction 1 as [|v s H F IH]; intros i L; cbn [List.length] in *; [lia|]. pose proof (v10_range _ F) as R. unfold ten in H. unfold group. cbn [v10].
  destruct i as [|i]; cbn [nth].
  - replace (S (List.length s) - 1 - 0)%nat with (List.length s) by lia. rewrite Z.div_add_l by lia. rewrite (Z.div_small (v10 s)) by lia. rewrite Z.add_0_r. symmetry. apply Z.mod_small. lia.
  - rewrite IH by lia. unfold group. replace (S (List.length s) - 1 - S i)%nat with (List.length s - 1 - i)%nat by lia.
    set (e := (List.length s - 1 - i)%nat). replace (List.length s) with (e + S i)%nat by lia. rewrite Nat2Z.inj_add, Z.pow_add_r by lia.
    rewrite (Z.mul_comm (1024 ^ Z.of_nat e)), Z.mul_assoc, Z.div_add_l by (pose proof (Z.pow_pos_nonneg 1024 (Z.of_nat e)); lia).
    rewrite Nat2Z.inj_succ, Z.pow_succ_r by lia. replace (v * (1024 * 1024 ^ Z.of_nat i)) with (v * 1024 ^ Z.of_nat i * 1024) by lia.
    rewrite Z.add_comm, Z.mod_add by lia. reflexivity.
Qed.
Lemma digits_eq s : Forall ten s -> s = map (group (v10 s) (List.length s)) (seq 0 (List.length s)).
Proof.
  intros F. apply (nth_ext _ _ 0 0); [now rewrite map_length, seq_length|]. intros i L.
  rewrite (nth_indep (map _ _) 0 (group (v10 s) (List.length s) 0)) by (rewrite map_length, seq_length; lia). rewrite map_nth, seq_nth by lia. now apply v10_digit.
Qed.

(** ** to_sample *)
Lemma shl_lor a n b : 0 <= n -> 0 <= b < 2 ^ n -> Z.lor (Z.shiftl a n) b = a * 2 ^ n + b.
Proof. intros N B. rewrite Z.shiftl_mul_pow2 by lia. now apply lor_disjoint. Qed.
Lemma quad a b c e f : is_byte a -> is_byte b -> is_byte c -> is_byte e -> is_byte f ->
  let s0 := Z.lor (Z.shiftl a 2) (Z.shiftr b 6) in let s1 := Z.lor (Z.shiftl (Z.land b 63) 4) (Z.shiftr c 4) in
  let s2 := Z.lor (Z.shiftl (Z.land c 15) 6) (Z.shiftr e 2) in let s3 := Z.lor (Z.shiftl (Z.land e 3) 8) f in
  Forall ten [s0; s1; s2; s3] /\ s0 * 1073741824 + s1 * 1048576 + s2 * 1024 + s3 = a * 4294967296 + b * 16777216 + c * 65536 + e * 256 + f.
Proof.
  intros A B C E F s0 s1 s2 s3. unfold is_byte in A, B, C, E, F.
  assert (H0 : s0 = a * 4 + b / 64) by (unfold s0; rewrite Z.shiftr_div_pow2 by lia; change (2 ^ 6) with 64; rewrite shl_lor; change (2 ^ 2) with 4; lia).
  assert (H1 : s1 = b mod 64 * 16 + c / 16) by (unfold s1; change 63 with (Z.ones 6); rewrite Z.land_ones, Z.shiftr_div_pow2 by lia; change (2 ^ 4) with 16; change (2 ^ 6) with 64; rewrite shl_lor; change (2 ^ 4) with 16; lia).
  assert (H2 : s2 = c mod 16 * 64 + e / 4) by (unfold s2; change 15 with (Z.ones 4); rewrite Z.land_ones, Z.shiftr_div_pow2 by lia; change (2 ^ 2) with 4; change (2 ^ 4) with 16; rewrite shl_lor; change (2 ^ 6) with 64; lia).
  assert (H3 : s3 = e mod 4 * 256 + f) by (unfold s3; change 3 with (Z.ones 2); rewrite Z.land_ones by lia; change (2 ^ 2) with 4; rewrite shl_lor; change (2 ^ 8) with 256; lia).
  rewrite H0, H1, H2, H3. split; [repeat (apply Forall_cons; [unfold ten; lia|]); apply Forall_nil|]. lia.
Qed.
Lemma list_ind5 {A} (P : list A -> Prop) : P [] -> (forall a, P [a]) -> (forall a b, P [a; b]) -> (forall a b c, P [a; b; c]) -> (forall a b c d, P [a; b; c; d]) ->
  (forall a b c d e l, P l -> P (a :: b :: c :: d :: e :: l)) -> forall l, P l.
Proof.
  intros H0 H1 H2 H3 H4 H5. fix IH 1. intros [|a [|b [|c [|d [|e l]]]]]; [exact H0|apply H1|apply H2|apply H3|apply H4|]. apply H5. apply IH.
Qed.
Lemma to_sample_ok d : bytes_ok d -> forall room, (List.length d mod 5 = 0)%nat -> Z.of_nat (List.length d / 5 * 4) <= room ->
  exists s, to_sample d room = Ok s /\ List.length s = (List.length d / 5 * 4)%nat /\ Forall ten s /\ v10 s = be_val d.
Proof.
  induction d as [|a|a b|a b c|a b c e|a b c e f d IH] using list_ind5; intros B room M L; try discriminate M.
  - exists []. repeat split. constructor.
  - inversion B as [|? ? Ba B1]; inversion B1 as [|? ? Bb B2]; inversion B2 as [|? ? Bc B3]; inversion B3 as [|? ? Be B4]; inversion B4 as [|? ? Bf Bd]; subst.
    assert (D : (List.length (a :: b :: c :: e :: f :: d) / 5 = S (List.length d / 5))%nat) by (cbn [List.length]; lia).
    rewrite D in *. cbn [List.length] in M. destruct (IH Bd (room - 4)) as (s & E & Ls & F & V); [lia|lia|]. cbn [to_sample].
    destruct (Z.ltb_spec room 4); [lia|]. rewrite E. cbn [bind]. pose proof (quad a b c e f Ba Bb Bc Be Bf) as [Q1 Q2].
    eexists. split; [reflexivity|]. split; [cbn [List.length]; lia|]. split; [inversion Q1 as [|? ? X1 Y1]; inversion Y1 as [|? ? X2 Y2]; inversion Y2 as [|? ? X3 Y3]; inversion Y3 as [|? ? X4 Y4]; repeat (apply Forall_cons; [assumption|]); exact F|].
    cbn [v10 be_val List.length]. rewrite V, Ls. assert (Ld : Z.of_nat (List.length d) = 5 * Z.of_nat (List.length d / 5)) by lia.
    assert (P : 1024 ^ Z.of_nat (List.length d / 5 * 4) = 256 ^ Z.of_nat (List.length d)).
    { rewrite Ld. rewrite Nat2Z.inj_mul. change (Z.of_nat 4) with 4. rewrite Z.mul_comm, !Z.pow_mul_r by lia. reflexivity. }
    rewrite !Nat2Z.inj_succ, !Z.pow_succ_r by lia. rewrite P. nia.
Qed.
Lemma groups_spec d s : (List.length s = List.length d / 5 * 4)%nat -> Forall ten s -> v10 s = be_val d -> s = groups d.
Proof. intros L F V. unfold groups. rewrite <- L, <- V. now apply digits_eq. Qed.
Lemma to_sample_bad d room : (List.length d mod 5 <> 0)%nat \/ (d <> [] /\ room < Z.of_nat (List.length d / 5 * 4)) -> to_sample d room = UB.
Proof.
  revert room. induction d as [|a|a b|a b c|a b c e|a b c e f d IH] using list_ind5; intros room H; try reflexivity.
  - cbn in H. destruct H as [H|[H _]]; congruence.
  - cbn [to_sample]. destruct (Z.ltb_spec room 4); [reflexivity|]. assert (D : (List.length (a :: b :: c :: e :: f :: d) / 5 = S (List.length d / 5))%nat) by (cbn [List.length]; lia).
    rewrite IH; [reflexivity|]. rewrite D in H. cbn [List.length] in H. destruct H as [H|[_ H]]; [left; lia|right]. split; [intros ->; cbn in H; lia|lia].
Qed.
Lemma to_sample_spec d room : bytes_ok d ->
  to_sample d room = if ((List.length d mod 5 =? 0) && ((List.length d =? 0)%nat || (Z.of_nat (List.length d / 5 * 4) <=? room)%Z))%nat then Ok (groups d) else UB.
Proof.
  intros B. destruct (Nat.eqb_spec (List.length d mod 5) 0) as [M|M]; cbn [andb].
  - destruct (Nat.eqb_spec (List.length d) 0) as [N|N]; cbn [orb]; [destruct d; [reflexivity|discriminate]|].
    destruct (Z.leb_spec (Z.of_nat (List.length d / 5 * 4)) room) as [L|L].
    + destruct (to_sample_ok d B room M L) as (s & E & Ls & F & V). rewrite E. f_equal. now apply groups_spec.
    + apply to_sample_bad. right. split; [intros ->; apply N; reflexivity|exact L].
  - now apply to_sample_bad; left.
Qed.
Lemma groups_props d : bytes_ok d -> (List.length d mod 5 = 0)%nat ->
  List.length (groups d) = (List.length d / 5 * 4)%nat /\ Forall ten (groups d) /\ pack (groups d) = d.
Proof.
  intros B M. destruct (to_sample_ok d B (Z.of_nat (List.length d / 5 * 4)) M (Z.le_refl _)) as (s & _ & Ls & F & V).
  rewrite <- (groups_spec d s Ls F V). split; [exact Ls|]. split; [exact F|]. unfold pack. rewrite val10_v10, V, Ls.
  replace (List.length d / 5 * 4 / 4 * 5)%nat with (List.length d) by lia. now apply be_be_val.
Qed.

(** ** Reading a line on a little-endian host *)
Lemma num_le bs : num LE bs = be_val bs.
Proof. apply (get_ui_val LE). Qed.
Definition line_of (p : packet) (i : nat) : nline :=
  mk_nline (be_val (firstn 2 (skipn 1 (pk_line p)))) (be_val (firstn 4 (skipn 13 (pk_line p)))) (nth 17 (pk_line p) 0) i.
Lemma get_ui1_id h b : get_ui1 h b = b.
Proof. unfold get_ui1, load_u. destruct h; reflexivity. Qed.
Lemma read_line_fwd p h r : packet_ok p -> read_line LE h (packet_bytes p ++ r) = Ok (line_of p (List.length h), h ++ [Some (pk_data p)], r).
Proof.
  intros (Lh & Ls & Ll & Bh & Bs & Bl & Bd & Sz). unfold packet_bytes. rewrite <- !app_assoc. set (n := Z.of_nat (List.length (pk_data p)) + 42) in *.
  unfold read_line. rewrite !app_length, be_length.
  destruct (Nat.ltb_spec (List.length (pk_head p) + (4 + (List.length (pk_sub p) + (List.length (pk_line p) + (List.length (pk_data p) + List.length r))))) 38); [lia|].
  rewrite bytes_at_app by (rewrite ?be_length; lia). cbn [bind]. rewrite num_le, be_val_be_small by (change (256 ^ Z.of_nat 4) with (2 ^ 32); lia).
  replace ((n - 15 - 27) mod 2 ^ 64) with (Z.of_nat (List.length (pk_data p))) by (unfold n; rewrite Z.mod_small; lia).
  destruct (Z.leb_spec (2 ^ 63) (Z.of_nat (List.length (pk_data p)))); [lia|].
  replace (skipn 38 (pk_head p ++ be 4 n ++ pk_sub p ++ pk_line p ++ pk_data p ++ r)) with (pk_line p ++ pk_data p ++ r)
    by (rewrite (app_assoc (be 4 n)), (app_assoc (pk_head p)); symmetry; apply skipn_app_exact; rewrite !app_length, be_length; lia).
  rewrite app_length. destruct (Nat.ltb_spec (List.length (pk_line p) + List.length (pk_data p ++ r)) 27); [lia|].
  rewrite !bytes_at_ok by (rewrite app_length; lia). cbn [bind]. rewrite !num_le. unfold rd1. rewrite nth_error_app1 by lia.
  rewrite (nth_error_nth' _ 0) by lia. cbn [bind]. rewrite get_ui1_id.
  assert (K : forall a n, (a + n <= 27)%nat -> firstn n (skipn a (pk_line p ++ pk_data p ++ r)) = firstn n (skipn a (pk_line p))).
  { intros a m Q. rewrite skipn_app, firstn_app, skipn_length. replace (m - (List.length (pk_line p) - a))%nat with 0%nat by lia. rewrite firstn_O. apply app_nil_r. }
  rewrite !K by lia. rewrite skipn_app_exact by lia. rewrite app_length. destruct (Z.ltb_spec (Z.of_nat (List.length (pk_data p) + List.length r)) (Z.of_nat (List.length (pk_data p)))); [lia|].
  rewrite Nat2Z.id, firstn_app_exact, skipn_app_exact by lia. reflexivity.
Qed.
Lemma read_line_bwd h s l h' r : bytes_ok s -> read_line LE h s = Ok (l, h', r) ->
  exists p, packet_ok p /\ s = packet_bytes p ++ r /\ l = line_of p (List.length h) /\ h' = h ++ [Some (pk_data p)].
Proof.
  intros B E. pose proof E as E0. unfold read_line in E. destruct (Nat.ltb_spec (List.length s) 38) as [|L1]; [discriminate|].
  rewrite bytes_at_ok in E by lia. cbn [bind] in E. rewrite num_le in E. set (pl := firstn 4 (skipn 18 s)) in *.
  assert (Bp : bytes_ok pl) by (apply bytes_ok_firstn, bytes_ok_skipn, B).
  assert (Lp : List.length pl = 4%nat) by (unfold pl; rewrite firstn_length, skipn_length; lia).
  pose proof (be_val_range pl Bp) as Rp. rewrite Lp in Rp. change (256 ^ Z.of_nat 4) with (2 ^ 32) in Rp. set (size := (be_val pl - 15 - 27) mod 2 ^ 64) in *.
  destruct (Z.leb_spec (2 ^ 63) size) as [|L2]; [discriminate|].
  assert (Hs : size = be_val pl - 42 /\ 42 <= be_val pl).
  { unfold size in *. destruct (Z.lt_ge_cases (be_val pl) 42) as [C|C].
    - exfalso. replace (be_val pl - 15 - 27) with (be_val pl - 42 + 2 ^ 64 + (-1) * 2 ^ 64) in L2 by lia. rewrite Z.mod_add, Z.mod_small in L2 by lia. lia.
    - rewrite Z.mod_small by lia. lia. }
  rewrite skipn_length in E. destruct (Nat.ltb_spec (List.length s - 38) 27) as [|L3]; [discriminate|].
  rewrite !bytes_at_ok in E by (rewrite skipn_length; lia). cbn [bind] in E. unfold rd1 in E.
  destruct (nth_error (skipn 38 s) 17) as [ch|] eqn:Ech; [|discriminate]. cbn [bind] in E. rewrite skipn_skipn, skipn_length in E.
  destruct (Z.ltb_spec (Z.of_nat (List.length s - (27 + 38))) size) as [|L4]; [discriminate|]. apply Ok_inj, pair_inj in E as [E Er]. apply pair_inj in E as [El Eh].
  set (t := skipn (27 + 38) s) in *.
  set (p := mk_packet (firstn 18 s) (firstn 16 (skipn 22 s)) (firstn 27 (skipn 38 s)) (firstn (Z.to_nat size) t)).
  assert (Ld : Z.of_nat (List.length (pk_data p)) = size) by (cbn [p pk_data]; rewrite firstn_length; unfold t; rewrite skipn_length; lia).
  assert (P : packet_ok p).
  { unfold packet_ok. rewrite Ld. cbn [p pk_head pk_sub pk_line pk_data]. rewrite !firstn_length, !skipn_length. repeat split; try lia; try (apply bytes_ok_firstn; try apply bytes_ok_skipn; exact B). }
  assert (S : s = packet_bytes p ++ r).
  { unfold packet_bytes. rewrite Ld. cbn [p pk_head pk_sub pk_line pk_data]. replace (size + 42) with (be_val pl) by lia.
    pose proof (be_be_val pl Bp) as X. rewrite Lp in X. rewrite X. rewrite <- !app_assoc. rewrite <- Er, firstn_skipn. unfold t, pl.
    rewrite <- (firstn_skipn 18 s) at 1. f_equal. rewrite <- (firstn_skipn 4 (skipn 18 s)) at 1. f_equal. rewrite skipn_skipn.
    rewrite <- (firstn_skipn 16 (skipn (4 + 18) s)) at 1. f_equal. rewrite skipn_skipn. rewrite <- (firstn_skipn 27 (skipn (16 + (4 + 18)) s)) at 1. f_equal. rewrite skipn_skipn. reflexivity. }
  exists p. split; [exact P|]. split; [exact S|]. rewrite S, (read_line_fwd p h r P) in E0. apply Ok_inj, pair_inj in E0 as [E0 _]. apply pair_inj in E0 as [<- <-]. auto.
Qed.
Lemma read_line_total hs h s : match read_line hs h s with UB | Loop => False | _ => True end.
Proof.
  unfold read_line. destruct (Nat.ltb_spec (List.length s) 38); [exact I|]. rewrite bytes_at_ok by lia. cbn [bind]. destruct (2 ^ 63 <=? _); [exact I|].
  destruct (Nat.ltb_spec (List.length (skipn 38 s)) 27); [exact I|]. rewrite !bytes_at_ok by lia. cbn [bind]. unfold rd1.
  destruct (nth_error (skipn 38 s) 17) eqn:E; [|apply nth_error_None in E; lia]. cbn [bind]. destruct (_ <? _); exact I.
Qed.

(** ** The loop over channels *)
Fixpoint read_tags (hs : host) (tags : list nat) (x : native) : outcome native :=
  match tags with [] => Ok x | t :: ts => let! x := read_push hs t x in read_tags hs ts x end.
Lemma read_tags_app hs a b x : read_tags hs (a ++ b) x = let! y := read_tags hs a x in read_tags hs b y.
Proof. revert x. induction a as [|t a IH]; intros x; cbn [app read_tags bind]; [reflexivity|]. destruct (read_push hs t x); cbn [bind]; auto. Qed.
Lemma bind_ok {A} (m : outcome A) : (let! x := m in Ok x) = m.
Proof. destruct m; reflexivity. Qed.
Lemma read_row_tags hs sel ics x : read_row hs sel ics x =
  read_tags hs (flat_map (fun ic => if nth ic sel false then if (ic =? 11)%nat then [11; 11; 11]%nat else [ic] else []) ics) x.
Proof.
  revert x. induction ics as [|ic ics IH]; intros x; cbn [read_row flat_map]; [reflexivity|]. rewrite read_tags_app. unfold read_channel.
  destruct (nth ic sel false); [|cbn [read_tags bind]; apply IH]. destruct (Nat.eqb_spec ic 11) as [->|N]; cbn [read_tags].
  - destruct (read_push hs 11 x) as [x1| | | |]; cbn [bind]; try reflexivity. destruct (read_push hs 11 x1) as [x2| | | |]; cbn [bind]; try reflexivity.
    destruct (read_push hs 11 x2); cbn [bind]; auto.
  - destruct (read_push hs ic x); cbn [bind]; auto.
Qed.
Lemma read_rows_tags hs sel n x : read_rows hs sel n x = read_tags hs (order sel n) x.
Proof.
  revert x. induction n as [|n IH]; intros x; [reflexivity|]. cbn [read_rows]. change (order sel (S n)) with (row sel ++ order sel n).
  rewrite read_tags_app, read_row_tags. fold (row sel). destruct (read_tags hs (row sel) x); cbn [bind]; auto.
Qed.
Lemma of_channel_nil {A} c tags : of_channel c tags (@nil A) = [].
Proof. unfold of_channel. destruct tags; reflexivity. Qed.
Lemma of_channel_cons {A} c t tags (a : A) l : of_channel c (t :: tags) (a :: l) = (if (t =? c)%nat then [a] else []) ++ of_channel c tags l.
Proof. unfold of_channel. cbn [combine filter fst]. destruct (t =? c)%nat; reflexivity. Qed.
Lemma of_channel_map {A B} (f : A -> B) c tags l : of_channel c tags (map f l) = map f (of_channel c tags l).
Proof.
  revert l. induction tags as [|t tags IH]; intros [|a l]; cbn [map]; try reflexivity. rewrite !of_channel_cons, map_app, IH. destruct (t =? c)%nat; reflexivity.
Qed.
Definition numbered (k : nat) (ps : list packet) : list (packet * nat) := combine ps (seq k (List.length ps)).
Definition lines_of (k : nat) (ps : list packet) : list nline := map (fun q => line_of (fst q) (snd q)) (numbered k ps).
Definition buffers (ps : list packet) : heap := map (fun p => Some (pk_data p)) ps.
Lemma read_tags_fwd tags : forall ps h ls r, List.length ps = List.length tags -> Forall packet_ok ps -> Forall (fun t => t < 12)%nat tags -> List.length ls = 12%nat ->
  exists ls', read_tags LE tags (mk_native h ls (file_bytes ps ++ r)) = Ok (mk_native (h ++ buffers ps) ls' r) /\ List.length ls' = 12%nat /\
    forall c, (c < 12)%nat -> nth c ls' [] = nth c ls [] ++ of_channel c tags (lines_of (List.length h) ps).
Proof.
  induction tags as [|t tags IH]; intros [|p ps] h ls r L P T N; try discriminate L.
  - exists ls. cbn. rewrite app_nil_r. split; [reflexivity|]. split; [exact N|]. intros c _. now rewrite app_nil_r.
  - inversion P as [|? ? Pp Ps]; inversion T as [|? ? Tt Ts]; subst. cbn [read_tags file_bytes flat_map]. rewrite <- app_assoc. unfold read_push. cbn [nt_heap nt_rest nt_lines].
    rewrite (read_line_fwd p h _ Pp). cbn [bind]. cbn [List.length] in L.
    destruct (IH ps (h ++ [Some (pk_data p)]) (set_nth ls t (nth t ls [] ++ [line_of p (List.length h)])) r) as (ls' & E & N' & C); [lia|exact Ps|exact Ts|now rewrite set_nth_length|].
    exists ls'. fold (file_bytes ps). rewrite E. split; [f_equal; f_equal; rewrite <- app_assoc; reflexivity|]. split; [exact N'|]. intros c Hc. rewrite C by exact Hc.
    unfold lines_of, numbered. cbn [List.length seq combine map fst snd]. rewrite of_channel_cons. rewrite app_length. cbn [List.length]. rewrite Nat.add_1_r.
    destruct (Nat.eqb_spec t c) as [->|Ne]; [rewrite set_nth_same by lia|rewrite set_nth_other by exact Ne]; [rewrite <- app_assoc|]; reflexivity.
Qed.
Lemma read_tags_bwd tags : forall x y, bytes_ok (nt_rest x) -> read_tags LE tags x = Ok y ->
  exists ps, List.length ps = List.length tags /\ Forall packet_ok ps /\ nt_rest x = file_bytes ps ++ nt_rest y.
Proof.
  induction tags as [|t tags IH]; intros x y B E; cbn [read_tags] in E.
  - apply Ok_inj in E. subst. exists []. repeat split. constructor.
  - unfold read_push in E. destruct (read_line LE (nt_heap x) (nt_rest x)) as [[[l h] s]| | | |] eqn:El; try discriminate. cbn [bind] in E.
    destruct (read_line_bwd _ _ _ _ _ B El) as (p & P & S & _ & _). assert (Bs : bytes_ok s) by (rewrite S in B; apply bytes_ok_app in B; tauto).
    destruct (IH (mk_native h _ s) y Bs E) as (ps & L & Ps & R).
    cbn [nt_rest] in R. exists (p :: ps). split; [cbn; congruence|]. split; [now constructor|]. rewrite S, R. cbn [file_bytes flat_map]. rewrite <- app_assoc. reflexivity.
Qed.
Lemma read_tags_total hs tags : forall x, match read_tags hs tags x with UB | Loop => False | _ => True end.
Proof.
  induction tags as [|t tags IH]; intros x; cbn [read_tags]; [exact I|]. unfold read_push. pose proof (read_line_total hs (nt_heap x) (nt_rest x)) as T.
  destruct (read_line hs (nt_heap x) (nt_rest x)) as [[[l h] s]| | | |]; cbn [bind]; try exact I; try contradiction. apply IH.
Qed.
Lemma row_lt sel : Forall (fun t => t < 12)%nat (row sel).
Proof.
  apply Forall_forall. intros t H. unfold row in H. apply in_flat_map in H as (ic & I & H). apply in_seq in I. destruct (nth ic sel false); [|contradiction].
  destruct (ic =? 11)%nat; cbn in H; intuition lia.
Qed.
Lemma order_lt sel n : Forall (fun t => t < 12)%nat (order sel n).
Proof. unfold order. induction n as [|n IH]; cbn; [constructor|]. apply Forall_app. split; [apply row_lt|exact IH]. Qed.

(** The state after read. *)
Definition dropped (ps : list packet) : heap := match List.length ps with O => [] | S k => set_nth (buffers ps) k None end.
Definition state_of (sel : list bool) (n : nat) (ps : list packet) (r : list Z) (x : native) : Prop :=
  nt_heap x = dropped ps /\ nt_rest x = r /\ List.length (nt_lines x) = 12%nat /\
  forall c, (c < 12)%nat -> nth c (nt_lines x) [] = of_channel c (order sel n) (lines_of 0 ps).
Lemma read_native_fwd sel n ps r : List.length ps = List.length (order sel n) -> Forall packet_ok ps ->
  exists x, read_native LE sel n (file_bytes ps ++ r) = Ok x /\ state_of sel n ps r x.
Proof.
  intros L P. unfold read_native. rewrite read_rows_tags. destruct (read_tags_fwd (order sel n) ps [] (repeat [] 12) r L P (order_lt sel n) eq_refl) as (ls & E & N & C).
  rewrite E. cbn [bind app]. eexists. split; [reflexivity|]. unfold state_of, drop_local, dropped. cbn [nt_heap]. unfold buffers. rewrite map_length.
  assert (K : forall c, (c < 12)%nat -> nth c ls [] = of_channel c (order sel n) (lines_of 0 ps)).
  { intros c Hc. rewrite C by exact Hc. replace (nth c (repeat [] 12) []) with (@nil nline); [reflexivity|]. symmetry. do 12 (destruct c as [|c]; [reflexivity|]). lia. }
  destruct (List.length ps) eqn:Lp; cbn [nt_heap nt_rest nt_lines]; repeat split; auto. destruct ps; [reflexivity|discriminate].
Qed.
Lemma read_native_bwd sel n s x : bytes_ok s -> read_native LE sel n s = Ok x ->
  exists ps, List.length ps = List.length (order sel n) /\ Forall packet_ok ps /\ s = file_bytes ps ++ nt_rest x /\ state_of sel n ps (nt_rest x) x.
Proof.
  intros B E. pose proof E as E0. unfold read_native in E. rewrite read_rows_tags in E. destruct (read_tags LE (order sel n) _) as [y| | | |] eqn:Et; try discriminate. cbn [bind] in E. apply Ok_inj in E.
  destruct (read_tags_bwd _ (mk_native [] (repeat [] 12) s) y B Et) as (ps & L & P & R). cbn [nt_rest] in R. assert (X : nt_rest x = nt_rest y) by (rewrite <- E; unfold drop_local; destruct (List.length (nt_heap y)); reflexivity).
  rewrite <- X in R. exists ps. split; [exact L|]. split; [exact P|]. split; [exact R|]. destruct (read_native_fwd sel n ps (nt_rest x) L P) as (z & Ez & Sz). rewrite <- R, E0 in Ez. apply Ok_inj in Ez. now subst.
Qed.
Lemma read_native_total hs sel n s : match read_native hs sel n s with UB | Loop => False | _ => True end.
Proof.
  unfold read_native. rewrite read_rows_tags. pose proof (read_tags_total hs (order sel n) (mk_native [] (repeat [] 12) s)) as T.
  destruct (read_tags hs (order sel n) _); cbn [bind]; auto.
Qed.

(** ** Counting *)
Lemma of_channel_app {A} c t1 t2 (l1 l2 : list A) : List.length t1 = List.length l1 -> of_channel c (t1 ++ t2) (l1 ++ l2) = of_channel c t1 l1 ++ of_channel c t2 l2.
Proof.
  revert l1. induction t1 as [|t t1 IH]; intros [|a l1] L; try discriminate L; [reflexivity|]. cbn [app]. rewrite !of_channel_cons, IH by (cbn in L; lia). apply app_assoc.
Qed.
Lemma of_channel_length {A} c tags (l : list A) : List.length tags = List.length l -> List.length (of_channel c tags l) = count_occ Nat.eq_dec tags c.
Proof.
  revert l. induction tags as [|t tags IH]; intros [|a l] L; try discriminate L; [reflexivity|]. rewrite of_channel_cons, app_length, IH by (cbn in L; lia). cbn [count_occ].
  destruct (Nat.eqb_spec t c), (Nat.eq_dec t c); try contradiction; reflexivity.
Qed.
Lemma count_flat {f : nat -> list nat} c l : count_occ Nat.eq_dec (flat_map f l) c = list_sum (map (fun i => count_occ Nat.eq_dec (f i) c) l).
Proof. induction l as [|a l IH]; cbn; [reflexivity|]. now rewrite count_occ_app, IH. Qed.
Lemma row_count sel c : (c < 12)%nat -> count_occ Nat.eq_dec (row sel) c = if nth c sel false then if (c =? 11)%nat then 3%nat else 1%nat else 0%nat.
Proof.
  intros H. unfold row. rewrite count_flat.
  assert (G : forall l, NoDup l -> list_sum (map (fun i => count_occ Nat.eq_dec (if nth i sel false then if (i =? 11)%nat then [11; 11; 11]%nat else [i] else []) c) l)
    = if in_dec Nat.eq_dec c l then (if nth c sel false then if (c =? 11)%nat then 3%nat else 1%nat else 0%nat) else 0%nat).
  { induction l as [|a l IH]; intros D; [reflexivity|]. inversion D as [|? ? Na D']; subst. cbn [map list_sum]. change (list_sum (?x :: ?y)) with (x + list_sum y)%nat. cbn [fold_right list_sum]. fold (list_sum (map (fun i => count_occ Nat.eq_dec (if nth i sel false then if (i =? 11)%nat then [11; 11; 11]%nat else [i] else []) c) l)).
    rewrite (IH D'). destruct (Nat.eq_dec a c) as [->|Ne].
    - destruct (in_dec Nat.eq_dec c l); [contradiction|]. destruct (in_dec Nat.eq_dec c (c :: l)) as [|X]; [|exfalso; apply X; now left].
      destruct (nth c sel false); [|reflexivity]. destruct (Nat.eqb_spec c 11) as [->|]; [reflexivity|]. cbn [count_occ]. destruct (Nat.eq_dec c c); [reflexivity|congruence].
    - assert (Z0 : count_occ Nat.eq_dec (if nth a sel false then if (a =? 11)%nat then [11; 11; 11]%nat else [a] else []) c = 0%nat).
      { destruct (nth a sel false); [|reflexivity]. destruct (Nat.eqb_spec a 11) as [->|]; cbn [count_occ]; [destruct (Nat.eq_dec 11 c); [congruence|reflexivity]|]. destruct (Nat.eq_dec a c); [congruence|reflexivity]. }
      rewrite Z0. destruct (in_dec Nat.eq_dec c l) as [I1|I1]; destruct (in_dec Nat.eq_dec c (a :: l)) as [I2|I2]; try reflexivity; exfalso; [apply I2; now right|destruct I2; congruence]. }
  rewrite G by apply seq_NoDup. destruct (in_dec Nat.eq_dec c (seq 0 12)) as [|X]; [reflexivity|]. exfalso. apply X. apply in_seq. lia.
Qed.
Lemma order_count sel n c : (c < 12)%nat -> count_occ Nat.eq_dec (order sel n) c = if nth c sel false then if (c =? 11)%nat then (3 * n)%nat else n else 0%nat.
Proof.
  intros H. unfold order. induction n as [|n IH]; cbn [repeat List.concat]; [cbn [count_occ]; destruct (nth c sel false); [|reflexivity]; destruct (c =? 11)%nat; reflexivity|].
  rewrite count_occ_app, IH, row_count by exact H. destruct (nth c sel false); [|reflexivity]. destruct (c =? 11)%nat; lia.
Qed.

(** ** Pointers *)
Lemma lines_ptr k ps : map nl_ptr (lines_of k ps) = seq k (List.length ps).
Proof.
  unfold lines_of, numbered. rewrite map_map. revert k. induction ps as [|p ps IH]; intros k; cbn; [reflexivity|]. f_equal. apply IH.
Qed.
Lemma channels_perm {A} cs tags : NoDup cs -> forall l : list A, List.length tags = List.length l -> Forall (fun t => In t cs) tags ->
  Permutation (List.concat (map (fun c => of_channel c tags l) cs)) l.
Proof.
  intros D. induction tags as [|t tags IH]; intros [|a l] L T; try discriminate L.
  - assert (E : map (fun c => of_channel c [] (@nil A)) cs = map (fun _ => []) cs) by (apply map_ext; intros; apply of_channel_nil). rewrite E. clear. induction cs; cbn; [constructor|assumption].
  - inversion T as [|? ? Tt Ts]; subst. specialize (IH l ltac:(cbn in L; lia) Ts).
    assert (G : forall cs', NoDup cs' -> Permutation (List.concat (map (fun c => of_channel c (t :: tags) (a :: l)) cs'))
       ((if in_dec Nat.eq_dec t cs' then [a] else []) ++ List.concat (map (fun c => of_channel c tags l) cs'))).
    { induction cs' as [|c cs' IHc]; intros D'; [reflexivity|]. inversion D' as [|? ? Nc D'']; subst. cbn [map List.concat]. rewrite of_channel_cons.
      destruct (Nat.eqb_spec t c) as [->|Ne].
      - destruct (in_dec Nat.eq_dec c (c :: cs')) as [|X]; [|exfalso; apply X; now left]. rewrite <- app_assoc. apply Permutation_app_head. apply Permutation_app_head.
        rewrite (IHc D''). destruct (in_dec Nat.eq_dec c cs'); [contradiction|reflexivity].
      - cbn [app]. rewrite (IHc D''). destruct (in_dec Nat.eq_dec t cs') as [I1|I1]; destruct (in_dec Nat.eq_dec t (c :: cs')) as [I2|I2]; try (exfalso; first [apply I2; now right | destruct I2; congruence]); [|reflexivity].
        cbn [app]. symmetry. apply Permutation_middle. }
    rewrite (G cs D). destruct (in_dec Nat.eq_dec t cs); [|contradiction]. cbn [app]. now constructor.
Qed.
Lemma concat_nth {A} (l : list (list A)) : List.concat l = List.concat (map (fun c => nth c l []) (seq 0 (List.length l))).
Proof.
  induction l as [|a l IH]; [reflexivity|]. cbn [List.length seq map List.concat nth]. f_equal. rewrite <- seq_shift, map_map. exact IH.
Qed.
Lemma state_ptrs sel n ps r x : List.length ps = List.length (order sel n) -> state_of sel n ps r x ->
  Permutation (map nl_ptr (List.concat (nt_lines x))) (seq 0 (List.length ps)).
Proof.
  intros L (_ & _ & N & C). rewrite concat_nth, N. rewrite (map_ext_in _ (fun c => of_channel c (order sel n) (lines_of 0 ps))) by (intros c I; apply C; apply in_seq in I; lia).
  rewrite <- (lines_ptr 0 ps). apply Permutation_map. apply channels_perm; [apply seq_NoDup| |].
  - unfold lines_of, numbered. rewrite map_length, combine_length, seq_length. lia.
  - eapply Forall_impl; [|apply order_lt]. intros t H. apply in_seq. cbn in H. lia.
Qed.
Lemma dropped_nth ps i : nth i (dropped ps) None = if (S i =? List.length ps)%nat then None else nth i (buffers ps) None.
Proof.
  unfold dropped. destruct (List.length ps) as [|k] eqn:L; [destruct ps; [|discriminate]; destruct i; reflexivity|].
  destruct (Nat.eqb_spec (S i) (S k)) as [E|E]; [apply Nat.succ_inj in E; subst; apply set_nth_same; unfold buffers; rewrite map_length; lia|]. apply set_nth_other. congruence.
Qed.

(** ** close and data *)
Lemma free_all_dead ls : forall h, (exists l, In l ls /\ nth (nl_ptr l) h None = None) -> free_all ls h = UB.
Proof.
  induction ls as [|l ls IH]; intros h (d & I & D); [contradiction|]. cbn [free_all]. destruct (nth (nl_ptr l) h None) eqn:E; [|reflexivity].
  apply IH. destruct I as [->|I]; [congruence|]. exists d. split; [exact I|]. destruct (Nat.eq_dec (nl_ptr l) (nl_ptr d)) as [Q|Q]; [|now rewrite set_nth_other].
  rewrite <- Q. destruct (Nat.lt_ge_cases (nl_ptr l) (List.length h)) as [W|W]; [now apply set_nth_same|]. apply nth_overflow. rewrite set_nth_length. exact W.
Qed.
Lemma data_loop_dead h px ls : forall count m, Forall (fun o => match o with Some d => bytes_ok d | None => True end) h -> (exists l, In l ls /\ nth (nl_ptr l) h None = None) -> data_loop h px ls count m = UB.
Proof.
  induction ls as [|l ls IH]; intros count m B (d & I & D); [contradiction|]. cbn [data_loop]. destruct (nth (nl_ptr l) h None) as [b|] eqn:E; [|reflexivity].
  assert (Bb : bytes_ok b).
  { rewrite Forall_forall in B. apply (B (Some b)). rewrite <- E. apply nth_In. destruct (Nat.lt_ge_cases (nl_ptr l) (List.length h)) as [W|W]; [exact W|]. rewrite nth_overflow in E by exact W. discriminate. }
  rewrite to_sample_spec by exact Bb. destruct (_ && _); [|reflexivity]. cbn [bind]. apply IH; [exact B|]. destruct I as [->|I]; [congruence|]. eauto.
Qed.
Lemma write_at_length s : forall off m, List.length (write_at off s m) = List.length m.
Proof. induction s as [|v s IH]; intros off m; cbn [write_at]; [reflexivity|]. now rewrite IH, set_nth_length. Qed.
Lemma write_at_app s : forall a b c, List.length b = List.length s -> write_at (List.length a) s (a ++ b ++ c) = a ++ map Some s ++ c.
Proof.
  induction s as [|v s IH]; intros a [|o b] c L; try discriminate L; [reflexivity|]. cbn [write_at map app].
  assert (E : set_nth (a ++ o :: b ++ c) (List.length a) (Some v) = (a ++ [Some v]) ++ b ++ c).
  { clear. induction a as [|x a IH]; cbn; [reflexivity|]. now rewrite IH. }
  rewrite E. replace (S (List.length a)) with (List.length (a ++ [Some v])) by (rewrite app_length; cbn; lia). rewrite IH by (cbn in L; lia). now rewrite <- app_assoc.
Qed.
(** Lines of exactly px samples each. *)
Lemma data_loop_full h q : forall ls ds done n, map (fun l => nth (nl_ptr l) h None) ls = map Some ds -> Forall (fun d => bytes_ok d /\ List.length d = 5 * q)%nat ds ->
  List.length done = (n * (4 * q))%nat ->
  data_loop h (4 * q) ls n (map Some done ++ repeat None (List.length ls * (4 * q))) = Ok (map Some (done ++ flat_map groups ds)).
Proof.
  induction ls as [|l ls IH]; intros [|d ds] done n M F L; try discriminate M.
  - cbn [data_loop flat_map List.length Nat.mul repeat]. now rewrite !app_nil_r.
  - cbn [map] in M. injection M as M1 M2. inversion F as [|? ? [Bd Ld] Fd]; subst. cbn [data_loop]. rewrite M1, to_sample_spec by exact Bd. rewrite Ld.
    replace (5 * q / 5)%nat with q by lia. rewrite app_length, map_length, repeat_length, L. cbn [List.length].
    replace ((5 * q) mod 5 =? 0)%nat with true by (symmetry; apply Nat.eqb_eq; lia). cbn [andb].
    destruct (Z.leb_spec (Z.of_nat (q * 4)) (Z.of_nat (n * (4 * q) + S (List.length ls) * (4 * q)) - Z.of_nat (n * (4 * q)))) as [|X]; [|lia]. rewrite orb_true_r. cbn [bind].
    destruct (groups_props d Bd ltac:(rewrite Ld; lia)) as (Lg & _ & _). rewrite Ld in Lg.
    replace (S (List.length ls) * (4 * q))%nat with (4 * q + List.length ls * (4 * q))%nat by lia. rewrite repeat_app. rewrite <- L, <- (map_length Some done). rewrite write_at_app by (rewrite repeat_length; lia).
    rewrite app_assoc, <- map_app. rewrite (IH ds (done ++ groups d) (S n) M2 Fd) by (rewrite app_length; lia). cbn [flat_map]. now rewrite app_assoc.
Qed.
(** When the unpacking is safe. *)
Lemma data_loop_safe h px : forall ls ds n m, map (fun l => nth (nl_ptr l) h None) ls = map Some ds -> Forall bytes_ok ds ->
  (exists img, data_loop h px ls n m = Ok img /\ List.length img = List.length m) /\
    (forall i d, nth_error ds i = Some d -> (List.length d mod 5 = 0)%nat /\ (d = [] \/ ((n + i) * px + List.length d / 5 * 4 <= List.length m)%nat)) \/
  data_loop h px ls n m = UB /\
    (exists i d, nth_error ds i = Some d /\ ((List.length d mod 5 <> 0)%nat \/ d <> [] /\ (List.length m < (n + i) * px + List.length d / 5 * 4)%nat)).
Proof.
  induction ls as [|l ls IH]; intros [|d ds] n m M F; try discriminate M.
  - left. split; [exists m; auto|]. intros [|i] d H; discriminate.
  - cbn [map] in M. injection M as M1 M2. inversion F as [|? ? Bd Fd]; subst. cbn [data_loop]. rewrite M1, to_sample_spec by exact Bd.
    destruct (Nat.eqb_spec (List.length d mod 5) 0) as [A|A]; cbn [andb]; [|right; split; [reflexivity|]; exists 0%nat, d; split; [reflexivity|now left]].
    destruct ((List.length d =? 0)%nat || (Z.of_nat (List.length d / 5 * 4) <=? Z.of_nat (List.length m) - Z.of_nat (n * px))) eqn:C; cbn [bind].
    + destruct (IH ds (S n) (write_at (n * px) (groups d) m) M2 Fd) as [[(img & E & L) Sf]|[E (i & b & N & Sf)]]; rewrite write_at_length in *.
      * left. split; [exists img; auto|]. intros [|i] b N; cbn [nth_error] in N.
        -- injection N as <-. split; [exact A|]. apply orb_true_iff in C as [C|C]; [left; apply Nat.eqb_eq in C; now destruct d|right; lia].
        -- specialize (Sf i b N). replace (n + S i)%nat with (S n + i)%nat by lia. exact Sf.
      * right. split; [exact E|]. exists (S i), b. split; [exact N|]. replace (n + S i)%nat with (S n + i)%nat by lia. exact Sf.
    + right. split; [reflexivity|]. exists 0%nat, d. split; [reflexivity|]. apply orb_false_iff in C as [C1 C2]. right. split; [intros ->; discriminate|]. lia.
Qed.
