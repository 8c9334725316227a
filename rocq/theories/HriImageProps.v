(** Properties C48-C51: HRI images, keys and ASCII numbers. *)
From Verif Require Import BaseFacts HriImageModel HriImageSpec HriImageProofs.
From Coq Require Import QArith.
#[local] Open Scope Z_scope.

(** ** C48. Everything but the initial zeros. *)
Lemma line_of_contents (f : Z -> option Z) c np : np <= Z.of_nat (List.length c) -> (forall p, 0 <= p < np -> f p = Some (nth (Z.to_nat p) c 0)) ->
  map f (map Z.of_nat (seq 0 (Z.to_nat np))) = map Some (firstn (Z.to_nat np) c).
Proof.
  intros L F. apply (nth_ext _ _ None None).
  - rewrite !map_length, seq_length, firstn_length. lia.
  - intros n Hn. rewrite !map_length, seq_length in Hn. rewrite (nth_indep _ None (f 0)) by (rewrite !map_length, seq_length; lia). rewrite map_nth, nth_of_nat by exact Hn.
    rewrite F by lia. rewrite (nth_indep (map Some _) None (Some 0)) by (rewrite map_length, firstn_length; lia). rewrite map_nth. f_equal.
    rewrite <- (firstn_skipn (Z.to_nat np) c) at 1. rewrite app_nth1 by (rewrite firstn_length; lia). now rewrite Nat2Z.id.
Qed.
Lemma line_of_none (f : Z -> option Z) np : (forall p, 0 <= p < np -> f p = None) -> map f (map Z.of_nat (seq 0 (Z.to_nat np))) = repeat None (Z.to_nat np).
Proof.
  intros F. apply (nth_ext _ _ None None).
  - rewrite !map_length, seq_length, repeat_length. lia.
  - intros n Hn. rewrite !map_length, seq_length in Hn. rewrite (nth_indep _ None (f 0)) by (rewrite !map_length, seq_length; lia). rewrite map_nth, nth_of_nat by exact Hn.
    rewrite F by lia. now rewrite nth_repeat_lt.
Qed.
Theorem C48_history_partial : forall f b np nl im0 h, dims f b = Some (np, nl) -> set_format_band f b = Ok im0 ->
  Forall (fun kc => 0 <= fst kc < nl /\ np <= Z.of_nat (List.length (snd kc))) h ->
  exists im, put_lines im0 h = Ok im /\
    forall l, 0 <= l < nl ->
      let line := match latest h l with Some c => map Some (firstn (Z.to_nat np) c) | None => repeat None (Z.to_nat np) end in
      get_line im l = Ok (Some line) /\ forall p, 0 <= p < np -> get_pixel im l p = Ok (nth (Z.to_nat p) line None).
Proof.
  intros f b np nl im0 h D S F. pose proof (set_format_dims f b) as X. rewrite D in X. destruct X as (im & S' & W & A & B & DT). assert (im = im0) by congruence. subst im. clear S'.
  rewrite put_lines_all. destruct (put_all_ok (map (fun kc => Whole (fst kc) (snd kc)) h) im0 W) as (im & E & W' & A' & B' & C' & PX).
  { rewrite A, B. clear -F. induction F as [|kc h H _ IH]; cbn [map]; constructor; [exact H|exact IH]. }
  exists im. split; [exact E|]. intros l L. cbv zeta.
  assert (PX' : forall p, 0 <= p < np -> pix im l p = option_map (fun c => nth (Z.to_nat p) c 0) (latest h l)).
  { intros p P. rewrite PX by lia. rewrite last_put_latest. destruct (latest h l); [reflexivity|]. cbn [option_map]. unfold pix. rewrite A, DT.
    apply nth_repeat_lt. nia. }
  assert (G : get_line im l = Ok (Some match latest h l with Some c => map Some (firstn (Z.to_nat np) c) | None => repeat None (Z.to_nat np) end)).
  { rewrite get_line_ok by (auto; lia). rewrite A', A. do 2 f_equal. destruct (latest h l) as [c|] eqn:LT.
    - apply line_of_contents; [|exact PX']. clear -F LT. induction F as [|[k c'] h [_ H] _ IH]; cbn [latest] in LT; [discriminate|].
      destruct (latest h l) as [x|]; [apply IH; exact LT|]. destruct (k =? l); [|discriminate]. assert (c' = c) by congruence. subst. exact H.
    - apply line_of_none. exact PX'. }
  split; [exact G|]. intros p P. rewrite get_pixel_ok by (auto; lia). f_equal.
  rewrite get_line_ok in G by (auto; lia). apply Ok_inj, Some_inj in G. rewrite <- G.
  rewrite A', A. rewrite (nth_indep _ None (pix im l 0)) by (rewrite !map_length, seq_length; lia). rewrite map_nth, nth_of_nat by lia. now rewrite Z2Nat.id by lia.
Qed.
Print Assumptions C48_history_partial.
(** Everything out of range is refused, without a memory access. *)
Theorem C48_out_of_range : forall f b np nl im0 h im, dims f b = Some (np, nl) -> set_format_band f b = Ok im0 ->
  Forall (fun kc => 0 <= fst kc < nl /\ np <= Z.of_nat (List.length (snd kc))) h -> put_lines im0 h = Ok im ->
  (forall l, ~ 0 <= l < nl -> get_line im l = Terminate /\ forall c, put_line im c np l = Terminate) /\
  (forall c n l, n <> np -> put_line im c n l = Terminate) /\
  (forall l p, ~ (0 <= l < nl /\ 0 <= p < np) -> get_pixel im l p = Terminate).
Proof.
  intros f b np nl im0 h im D S F E. pose proof (set_format_dims f b) as X. rewrite D in X. destruct X as (im' & S' & W & A & B & DT). assert (im' = im0) by congruence. subst im'. clear S'.
  rewrite put_lines_all in E. destruct (put_all_ok (map (fun kc => Whole (fst kc) (snd kc)) h) im0 W) as (im' & E' & W' & A' & B' & C' & PX).
  { rewrite A, B. clear -F. induction F as [|kc h H _ IH]; cbn [map]; constructor; [exact H|exact IH]. }
  assert (im' = im) by congruence. subst im'. rewrite <- A, <- B, <- A', <- B'. split; [|split].
  - intros l L. split; [now apply get_line_bad|intros c; now apply put_line_bad].
  - intros c n l N. now apply put_line_size.
  - intros l p P. now apply get_pixel_bad.
Qed.
Print Assumptions C48_out_of_range.
(** Unwritten pixels are not zero: their value is indeterminate. *)
Theorem C48_refuted_initial_zeros : forall f b np nl im0 l p, dims f b = Some (np, nl) -> set_format_band f b = Ok im0 ->
  0 <= l < nl -> 0 <= p < np -> get_pixel im0 l p = Ok None.
Proof.
  intros f b np nl im0 l p D S L P. destruct (C48_history_partial f b np nl im0 [] D S (Forall_nil _)) as (im & E & R). cbn [put_lines] in E. apply Ok_inj in E. subst im.
  destruct (R l L) as [_ G]. rewrite G by exact P. cbn [latest]. now rewrite nth_repeat_lt by lia.
Qed.
Print Assumptions C48_refuted_initial_zeros.
(** The combinations of format and band that exist. *)
Theorem C48_formats : forall f b, (exists im, set_format_band f b = Ok im) <-> dims f b <> None.
Proof.
  intros f b. pose proof (set_format_dims f b) as X. destruct (dims f b) as [[np nl]|].
  - destruct X as (im & E & _). split; [discriminate|]. intros _. now exists im.
  - rewrite X. split; [intros [im H]; discriminate|congruence].
Qed.
Print Assumptions C48_formats.
Example C48_case : dims B_FORMAT IR_BAND = Some (1250, 625) /\
  let h := [(3, repeat 7 1250); (624, repeat 8 1250); (3, repeat 9 1251)] in
  Forall (fun kc => 0 <= fst kc < 625 /\ 1250 <= Z.of_nat (List.length (snd kc))) h /\ latest h 3 = Some (repeat 9 1251) /\ latest h 4 = None.
Proof.
  split; [reflexivity|]. cbv zeta. split; [|split; reflexivity].
  repeat (apply Forall_cons; [cbn [fst snd]; rewrite repeat_length; lia|]). apply Forall_nil.
Qed.

(** ** C49: second halves land two pixels early. What every history of line and
    half line writes does: *)
Theorem C49_placement_partial : forall f b np nl im0 h, dims f b = Some (np, nl) -> set_format_band f b = Ok im0 -> Forall (fits np (np / 2) nl) h ->
  exists im, put_all im0 h = Ok im /\
    forall l p, 0 <= l < nl -> 0 <= p < np -> get_pixel im l p = Ok (last_put (np / 2) (np / 2 - 2) h l p).
Proof.
  intros f b np nl im0 h D S F. pose proof (set_format_dims f b) as X. rewrite D in X. destruct X as (im & S' & W & A & B & DT). assert (im = im0) by congruence. subst im. clear S'.
  assert (HL : np / 2 = halflin im0) by (destruct W as (_ & N & _); rewrite <- A, N; lia). rewrite HL in *.
  destruct (put_all_ok h im0 W) as (im & E & W' & A' & B' & C' & PX); [rewrite A, B; exact F|].
  exists im. split; [exact E|]. intros l p L P. rewrite get_pixel_ok by (auto; lia). f_equal. rewrite PX by lia. destruct (last_put _ _ h l p); [reflexivity|].
  unfold pix. rewrite A, DT. apply nth_repeat_lt. nia.
Qed.
Print Assumptions C49_placement_partial.
(** Whatever the two halves written to a new image, the line is not their
    concatenation: its last two pixels are never written. *)
Theorem C49_refuted : forall f b np nl im0 l c1 c2, dims f b = Some (np, nl) -> set_format_band f b = Ok im0 -> 0 <= l < nl ->
  Z.of_nat (List.length c1) = np / 2 -> Z.of_nat (List.length c2) = np / 2 ->
  exists im, put_all im0 [Half l c1 true; Half l c2 false] = Ok im /\ get_line im l <> Ok (Some (map Some (c1 ++ c2))) /\
    get_pixel im l (np - 1) = Ok None /\ get_pixel im l (np / 2 - 2) = Ok (Some (nth 0 c2 0)).
Proof.
  intros f b np nl im0 l c1 c2 D S L L1 L2.
  destruct (C49_placement_partial f b np nl im0 [Half l c1 true; Half l c2 false] D S) as (im & E & P).
  { repeat (apply Forall_cons; [cbn [fits]; lia|]). apply Forall_nil. }
  pose proof (set_format_dims f b) as X. rewrite D in X. destruct X as (imx & S' & W & A & B & _). assert (imx = im0) by congruence. subst imx. clear S'.
  assert (NP : np = 2 * (np / 2) /\ 2 <= np / 2) by (destruct W as (H2 & N & _); rewrite <- A, N; lia).
  assert (Q1 : get_pixel im l (np - 1) = Ok None).
  { rewrite P by lia. f_equal. unfold last_put, puts. rewrite Z.eqb_refl. cbn [andb].
    destruct (Z.ltb_spec (np - 1) (np / 2 - 2 + np / 2)); [lia|]. rewrite andb_false_r. destruct (Z.ltb_spec (np - 1) (0 + np / 2)); [lia|]. now rewrite andb_false_r. }
  assert (Q2 : get_pixel im l (np / 2 - 2) = Ok (Some (nth 0 c2 0))).
  { rewrite P by lia. f_equal. unfold last_put, puts. rewrite Z.eqb_refl. cbn [andb].
    destruct (Z.leb_spec (np / 2 - 2) (np / 2 - 2)); [|lia]. destruct (Z.ltb_spec (np / 2 - 2) (np / 2 - 2 + np / 2)); [|lia]. cbn [andb]. f_equal. f_equal. lia. }
  exists im. split; [exact E|]. split; [|split; [exact Q1|exact Q2]]. intros G.
  assert (W' : wf im /\ npixels im = np /\ nlines im = nl).
  { destruct (put_all_ok [Half l c1 true; Half l c2 false] im0 W) as (imx & E' & W' & A' & B' & _).
    { rewrite A, B. destruct W as (_ & N & _). assert (halflin im0 = np / 2) by (rewrite <- A, N; lia). repeat (apply Forall_cons; [cbn [fits]; lia|]). apply Forall_nil. }
    assert (imx = im) by congruence. subst. split; [exact W'|]. split; congruence. }
  destruct W' as (W' & A' & B'). rewrite get_pixel_ok in Q1 by (auto; lia). rewrite get_line_ok in G by (auto; lia). apply Ok_inj, Some_inj in G. apply Ok_inj in Q1.
  assert (N : nth (Z.to_nat (np - 1)) (map Some (c1 ++ c2)) None = None).
  { rewrite <- G, A'. rewrite (nth_indep _ None (pix im l 0)) by (rewrite !map_length, seq_length; lia). rewrite map_nth, nth_of_nat by lia. rewrite Z2Nat.id by lia. exact Q1. }
  rewrite (nth_indep _ None (Some 0)) in N by (rewrite map_length, app_length; lia). rewrite map_nth in N. discriminate.
Qed.
Print Assumptions C49_refuted.
(** First halves alone are right, and a half line write of another size or line
    is refused. *)
Theorem C49_first_half_partial : forall f b np nl im0 l c, dims f b = Some (np, nl) -> set_format_band f b = Ok im0 -> 0 <= l < nl -> np / 2 <= Z.of_nat (List.length c) ->
  exists im, put_halfline im0 c (np / 2) l true = Ok im /\ forall p, 0 <= p < np / 2 -> get_pixel im l p = Ok (Some (nth (Z.to_nat p) c 0)).
Proof.
  intros f b np nl im0 l c D S L C. destruct (C49_placement_partial f b np nl im0 [Half l c true] D S) as (im & E & P); [constructor; [cbn [fits]; lia|constructor]|].
  pose proof (set_format_dims f b) as X. rewrite D in X. destruct X as (imx & S' & W & A & B & _). assert (imx = im0) by congruence. subst imx.
  assert (HL : np / 2 = halflin im0) by (destruct W as (_ & N & _); rewrite <- A, N; lia). cbn [put_all] in E. rewrite HL in *. destruct (put_halfline im0 c (halflin im0) l true) as [i| | | |]; try discriminate. cbn [bind] in E. apply Ok_inj in E. subst i.
  exists im. split; [reflexivity|]. intros p Hp. rewrite P by lia. cbn [last_put puts]. rewrite Z.eqb_refl. destruct (Z.leb_spec 0 p); [|lia]. destruct (Z.ltb_spec p (0 + halflin im0)); [|lia]. cbn [andb]. do 3 f_equal. lia.
Qed.
Print Assumptions C49_first_half_partial.
Theorem C49_bad_requests : forall f b np nl im0 h im, dims f b = Some (np, nl) -> set_format_band f b = Ok im0 -> Forall (fits np (np / 2) nl) h -> put_all im0 h = Ok im ->
  forall c n l first, n <> np / 2 \/ ~ 0 <= l < nl -> put_halfline im c n l first = Terminate.
Proof.
  intros f b np nl im0 h im D S F E c n l first H. pose proof (set_format_dims f b) as X. rewrite D in X. destruct X as (imx & S' & W & A & B & DT). assert (imx = im0) by congruence. subst imx.
  assert (HL : np / 2 = halflin im0) by (destruct W as (_ & N & _); rewrite <- A, N; lia). rewrite HL in *.
  destruct (put_all_ok h im0 W) as (im' & E' & W' & A' & B' & C' & _); [rewrite A, B; exact F|]. assert (im' = im) by congruence. subst im'.
  destruct W' as (H2 & NP & NL & LP & LL & SZ & LD). unfold put_halfline. destruct (Z.eqb_spec (size im) 0) as [X|_]; [nia|]. destruct (Z.eqb_spec n (halflin im)) as [->|]; [|reflexivity]. cbn [negb].
  destruct (Z.ltb_spec l 0); cbn [orb]; [reflexivity|]. destruct (Z.ltb_spec (lastlin im) l); [reflexivity|]. exfalso. lia.
Qed.
Print Assumptions C49_bad_requests.
Example C49_case : dims B_FORMAT VIS_BAND = Some (2500, 1250) /\ Forall (fits 2500 (2500 / 2) 1250) [Half 1249 (repeat 5 1250) true; Half 1249 (repeat 6 1250) false; Whole 0 (repeat 7 2500)] /\
  let h := [Half 3 (repeat 5 1250) true; Half 3 (repeat 6 1250) false] in
  last_put 1250 1248 h 3 1247 = Some 5 /\ last_put 1250 1248 h 3 1248 = Some 6 /\ last_put 1250 1248 h 3 2498 = None /\ last_put 1250 1250 h 3 1248 = Some 5.
Proof.
  split; [reflexivity|]. split; [repeat (apply Forall_cons; [cbn [fits]; rewrite repeat_length; lia|]); apply Forall_nil|]. vm_compute. repeat split.
Qed.

(** ** C50 *)
Ltac digits := repeat match goal with H : Forall _ (_ :: _) |- _ => inversion H; clear H; subst end.
Ltac ascii := repeat (rewrite add_f_digit by assumption); unfold decimals; cbn [decimal List.length Z.of_nat Pos.of_succ_nat Pos.succ];
  change (10 ^ 0) with 1; change (10 ^ 1) with 10; change (10 ^ 2) with 100; change (10 ^ 3) with 1000; change (10 ^ 4) with 10000; change (10 ^ 5) with 100000;
  rewrite ?inject_Z_plus, ?inject_Z_mult; unfold inject_Z; field.
Theorem C50_fixed_point : forall b, Forall digit_or_blank b ->
  (List.length b = 6%nat -> exists q, r4_from_char6 b = Ok q /\ (q == decimals b 3)%Q) /\
  (List.length b = 5%nat -> exists q, r4_from_char5 b = Ok q /\ (q == decimals b 2)%Q) /\
  (List.length b = 5%nat -> exists q, r4f_from_char5 b = Ok q /\ (q == decimals b 5)%Q) /\
  (List.length b = 3%nat -> exists q, r4_from_char3 b = Ok q /\ (q == decimals b 2)%Q) /\
  (List.length b = 3%nat -> exists q, r4f_from_char3 b = Ok q /\ (q == decimals b 1)%Q).
Proof.
  intros b F. repeat split; intros L.
  - do 6 (destruct b as [|? b]; [discriminate|]). destruct b; [|discriminate]. digits. eexists. split; [reflexivity|]. ascii.
  - do 5 (destruct b as [|? b]; [discriminate|]). destruct b; [|discriminate]. digits. eexists. split; [reflexivity|]. ascii.
  - do 5 (destruct b as [|? b]; [discriminate|]). destruct b; [|discriminate]. digits. eexists. split; [reflexivity|]. ascii.
  - do 3 (destruct b as [|? b]; [discriminate|]). destruct b; [|discriminate]. digits. eexists. split; [reflexivity|]. ascii.
  - do 3 (destruct b as [|? b]; [discriminate|]). destruct b; [|discriminate]. digits. eexists. split; [reflexivity|]. ascii.
Qed.
Print Assumptions C50_fixed_point.
Theorem C50_integers : forall b, Forall digit_or_blank b ->
  (List.length b = 3%nat -> i2_from_char3 b = Ok (decimal b)) /\ (List.length b = 2%nat -> i2_from_char2 b = Ok (decimal b)).
Proof.
  intros b F. split; intros L.
  - do 3 (destruct b as [|? b]; [discriminate|]). destruct b; [|discriminate]. digits. cbn [i2_from_char3]. f_equal.
    repeat match goal with H : digit_or_blank ?x |- _ => lazymatch goal with _ : 0 <= digit x <= 9 |- _ => fail | _ => pose proof (digit_bounds x H) end end.
    rewrite (add_i_digit 0) by (auto; lia). rewrite (add_i_digit (0 + _)) by (auto; lia). rewrite add_i_digit by (auto; lia). cbn [decimal List.length Z.of_nat Pos.of_succ_nat Pos.succ]. change (10 ^ 0) with 1; change (10 ^ 1) with 10; change (10 ^ 2) with 100. lia.
  - do 2 (destruct b as [|? b]; [discriminate|]). destruct b; [|discriminate]. digits. cbn [i2_from_char2]. f_equal.
    repeat match goal with H : digit_or_blank ?x |- _ => lazymatch goal with _ : 0 <= digit x <= 9 |- _ => fail | _ => pose proof (digit_bounds x H) end end.
    rewrite (add_i_digit 0) by (auto; lia). rewrite add_i_digit by (auto; lia). cbn [decimal List.length Z.of_nat Pos.of_succ_nat Pos.succ]. change (10 ^ 0) with 1; change (10 ^ 1) with 10. lia.
Qed.
Print Assumptions C50_integers.
Example C50_case : Forall digit_or_blank (codes " 93875") /\ decimal (codes " 93875") = 93875 /\ (exists q, r4_from_char6 (codes " 93875") = Ok q /\ (q == 93875 # 1000)%Q) /\ i2_from_char3 (codes "07 ") = Ok 70.
Proof.
  split; [cbn; repeat (apply Forall_cons; [unfold digit_or_blank; lia|]); apply Forall_nil|]. split; [reflexivity|]. split; [|reflexivity]. eexists. split; [reflexivity|]. reflexivity.
Qed.

(** ** C51 *)
Theorem C51_table : forall t, Forall entry_ok t -> List.length t = 120%nat ->
  exists ks, read_keys (table_bytes t) = Ok ks /\
    (forall st, has_keys ks st = true <-> exists k m, In (Some (k, st, m)) t) /\
    (forall st kn m, is_first (fun e => exists m, e = Some (kn, st, m)) t (Some (kn, st, m)) -> get_key ks st kn = mk_slot true kn st m) /\
    (forall st kn, Forall (fun e => ~ exists m, e = Some (kn, st, m)) t -> get_key ks st kn = mk_slot false 0 0 (repeat 0 8)).
Proof.
  intros t F L. exists (map slot_of t). split; [|split; [|split]].
  - unfold read_keys. rewrite <- L. exact (read_slots_at t [] 0 F eq_refl).
  - intros st. apply has_keys_iff.
  - intros st kn m H. now rewrite (get_key_first t st kn _ H).
  - intros st kn H. now apply get_key_none.
Qed.
Print Assumptions C51_table.
(** Every table of 1440 bytes is read without leaving it, a slot being used
    exactly when its first byte is not zero. *)
Theorem C51_every_table : forall buff, List.length buff = 1440%nat -> exists ks, read_keys buff = Ok ks /\ List.length ks = 120%nat /\
  forall i, (i < 120)%nat -> usage (nth i ks no_slot) = negb (nth (i * 12) buff 0 =? 0).
Proof.
  intros buff L. unfold read_keys.
  assert (G : forall n i, (i + n <= 120)%nat -> exists ks, read_slots buff i n = Ok ks /\ List.length ks = n /\ forall j, (j < n)%nat -> usage (nth j ks no_slot) = negb (nth ((i + j) * 12) buff 0 =? 0)).
  { induction n as [|n IH]; intros i B; cbn [read_slots].
    - exists []. split; [reflexivity|]. split; [reflexivity|]. intros j J. lia.
    - destruct (IH (S i)) as (ks & E & Lk & U); [lia|]. unfold read_slot. rewrite bytes_at_ok by lia. cbn [bind].
      assert (N : nth 0 (firstn 12 (skipn (i * 12) buff)) 0 = nth (i * 12) buff 0).
      { transitivity (nth 0 (skipn (i * 12) buff) 0); [|rewrite nth_skipn; f_equal; lia]. destruct (skipn (i * 12) buff); reflexivity. }
      assert (LL : List.length (firstn 12 (skipn (i * 12) buff)) = 12%nat) by (rewrite firstn_length, skipn_length; lia).
      destruct (firstn 12 (skipn (i * 12) buff)) as [|b0 w]; [discriminate|]. do 11 (destruct w as [|? w]; [discriminate|]). destruct w; [|discriminate]. cbn [nth] in N. rewrite E.
      destruct (Z.eqb_spec b0 0) as [Z0|Z0]; cbn [bind].
      + eexists. split; [reflexivity|]. split; [cbn [List.length]; lia|]. intros [|j] J; cbn [nth].
        * rewrite Nat.add_0_r, <- N, Z0. reflexivity.
        * rewrite U by lia. do 3 f_equal. lia.
      + eexists. split; [reflexivity|]. split; [cbn [List.length]; lia|]. intros [|j] J; cbn [nth].
        * rewrite Nat.add_0_r, <- N. cbn [usage]. destruct (Z.eqb_spec b0 0); [contradiction|reflexivity].
        * rewrite U by lia. do 3 f_equal. lia. }
  destruct (G 120%nat 0%nat) as (ks & E & Lk & U); [lia|]. exists ks. split; [exact E|]. split; [exact Lk|exact U].
Qed.
Print Assumptions C51_every_table.
Example C51_case : let t := [None; Some (7, 1234, repeat 9 8); Some (8, 1234, repeat 3 8); Some (7, 1234, repeat 4 8)] ++ repeat None 116 in
  Forall entry_ok t /\ List.length t = 120%nat /\ is_first (fun e => exists m, e = Some (7, 1234, m)) t (Some (7, 1234, repeat 9 8)) /\
  exists ks, read_keys (table_bytes t) = Ok ks /\ get_key ks 1234 7 = mk_slot true 7 1234 (repeat 9 8) /\ has_keys ks 1235 = false.
Proof.
  cbv zeta. split; [|split; [reflexivity|split]].
  - apply Forall_app. split; [|apply Forall_forall; intros x I; apply repeat_spec in I; subst; exact I]. repeat (apply Forall_cons; [cbn; repeat split; try lia; repeat (apply Forall_cons; [unfold is_byte; lia|]); apply Forall_nil|]). apply Forall_nil.
  - exists [None], ([Some (8, 1234, repeat 3 8); Some (7, 1234, repeat 4 8)] ++ repeat None 116). split; [reflexivity|]. split; [now exists (repeat 9 8)|]. constructor; [intros [m H]; discriminate|constructor].
  - eexists. split; [reflexivity|]. split; reflexivity.
Qed.
