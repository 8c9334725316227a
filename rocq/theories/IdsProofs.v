(** OpenMTP-IDS: reading accepts exactly the specified files. *)
From Verif Require Import BaseFacts IdsModel IdsSpec.

(** ** Single reads *)
Lemma word_be v : word v -> be 2 v = [v / 256; v mod 256].
Proof. intros H. unfold word in H. cbn [be]. change (256 ^ Z.of_nat 1) with 256. change (256 ^ Z.of_nat 0) with 1. rewrite Z.div_1_r, (Z.mod_small (v / 256)) by lia. reflexivity. Qed.
Lemma read2_fwd v r : word v -> read2 (mk_stream (be 2 v ++ r) true) = (v, mk_stream r true).
Proof.
  intros H. rewrite word_be by exact H. unfold read2, get. cbn [app good rest]. f_equal. unfold word in H.
  change (2 ^ 16) with 65536. rewrite Z.shiftl_mul_pow2 by lia. change (2 ^ 8) with 256.
  rewrite (Z.mod_small (v / 256)), (Z.mod_small (_ * 256)) by lia.
  replace (v / 256 * 256) with (Z.shiftl (v / 256) 8) by (rewrite Z.shiftl_mul_pow2 by lia; reflexivity).
  assert (L : Z.lor (Z.shiftl (v / 256) 8) (v mod 256) = v).
  { rewrite Z.shiftl_mul_pow2 by lia. change (2 ^ 8) with 256. rewrite <- Z.lxor_lor, <- Z.add_nocarry_lxor; [lia| |].
    all: apply Z.bits_inj'; intros i Hi; rewrite Z.land_spec, Z.bits_0; change 256 with (2 ^ 8);
      destruct (Z.ltb_spec i 8); [rewrite Z.mul_pow2_bits_low by lia; reflexivity|]; rewrite Z.mod_pow2_bits_high by lia; apply andb_false_r. }
  rewrite L. apply Z.mod_small. lia.
Qed.
Lemma get_bad s : good s = false -> get s = (-1, s).
Proof. intros H. unfold get. now rewrite H. Qed.
Lemma get_good s : good (snd (get s)) = true -> good s = true /\ rest s = fst (get s) :: rest (snd (get s)).
Proof. unfold get. destruct (good s) eqn:G; [|cbn; congruence]. destruct (rest s) as [|b r]; cbn; [discriminate|auto]. Qed.
Lemma read2_bwd s v s' : bytes_ok (rest s) -> read2 s = (v, s') -> good s' = true -> good s = true /\ word v /\ rest s = be 2 v ++ rest s'.
Proof.
  intros B E G. unfold read2 in E. destruct (get s) as [a s1] eqn:E1. destruct (get s1) as [b s2] eqn:E2.
  apply pair_inj in E as [E <-]. assert (G1 : good s1 = true).
  { pose proof (get_good s1) as X. rewrite E2 in X. now apply X. }
  pose proof (get_good s) as X. rewrite E1 in X. destruct (X G1) as [Gs Rs]. cbn [fst snd] in Rs.
  pose proof (get_good s1) as Y. rewrite E2 in Y. destruct (Y G) as [_ Rs1]. cbn [fst snd] in Rs1. clear X Y E1 E2.
  rewrite Rs, Rs1 in B. inversion B as [|? ? Ba B']; subst. inversion B' as [|? ? Bb _]; subst. unfold is_byte in *.
  assert (V : be 2 (a * 256 + b) = [a; b]) by (rewrite word_be by (unfold word; lia); repeat f_equal; lia).
  assert (R : read2 (mk_stream (be 2 (a * 256 + b) ++ rest s2) true) = (a * 256 + b, mk_stream (rest s2) true)) by (apply read2_fwd; unfold word; lia).
  rewrite V in R. unfold read2, get in R. cbn [app good rest] in R. apply pair_inj in R as [R _]. rewrite R.
  split; [exact Gs|]. split; [unfold word; lia|]. rewrite V, Rs, Rs1. reflexivity.
Qed.
Lemma sread_fwd l old r : sread (List.length l) old (mk_stream (l ++ r) true) = (l, mk_stream r true).
Proof.
  unfold sread. cbn [good rest]. rewrite app_length. destruct (Nat.leb_spec (List.length l) (List.length l + List.length r)); [|lia].
  now rewrite firstn_app_exact, skipn_app_exact.
Qed.
Lemma sread_bwd n old s l s' : sread n old s = (l, s') -> good s' = true -> good s = true /\ List.length l = n /\ rest s = l ++ rest s'.
Proof.
  unfold sread. destruct (good s) eqn:G; [|intros E; apply pair_inj in E as [_ <-]; congruence].
  destruct (Nat.leb_spec n (List.length (rest s))); intros E; apply pair_inj in E as [<- <-]; cbn; [|discriminate].
  intros _. split; [reflexivity|]. split; [rewrite firstn_length; lia|]. symmetry. apply firstn_skipn.
Qed.
Lemma skip_fwd f r : skip (List.length f) (mk_stream (f ++ r) true) = mk_stream r true.
Proof. induction f as [|b f IH]; [reflexivity|]. cbn. exact IH. Qed.
Lemma skip_bwd n : forall s, good (skip n s) = true -> good s = true /\ exists f, List.length f = n /\ rest s = f ++ rest (skip n s).
Proof.
  induction n as [|n IH]; intros s G; cbn [skip] in *; [split; [exact G|exists []; auto]|].
  destruct (IH _ G) as (G1 & f & L & E). destruct (get_good s G1) as [Gs Rs]. split; [exact Gs|]. exists (fst (get s) :: f). cbn [List.length app].
  split; [congruence|]. now rewrite Rs, E.
Qed.

(** ** Runs of words *)
Fixpoint rdn (n : nat) (s : stream) : list Z * stream :=
  match n with
  | O => ([], s)
  | S m => let '(v, s) := read2 s in let '(vs, s) := rdn m s in (v :: vs, s)
  end.
Lemma rdn_fwd l : Forall word l -> forall r, rdn (List.length l) (mk_stream (words l ++ r) true) = (l, mk_stream r true).
Proof.
  induction 1 as [|v l Hv _ IH]; intros r; [reflexivity|]. cbn [List.length rdn]. change (words (v :: l)) with (be 2 v ++ words l).
  rewrite <- app_assoc, read2_fwd, IH by exact Hv. reflexivity.
Qed.
Lemma rdn_bwd n : forall s l s', bytes_ok (rest s) -> rdn n s = (l, s') -> good s' = true ->
  good s = true /\ List.length l = n /\ Forall word l /\ rest s = words l ++ rest s'.
Proof.
  induction n as [|n IH]; intros s l s' B E G; cbn [rdn] in E.
  - apply pair_inj in E as [<- <-]. repeat split; auto.
  - destruct (read2 s) as [v s1] eqn:E1. destruct (rdn n s1) as [vs s2] eqn:E2. apply pair_inj in E as [<- <-].
    (* the inner reader needs the bytes of s1 to be bytes *)
    assert (B1 : bytes_ok (rest s1)).
    { clear -B E1. unfold read2 in E1. destruct (get s) as [a t] eqn:Ea. destruct (get t) as [b u] eqn:Eb. apply pair_inj in E1 as [_ <-].
      assert (K : forall x, bytes_ok (rest x) -> bytes_ok (rest (snd (get x)))).
      { intros x Bx. unfold get. destruct (good x); [|exact Bx]. destruct (rest x) eqn:R; cbn; [constructor|]. now inversion Bx. }
      pose proof (K s B) as K1. rewrite Ea in K1. pose proof (K t K1) as K2. now rewrite Eb in K2. }
    destruct (IH _ _ _ B1 E2 G) as (G1 & L & F & R). destruct (read2_bwd _ _ _ B E1 G1) as (Gs & W & Rs).
    split; [exact Gs|]. split; [cbn; congruence|]. split; [constructor; auto|]. change (words (v :: vs)) with (be 2 v ++ words vs).
    rewrite Rs, R, <- app_assoc. reflexivity.
Qed.
Lemma list_len8 {A} (l : list A) : List.length l = 8%nat -> exists a b c d e f g h, l = [a; b; c; d; e; f; g; h].
Proof. intros H. do 9 (destruct l as [|? l]; [try discriminate H|]); try discriminate H. repeat eexists. Qed.
Lemma list_len4 {A} (l : list A) : List.length l = 4%nat -> exists a b c d, l = [a; b; c; d].
Proof. intros H. do 5 (destruct l as [|? l]; [try discriminate H|]); try discriminate H. repeat eexists. Qed.
Lemma list_len12 {A} (l : list A) : List.length l = 12%nat -> exists a b c d e f g h i j k m, l = [a; b; c; d; e; f; g; h; i; j; k; m].
Proof. intros H. do 13 (destruct l as [|? l]; [try discriminate H|]); try discriminate H. repeat eexists. Qed.
Lemma list_len13 {A} (l : list A) : List.length l = 13%nat -> exists a b c d e f g h i j k m n, l = [a; b; c; d; e; f; g; h; i; j; k; m; n].
Proof. intros H. do 14 (destruct l as [|? l]; [try discriminate H|]); try discriminate H. repeat eexists. Qed.

Lemma line_header_rdn s l s' : rdn 8 s = (l, s') ->
  read_line_header s = (mk_line_header (nth 0 l 0) (nth 1 l 0) (nth 2 l 0) (nth 3 l 0) (nth 4 l 0) (nth 5 l 0) (nth 6 l 0) (nth 7 l 0), s').
Proof.
  intros E. unfold read_line_header. cbn [rdn] in E.
  do 8 match goal with |- context [read2 ?x] => destruct (read2 x) as [? ?] end. apply pair_inj in E as [<- <-]. reflexivity.
Qed.
Lemma record_header_rdn s f s1 l s' : sread 2 FORTRAN s = (f, s1) -> rdn 4 s1 = (l, s') ->
  read_record_header s = (mk_record_header f (nth 0 l 0) (nth 1 l 0) (nth 2 l 0) (nth 3 l 0), s').
Proof.
  intros F E. unfold read_record_header. rewrite F. cbn [rdn] in E.
  do 4 match goal with |- context [read2 ?x] => destruct (read2 x) as [? ?] end. apply pair_inj in E as [<- <-]. reflexivity.
Qed.
Lemma file_header_rdn s f s1 l s2 sat s3 m s4 : sread 2 FORTRAN s = (f, s1) -> rdn 13 s1 = (l, s2) -> sread 8 SATELLITE s2 = (sat, s3) -> rdn 12 s3 = (m, s4) ->
  read_file_header s =
  (mk_file_header f (nth 0 l 0) (nth 1 l 0) (nth 2 l 0) (nth 3 l 0) (nth 4 l 0) (nth 5 l 0) (nth 6 l 0) (nth 7 l 0) (nth 8 l 0) (nth 9 l 0) (nth 10 l 0) (nth 11 l 0) (nth 12 l 0)
     sat (nth 0 m 0) (nth 1 m 0) (nth 2 m 0) (nth 3 m 0) (nth 4 m 0) (nth 5 m 0) (nth 6 m 0) (nth 7 m 0) (nth 8 m 0) (nth 9 m 0) (nth 10 m 0) (nth 11 m 0),
   skip (Z.to_nat (nth 1 m 0 + 2 - 60)) (if nth 1 m 0 + 2 - 60 <? 0 then setfail s4 else s4)).
Proof.
  intros F E1 Sa E2. unfold read_file_header. rewrite F. cbn [rdn] in E1.
  do 13 match goal with |- context [read2 ?x] => destruct (read2 x) as [? ?] end. apply pair_inj in E1 as [<- <-]. rewrite Sa. cbn [rdn] in E2.
  do 12 match goal with |- context [read2 ?x] => destruct (read2 x) as [? ?] end. apply pair_inj in E2 as [<- <-]. reflexivity.
Qed.

(** ** Scan lines *)
Lemma read_pixels_fwd px r : read_pixels (List.length px) (mk_stream (px ++ r) true) = Ok (px, mk_stream r true).
Proof. induction px as [|c px IH]; [reflexivity|]. cbn. rewrite IH. reflexivity. Qed.
Lemma read_pixels_total n : forall s, (exists p, read_pixels n s = Ok p) \/ read_pixels n s = Throw.
Proof.
  induction n as [|n IH]; intros s; cbn [read_pixels]; [eauto|]. destruct (get s) as [c s1]. destruct (good s1); [|auto].
  destruct (IH s1) as [[p ->]| ->]; cbn [bind]; eauto.
Qed.
Lemma read_pixels_bwd n : forall s px s', read_pixels n s = Ok (px, s') -> good s = true ->
  good s' = true /\ List.length px = n /\ rest s = px ++ rest s'.
Proof.
  induction n as [|n IH]; intros s px s' E Gs; cbn [read_pixels] in E.
  - apply Ok_inj, pair_inj in E as [<- <-]. auto.
  - destruct (get s) as [c s1] eqn:Eg. destruct (good s1) eqn:G1; [|discriminate]. destruct (read_pixels n s1) as [[q t]| | | |] eqn:Er; try discriminate.
    cbn [bind fst snd] in E. apply Ok_inj, pair_inj in E as [<- <-]. destruct (IH _ _ _ Er G1) as (G & L & R).
    pose proof (get_good s) as X. rewrite Eg in X. destruct (X G1) as [_ Rs]. cbn [fst snd] in Rs. split; [exact G|]. split; [cbn; congruence|].
    now rewrite Rs, R.
Qed.
Lemma read_scan_line_fwd l w r : line_bytes l w -> read_scan_line (mk_stream (w ++ r) true) = Ok (l, mk_stream r true).
Proof.
  intros H. destruct H as [len line start chan qual p0 p1 px fill W Bp Bf E]. rewrite <- !app_assoc. unfold read_scan_line.
  rewrite (line_header_rdn _ _ _ (rdn_fwd _ W _)). cbn [good nth lh_no_pixels lh_length]. rewrite Nat2Z.id, read_pixels_fwd. cbn [bind].
  replace (len - Z.of_nat (List.length px) - 16) with (Z.of_nat (List.length fill)) by lia. rewrite Nat2Z.id.
  destruct (Z.ltb_spec (Z.of_nat (List.length fill)) 0); [lia|]. now rewrite skip_fwd.
Qed.
Lemma read_scan_line_total s : (exists p, read_scan_line s = Ok p) \/ read_scan_line s = Throw.
Proof.
  unfold read_scan_line. destruct (read_line_header s) as [h s1]. destruct (good s1); [|auto].
  destruct (read_pixels_total (Z.to_nat (lh_no_pixels h)) s1) as [[[px t] ->]| ->]; cbn [bind]; eauto.
Qed.
Lemma read_scan_line_bwd s l s' : bytes_ok (rest s) -> read_scan_line s = Ok (l, s') -> good s' = true ->
  good s = true /\ exists w, line_bytes l w /\ rest s = w ++ rest s'.
Proof.
  intros B E G. unfold read_scan_line in E. destruct (rdn 8 s) as [ws s1] eqn:Er. rewrite (line_header_rdn _ _ _ Er) in E.
  cbn [lh_no_pixels lh_length] in E. destruct (good s1) eqn:G1; [|discriminate].
  destruct (rdn_bwd _ _ _ _ B Er G1) as (Gs & L & F & R). destruct (list_len8 _ L) as (len & line & start & np & chan & qual & p0 & p1 & ->).
  cbn [nth] in E. destruct (read_pixels (Z.to_nat np) s1) as [[px s2]| | | |] eqn:Ep; try discriminate. cbn [bind] in E.
  apply Ok_inj, pair_inj in E as [<- Es]. destruct (read_pixels_bwd _ _ _ _ Ep G1) as (G2 & Lp & R1).
  assert (Wn : word np) by (repeat (inversion F as [|? ? ? F']; subst; clear F; rename F' into F); assumption).
  assert (Wl : word len) by (inversion F; assumption).
  assert (Nn : np = Z.of_nat (List.length px)) by (unfold word in Wn; lia).
  rewrite <- Es in G. destruct (skip_bwd _ _ G) as (G3 & fill & Lf & Rf).
  destruct (Z.ltb_spec (len - np - 16) 0) as [N|N]; [cbn in G3; discriminate|]. rewrite Es in Rf.
  split; [exact Gs|]. exists (words [len; line; start; np; chan; qual; p0; p1] ++ px ++ fill). split; [|rewrite R, R1, Rf, <- !app_assoc; reflexivity].
  rewrite R in B. apply bytes_ok_app in B as [_ B]. rewrite R1 in B. apply bytes_ok_app in B as [Bp B]. rewrite Rf in B. apply bytes_ok_app in B as [Bf _].
  rewrite Nn in *. constructor; auto. lia.
Qed.

(** ** Records *)
Lemma read_lines_fwd ls w : seq_bytes line_bytes ls w -> forall r, read_lines (List.length ls) (mk_stream (w ++ r) true) = Ok (ls, mk_stream r true).
Proof.
  induction 1 as [|l ls b bs H _ IH]; intros r; [reflexivity|]. cbn [List.length read_lines]. rewrite <- app_assoc, (read_scan_line_fwd _ _ _ H). cbn [bind good].
  rewrite IH. reflexivity.
Qed.
Lemma read_lines_total n : forall s, (exists p, read_lines n s = Ok p) \/ read_lines n s = Throw.
Proof.
  induction n as [|n IH]; intros s; cbn [read_lines]; [eauto|]. destruct (read_scan_line_total s) as [[[l s1] ->]| ->]; cbn [bind]; [|auto].
  destruct (good s1); [|auto]. destruct (IH s1) as [[p ->]| ->]; cbn [bind]; eauto.
Qed.
Lemma read_lines_bwd n : forall s ls s', bytes_ok (rest s) -> read_lines n s = Ok (ls, s') -> good s = true ->
  good s' = true /\ List.length ls = n /\ exists w, seq_bytes line_bytes ls w /\ rest s = w ++ rest s'.
Proof.
  induction n as [|n IH]; intros s ls s' B E Gs; cbn [read_lines] in E.
  - apply Ok_inj, pair_inj in E as [<- <-]. split; [exact Gs|]. split; [reflexivity|]. exists []. split; [constructor|reflexivity].
  - destruct (read_scan_line s) as [[l s1]| | | |] eqn:El; try discriminate. cbn [bind] in E. destruct (good s1) eqn:G1; [|discriminate].
    destruct (read_lines n s1) as [[q t]| | | |] eqn:Er; try discriminate. cbn [bind fst snd] in E. apply Ok_inj, pair_inj in E as [<- <-].
    destruct (read_scan_line_bwd _ _ _ B El G1) as (_ & w & W & R).
    assert (B1 : bytes_ok (rest s1)) by (rewrite R in B; apply bytes_ok_app in B; tauto).
    destruct (IH _ _ _ B1 Er G1) as (G & L & w2 & W2 & R2). split; [exact G|]. split; [cbn; congruence|]. exists (w ++ w2).
    split; [now constructor|]. now rewrite R, R2, <- app_assoc.
Qed.
Lemma read_record_fwd x w r : record_bytes x w -> read_record (mk_stream (w ++ r) true) = Ok (x, mk_stream r true).
Proof.
  intros H. destruct H as [f hlen rlen zero ls b Lf Bf W S]. rewrite <- !app_assoc. unfold read_record.
  pose proof (sread_fwd f FORTRAN (words [hlen; Z.of_nat (List.length ls); rlen; zero] ++ b ++ r)) as F. rewrite Lf in F.
  rewrite (record_header_rdn _ _ _ _ _ F (rdn_fwd _ W _)). cbn [good nth rh_no_scanlines]. rewrite Nat2Z.id, (read_lines_fwd _ _ S). reflexivity.
Qed.
Lemma read_record_total s : (exists p, read_record s = Ok p) \/ read_record s = Throw.
Proof.
  unfold read_record. destruct (read_record_header s) as [h s1]. destruct (good s1); [|auto].
  destruct (read_lines_total (Z.to_nat (rh_no_scanlines h)) s1) as [[[l t] ->]| ->]; cbn [bind]; eauto.
Qed.
Lemma read_record_bwd s x s' : bytes_ok (rest s) -> read_record s = Ok (x, s') ->
  good s = true /\ good s' = true /\ exists w, record_bytes x w /\ rest s = w ++ rest s'.
Proof.
  intros B E. unfold read_record in E. destruct (sread 2 FORTRAN s) as [f s1] eqn:Ef. destruct (rdn 4 s1) as [ws s2] eqn:Er.
  rewrite (record_header_rdn _ _ _ _ _ Ef Er) in E. cbn [rh_no_scanlines] in E. destruct (good s2) eqn:G2; [|discriminate].
  assert (G1 : good s1 = true).
  { destruct (good s1) eqn:G1; [reflexivity|]. exfalso. clear -G1 G2 Er.
    assert (K : forall n x l y, rdn n x = (l, y) -> good x = false -> good y = false).
    { induction n as [|n IH]; intros x l y H Gx; cbn [rdn] in H; [apply pair_inj in H as [_ <-]; exact Gx|].
      unfold read2 in H. rewrite (get_bad x Gx), (get_bad x Gx) in H. cbn [rdn] in H. destruct (rdn n x) as [vs u] eqn:Eu. apply pair_inj in H as [_ <-]. eapply IH; eauto. }
    rewrite (K _ _ _ _ Er G1) in G2. discriminate. }
  destruct (sread_bwd _ _ _ _ _ Ef G1) as (Gs & Lf & Rf). assert (B1 : bytes_ok f /\ bytes_ok (rest s1)) by (rewrite Rf in B; now apply bytes_ok_app in B).
  destruct B1 as [Bf B1]. destruct (rdn_bwd _ _ _ _ B1 Er G2) as (_ & L & F & R). destruct (list_len4 _ L) as (hlen & ns & rlen & zero & ->). cbn [nth] in E.
  destruct (read_lines (Z.to_nat ns) s2) as [[ls s3]| | | |] eqn:El; try discriminate. cbn [bind] in E. apply Ok_inj, pair_inj in E as [<- <-].
  assert (B2 : bytes_ok (rest s2)) by (rewrite R in B1; apply bytes_ok_app in B1; tauto).
  destruct (read_lines_bwd _ _ _ _ B2 El G2) as (G3 & Ll & w & W & Rw). split; [exact Gs|]. split; [exact G3|].
  assert (Wn : word ns) by (inversion F as [|? ? ? F']; inversion F'; assumption).
  assert (Nn : ns = Z.of_nat (List.length ls)) by (unfold word in Wn; lia). rewrite Nn in *.
  exists (f ++ words [hlen; Z.of_nat (List.length ls); rlen; zero] ++ w). split; [now constructor|]. rewrite Rf, R, Rw, <- !app_assoc. reflexivity.
Qed.
Lemma record_bytes_pos x w : record_bytes x w -> (0 < List.length w)%nat.
Proof. destruct 1 as [f ? ? ? ? ? Lf]. rewrite app_length. lia. Qed.

(** ** Files *)
Lemma seq_length rs w : seq_bytes record_bytes rs w -> (List.length rs <= List.length w)%nat.
Proof. induction 1 as [|x xs b bs H _ IH]; cbn; [lia|]. rewrite app_length. apply record_bytes_pos in H. lia. Qed.
Lemma read_records_fwd rs w : seq_bytes record_bytes rs w -> forall fuel r, (List.length rs <= fuel)%nat ->
  read_records fuel (Z.of_nat (List.length rs)) (mk_stream (w ++ r) true) = Ok (rs, mk_stream r true).
Proof.
  induction 1 as [|x xs b bs H _ IH]; intros fuel r F; cbn [List.length] in *; [destruct fuel; reflexivity|]. destruct fuel as [|fuel]; [lia|]. cbn [read_records].
  destruct (Z.leb_spec (Z.of_nat (S (List.length xs))) 0); [lia|]. rewrite <- app_assoc, (read_record_fwd _ _ _ H). cbn [bind good].
  replace (Z.of_nat (S (List.length xs)) - 1) with (Z.of_nat (List.length xs)) by lia. rewrite IH by lia. reflexivity.
Qed.
Lemma read_records_total fuel : forall n s, bytes_ok (rest s) -> (List.length (rest s) < fuel)%nat -> (exists p, read_records fuel n s = Ok p) \/ read_records fuel n s = Throw.
Proof.
  induction fuel as [|fuel IH]; intros n s B F; [lia|]. cbn [read_records]. destruct (n <=? 0); [eauto|].
  destruct (read_record s) as [[x s1]| | | |] eqn:E; cbn [bind]; try (destruct (read_record_total s) as [[? X]|X]; congruence); [|auto].
  destruct (read_record_bwd _ _ _ B E) as (_ & G1 & w & W & R). rewrite G1. apply record_bytes_pos in W.
  assert (L : (List.length (rest s) = List.length w + List.length (rest s1))%nat) by (rewrite R, app_length; reflexivity).
  assert (B1 : bytes_ok (rest s1)) by (rewrite R in B; apply bytes_ok_app in B; tauto).
  destruct (IH (n - 1) s1 B1 ltac:(lia)) as [[p ->]| ->]; cbn [bind]; eauto.
Qed.
Lemma read_records_bwd fuel : forall n s rs s', bytes_ok (rest s) -> read_records fuel n s = Ok (rs, s') -> good s = true ->
  good s' = true /\ Z.of_nat (List.length rs) = Z.max 0 n /\ exists w, seq_bytes record_bytes rs w /\ rest s = w ++ rest s'.
Proof.
  induction fuel as [|fuel IH]; intros n s rs s' B E Gs; cbn [read_records] in E; destruct (Z.leb_spec n 0) as [N|N]; try discriminate.
  1,2: apply Ok_inj, pair_inj in E as [<- <-]; split; [exact Gs|]; split; [cbn; lia|]; exists []; split; [constructor|reflexivity].
  destruct (read_record s) as [[x s1]| | | |] eqn:El; try discriminate. cbn [bind] in E. destruct (good s1) eqn:G1; [|discriminate].
  destruct (read_records fuel (n - 1) s1) as [[q t]| | | |] eqn:Er; try discriminate. cbn [bind fst snd] in E. apply Ok_inj, pair_inj in E as [<- <-].
  destruct (read_record_bwd _ _ _ B El) as (_ & _ & w & W & R).
  assert (B1 : bytes_ok (rest s1)) by (rewrite R in B; apply bytes_ok_app in B; tauto).
  destruct (IH _ _ _ _ B1 Er G1) as (G & L & w2 & W2 & R2). split; [exact G|]. split; [cbn [List.length]; lia|]. exists (w ++ w2).
  split; [now constructor|]. now rewrite R, R2, <- app_assoc.
Qed.
Lemma read_ids_fwd x w r : ids_bytes x w -> read_ids (mk_stream (w ++ r) true) = Ok (x, mk_stream r true).
Proof.
  intros H. destruct H as [f nrec y d h m py pd ph pm nch vis wv ir sat sid rlen nv nw ni avg smp irc wvc fine irs wvs rs fill b Lf Bf Ls Bs Bfill W1 W2 N R S].
  rewrite <- !app_assoc. unfold read_ids.
  pose proof (sread_fwd f FORTRAN (words [nrec; y; d; h; m; py; pd; ph; pm; nch; vis; wv; ir] ++ sat ++ words [sid; rlen; nv; nw; ni; avg; smp; irc; wvc; fine; irs; wvs] ++ fill ++ b ++ r)) as F1.
  pose proof (sread_fwd sat SATELLITE (words [sid; rlen; nv; nw; ni; avg; smp; irc; wvc; fine; irs; wvs] ++ fill ++ b ++ r)) as F2.
  rewrite Lf in F1. rewrite Ls in F2.
  rewrite (file_header_rdn _ _ _ _ _ _ _ _ _ F1 (rdn_fwd _ W1 _) F2 (rdn_fwd _ W2 _)). cbn [nth].
  replace (rlen + 2 - 60) with (Z.of_nat (List.length fill)) by lia. rewrite Nat2Z.id. destruct (Z.ltb_spec (Z.of_nat (List.length fill)) 0); [lia|].
  rewrite skip_fwd. cbn [good rest]. assert (A : announced (mk_file_header f nrec y d h m py pd ph pm nch vis wv ir sat sid rlen nv nw ni avg smp irc wvc fine irs wvs) = Z.of_nat (List.length rs)).
  { unfold announced. cbn [fh_no_records]. assert (word nrec) by (inversion W1; assumption). unfold word in *. rewrite Z.mod_small; lia. }
  rewrite A, (read_records_fwd _ _ S); [reflexivity|]. pose proof (seq_length _ _ S). rewrite app_length. lia.
Qed.
Lemma rdn_sticky n : forall x l y, rdn n x = (l, y) -> good y = true -> good x = true.
Proof.
  intros x l y H G. destruct (good x) eqn:Gx; [reflexivity|]. exfalso. revert x l y H G Gx.
  induction n as [|n IH]; intros x l y H G Gx; cbn [rdn] in H; [apply pair_inj in H as [_ <-]; congruence|].
  unfold read2 in H. rewrite (get_bad x Gx), (get_bad x Gx) in H. destruct (rdn n x) as [vs u] eqn:Eu. apply pair_inj in H as [_ <-]. eapply IH; eauto.
Qed.
Lemma read_ids_total s : bytes_ok (rest s) -> (exists p, read_ids s = Ok p) \/ read_ids s = Throw.
Proof.
  intros B. unfold read_ids. destruct (sread 2 FORTRAN s) as [f s1] eqn:F1. destruct (rdn 13 s1) as [l s2] eqn:E1. destruct (sread 8 SATELLITE s2) as [sat s3] eqn:F2. destruct (rdn 12 s3) as [m s4] eqn:E2.
  rewrite (file_header_rdn _ _ _ _ _ _ _ _ _ F1 E1 F2 E2). set (s5 := skip _ _). set (h := mk_file_header _ _ _ _ _ _ _ _ _ _ _ _ _ _ _ _ _ _ _ _ _ _ _ _ _ _ _). destruct (good s5) eqn:G; [|auto].
  destruct (skip_bwd _ _ G) as (G4 & fill & Lf & Rf). fold s5 in Rf. destruct (nth 1 m 0 + 2 - 60 <? 0); [discriminate|].
  pose proof (rdn_sticky _ _ _ _ E2 G4) as G3. destruct (sread_bwd _ _ _ _ _ F2 G3) as (G2 & _ & R2).
  pose proof (rdn_sticky _ _ _ _ E1 G2) as G1. destruct (sread_bwd _ _ _ _ _ F1 G1) as (_ & _ & R1). rewrite R1 in B. apply bytes_ok_app in B as [_ B].
  destruct (rdn_bwd _ _ _ _ B E1 G2) as (_ & _ & _ & R1'). rewrite R1' in B. apply bytes_ok_app in B as [_ B]. rewrite R2 in B. apply bytes_ok_app in B as [_ B].
  destruct (rdn_bwd _ _ _ _ B E2 G4) as (_ & _ & _ & R2'). rewrite R2' in B. apply bytes_ok_app in B as [_ B]. rewrite Rf in B. apply bytes_ok_app in B as [_ B].
  destruct (read_records_total (S (List.length (rest s5))) (announced h) s5 B ltac:(lia)) as [[[rs t] ->]| ->]; cbn [bind]; eauto.
Qed.
Lemma read_ids_bwd s x s' : bytes_ok (rest s) -> Z.of_nat (List.length (rest s)) < 2 ^ 32 - 1 -> read_ids s = Ok (x, s') ->
  good s' = true /\ exists w, ids_bytes x w /\ rest s = w ++ rest s'.
Proof.
  intros B Small E. unfold read_ids in E. destruct (sread 2 FORTRAN s) as [f s1] eqn:F1. destruct (rdn 13 s1) as [l s2] eqn:E1. destruct (sread 8 SATELLITE s2) as [sat s3] eqn:F2. destruct (rdn 12 s3) as [m s4] eqn:E2.
  rewrite (file_header_rdn _ _ _ _ _ _ _ _ _ F1 E1 F2 E2) in E. set (s5 := skip _ _) in *. destruct (good s5) eqn:G; [|discriminate].
  destruct (skip_bwd _ _ G) as (G4 & fill & Lf & Rf). fold s5 in Rf. destruct (Z.ltb_spec (nth 1 m 0 + 2 - 60) 0); [discriminate|].
  pose proof (rdn_sticky _ _ _ _ E2 G4) as G3. destruct (sread_bwd _ _ _ _ _ F2 G3) as (G2 & Lsat & R2).
  pose proof (rdn_sticky _ _ _ _ E1 G2) as G1. destruct (sread_bwd _ _ _ _ _ F1 G1) as (_ & Lfort & R1). rewrite R1 in B. apply bytes_ok_app in B as [Bf B].
  destruct (rdn_bwd _ _ _ _ B E1 G2) as (_ & L1 & W1 & R1'). rewrite R1' in B. apply bytes_ok_app in B as [_ B]. rewrite R2 in B. apply bytes_ok_app in B as [Bs B].
  destruct (rdn_bwd _ _ _ _ B E2 G4) as (_ & L2 & W2 & R2'). rewrite R2' in B. apply bytes_ok_app in B as [_ B]. rewrite Rf in B. apply bytes_ok_app in B as [Bfill B].
  destruct (list_len13 _ L1) as (nrec & y & d & h & mi & py & pd & ph & pm & nch & vis & wv & ir & ->).
  destruct (list_len12 _ L2) as (sid & rlen & nv & nw & ni & avg & smp & irc & wvc & fine & irs & wvs & ->). cbn [nth] in *.
  set (hd := mk_file_header _ _ _ _ _ _ _ _ _ _ _ _ _ _ _ _ _ _ _ _ _ _ _ _ _ _ _) in *.
  destruct (read_records (S (List.length (rest s5))) (announced hd) s5) as [[rs s6]| | | |] eqn:Er; try discriminate. cbn [bind] in E. apply Ok_inj, pair_inj in E as [<- <-].
  destruct (read_records_bwd _ _ _ _ _ B Er G) as (G6 & Ln & w & W & Rw). split; [exact G6|].
  assert (Wn : word nrec) by (inversion W1; assumption).
  assert (Rl : rlen = 58 + Z.of_nat (List.length fill)) by lia.
  assert (LL : (List.length rs <= List.length (rest s))%nat).
  { pose proof (seq_length _ _ W). rewrite R1, R1', R2, R2', Rf, Rw, !app_length. lia. }
  assert (Nr : nrec = Z.of_nat (List.length rs) + 1).
  { unfold announced in Ln. cbn [hd fh_no_records] in Ln. unfold word in Wn. destruct (Z.eq_dec nrec 0) as [->|]; [exfalso; change ((0 - 1) mod 2 ^ 32) with 4294967295 in Ln; lia|].
    rewrite Z.mod_small in Ln; lia. }
  eexists. split; [unfold hd; apply ids_bytes_intro with (fill := fill) (b := w); assumption|]. rewrite R1, R1', R2, R2', Rf, Rw, <- !app_assoc. reflexivity.
Qed.

(** ** Writing *)
Lemma write2_word v : word v -> write2 v = be 2 v.
Proof.
  intros H. rewrite word_be by exact H. unfold write2, big_write2. change (entered 2 2) with 2%nat. cbn [big_put]. change (2 ^ 16) with 65536. rewrite Z.mod_small by exact H.
  change 255 with (Z.ones 8). rewrite !Z.land_ones, !Z.shiftr_div_pow2 by lia. cbn [Z.of_nat]. change (2 ^ (8 * Z.of_nat 1)) with 256. change (2 ^ (8 * 0)) with 1. unfold word in H.
  change (2 ^ 8) with 256. rewrite Z.div_1_r, (Z.mod_small (v / 256)) by lia. reflexivity.
Qed.
Lemma zeros_ok n : bytes_ok (repeat 0 n).
Proof. apply Forall_forall. intros z I. apply repeat_spec in I. subst. unfold is_byte. lia. Qed.
Ltac allwords := repeat match goal with H : Forall word (_ :: _) |- _ => inversion H; subst; clear H end.
Lemma write_line_bytes l w : line_bytes l w -> line_bytes l (write_scan_line l) /\ List.length (write_scan_line l) = List.length w.
Proof.
  intros H. destruct H as [len line start chan qual p0 p1 px fill W Bp Bf E].
  assert (X : write_scan_line (mk_scan_line (mk_line_header len line start (Z.of_nat (List.length px)) chan qual p0 p1) px)
    = words [len; line; start; Z.of_nat (List.length px); chan; qual; p0; p1] ++ px ++ repeat 0 (List.length fill)).
  { unfold write_scan_line, write_line_header. cbn [sl_header sl_pixels lh_length lh_line lh_start lh_no_pixels lh_channel_id lh_quality lh_pad0 lh_pad1].
    replace (len - Z.of_nat (List.length px) - 16) with (Z.of_nat (List.length fill)) by lia. rewrite Nat2Z.id.
    allwords. rewrite !write2_word by assumption. unfold words. cbn [flat_map]. rewrite <- !app_assoc. reflexivity. }
  rewrite X. split; [constructor; auto; [apply zeros_ok|rewrite repeat_length; exact E]|]. rewrite !app_length, repeat_length. reflexivity.
Qed.
Lemma write_lines_bytes ls w : seq_bytes line_bytes ls w -> seq_bytes line_bytes ls (List.concat (map write_scan_line ls)) /\
  List.length (List.concat (map write_scan_line ls)) = List.length w.
Proof.
  induction 1 as [|l ls b bs H _ [IH1 IH2]]; cbn [map List.concat]; [split; [constructor|reflexivity]|].
  destruct (write_line_bytes _ _ H) as [W L]. split; [now constructor|]. rewrite !app_length. congruence.
Qed.
Lemma write_record_bytes x w : record_bytes x w -> record_bytes x (write_record x) /\ List.length (write_record x) = List.length w.
Proof.
  intros H. destruct H as [f hlen rlen zero ls b Lf Bf W S]. destruct (write_lines_bytes _ _ S) as [S' L].
  assert (X : write_record (mk_record (mk_record_header f hlen (Z.of_nat (List.length ls)) rlen zero) ls)
    = f ++ words [hlen; Z.of_nat (List.length ls); rlen; zero] ++ List.concat (map write_scan_line ls)).
  { unfold write_record, write_record_header. cbn [rc_header rc_lines rh_fortran rh_record_header_length rh_no_scanlines rh_record_length rh_zero].
    pose proof W as W'. allwords. rewrite !write2_word by assumption. unfold words. cbn [flat_map]. rewrite <- !app_assoc. reflexivity. }
  rewrite X. split; [now constructor|]. rewrite !app_length. congruence.
Qed.
Lemma write_records_bytes rs w : seq_bytes record_bytes rs w -> seq_bytes record_bytes rs (List.concat (map write_record rs)) /\
  List.length (List.concat (map write_record rs)) = List.length w.
Proof.
  induction 1 as [|l ls b bs H _ [IH1 IH2]]; cbn [map List.concat]; [split; [constructor|reflexivity]|].
  destruct (write_record_bytes _ _ H) as [W L]. split; [now constructor|]. rewrite !app_length. congruence.
Qed.
Lemma write_ids_bytes x w : ids_bytes x w -> exists w', write_ids x = Ok w' /\ ids_bytes x w' /\ List.length w' = List.length w.
Proof.
  intros H. destruct H as [f nrec y d h m py pd ph pm nch vis wv ir sat sid rlen nv nw ni avg smp irc wvc fine irs wvs rs fill b Lf Bf Ls Bs Bfill W1 W2 N R S].
  destruct (write_records_bytes _ _ S) as [S' L]. set (x := mk_ids _ rs).
  assert (A : announced (id_header x) = Z.of_nat (List.length rs)).
  { unfold announced. cbn [x id_header fh_no_records]. assert (word nrec) by (inversion W1; assumption). unfold word in *. rewrite Z.mod_small; lia. }
  exists (f ++ words [nrec; y; d; h; m; py; pd; ph; pm; nch; vis; wv; ir] ++ sat ++ words [sid; rlen; nv; nw; ni; avg; smp; irc; wvc; fine; irs; wvs]
          ++ repeat 0 (List.length fill) ++ List.concat (map write_record rs)).
  split.
  - unfold write_ids. rewrite A. cbn [x id_records]. rewrite Z.leb_refl, Nat2Z.id, firstn_all. f_equal. unfold write_file_header, x.
    cbn [id_header fh_fortran fh_no_records fh_year fh_julian_day fh_hour fh_minute fh_process_year fh_process_julian_day fh_process_hour fh_process_minute fh_no_channels fh_vis_id fh_wv_id fh_ir_id fh_satellite fh_satellite_id fh_record_length fh_no_vis_average fh_no_wv_average fh_no_ir_average fh_averaging_type fh_sample_interval fh_ir_calibration fh_wv_calibration fh_fine_adjustment fh_ir_space_count fh_wv_space_count].
    replace (rlen + 2 - 60) with (Z.of_nat (List.length fill)) by lia. rewrite Nat2Z.id. clear -W1 W2.
    assert (G : forall v, In v [nrec; y; d; h; m; py; pd; ph; pm; nch; vis; wv; ir] -> write2 v = be 2 v) by (intros v I; apply write2_word; rewrite Forall_forall in W1; auto).
    assert (G2 : forall v, In v [sid; rlen; nv; nw; ni; avg; smp; irc; wvc; fine; irs; wvs] -> write2 v = be 2 v) by (intros v I; apply write2_word; rewrite Forall_forall in W2; auto).
    rewrite !G by (cbn; auto 20). rewrite !G2 by (cbn; auto 20). unfold words. cbn [flat_map]. rewrite <- !app_assoc. reflexivity.
  - split; [apply ids_bytes_intro; auto; [apply zeros_ok|rewrite repeat_length; exact R]|]. rewrite !app_length, repeat_length. congruence.
Qed.
