(** Lemmas about the OpenMTP reader. *)
From Verif Require Import BaseFacts MachineModel MachineProofs HriModel HriProofs OmtpModel OmtpSpec.
#[local] Open Scope string_scope.
#[local] Open Scope list_scope.
#[local] Open Scope Z_scope.

(** ** Numbers *)
Lemma mint_val n hs h off : mint n hs h off = let! bs := bytes_at h off n in Ok (to_signed (8 * Z.of_nat (List.length bs)) (be_val bs)).
Proof. unfold mint. destruct (bytes_at h off n); cbn [bind]; try reflexivity. f_equal. rewrite <- (get_i_val hs). unfold get_i. now destruct (check_endianess hs). Qed.
Lemma mbits_val n hs h off : mbits n hs h off = let! bs := bytes_at h off n in Ok (be_val bs).
Proof. unfold mbits. destruct (bytes_at h off n); cbn [bind]; try reflexivity. f_equal. rewrite <- (get_ui_val hs). unfold get_ui. now destruct (check_endianess hs). Qed.
Lemma int4_word hs h off : (off + 4 <= List.length h)%nat -> int4 hs h off = Ok (word h off).
Proof.
  intros L. unfold int4. rewrite mint_val, bytes_at_ok by assumption. cbn [bind]. f_equal. unfold word.
  replace (List.length (firstn 4 (skipn off h))) with 4%nat by (rewrite firstn_length, skipn_length; lia). reflexivity.
Qed.
Lemma word_app a b off : (off + 4 <= List.length a)%nat -> word (a ++ b) off = word a off.
Proof.
  intros L. unfold word. do 2 f_equal. rewrite skipn_app, firstn_app. rewrite skipn_length.
  replace (4 - (List.length a - off))%nat with 0%nat by lia. now rewrite firstn_O, app_nil_r.
Qed.
Lemma word_firstn a n off : (off + 4 <= n)%nat -> (n <= List.length a)%nat -> word (firstn n a) off = word a off.
Proof. intros H L. rewrite <- (firstn_skipn n a) at 2. rewrite word_app; [reflexivity|]. rewrite firstn_length. lia. Qed.

(** ** Streams *)
Lemma sread_app n a r : n = List.length a -> sread (mk_stream (a ++ r) false) n = (a, mk_stream r false).
Proof. intros ->. now apply sread_full. Qed.
Lemma sread_short n bs : (List.length bs < n)%nat -> sread (mk_stream bs false) n = (bs, mk_stream [] true).
Proof. intros L. unfold sread. cbn [failed left]. replace (n <=? List.length bs)%nat with false by (symmetry; apply Nat.leb_gt; lia). reflexivity. Qed.
Lemma sread_long n bs : (n <= List.length bs)%nat -> sread (mk_stream bs false) n = (firstn n bs, mk_stream (skipn n bs) false).
Proof. intros L. unfold sread. cbn [failed left]. replace (n <=? List.length bs)%nat with true by (symmetry; apply Nat.leb_le; lia). reflexivity. Qed.
Lemma cut {A} n (a r : list A) : (n < List.length a)%nat /\ firstn n (a ++ r) = firstn n a \/ exists m, n = (List.length a + m)%nat /\ firstn n (a ++ r) = a ++ firstn m r.
Proof.
  destruct (Nat.ltb_spec n (List.length a)).
  - left. split; [assumption|]. rewrite firstn_app. replace (n - List.length a)%nat with 0%nat by lia. now rewrite firstn_O, app_nil_r.
  - right. exists (n - List.length a)%nat. split; [lia|]. rewrite firstn_app. rewrite (firstn_all2 a) by lia. reflexivity.
Qed.
Lemma copy_into a old bs c n : n = List.length a -> List.length old = List.length bs -> copy_to (a ++ old ++ c) n bs = Ok (a ++ bs ++ c).
Proof.
  intros -> L. unfold copy_to. rewrite !app_length. destruct (Nat.leb_spec (List.length a + List.length bs) (List.length a + (List.length old + List.length c))); [|lia].
  do 2 f_equal. now apply firstn_app_exact. f_equal. rewrite app_assoc. apply skipn_app_exact. rewrite app_length. lia.
Qed.

Lemma copy_into0 old bs c : List.length old = List.length bs -> copy_to (old ++ c) 0 bs = Ok (bs ++ c).
Proof. intros L. exact (copy_into [] old bs c 0 eq_refl L). Qed.

(** ** Headers *)
Definition pad_len (sec3 : list Z) : nat := hdr_len - (sec1_len + sec2_len) - List.length sec3.
Definition header_of (f : file) : list Z :=
  f_sec1 f ++ (if f_rectified f then repeat 0 sec2_len else f_sec2 f) ++ f_sec3 f ++ repeat 0 (pad_len (f_sec3 f)).
Lemma headers_len f : headers_ok f -> List.length (f_ascii f) = ascii_len /\ List.length (f_sec1 f) = sec1_len /\ List.length (f_sec2 f) = sec2_len /\
  List.length (f_sec3 f) = if f_chan f =? 3 then sec3_viscmp else sec3_normal.
Proof. unfold headers_ok, ascii_len, sec1_len, sec2_len, sec3_viscmp, sec3_normal. intros (A & B & C & D). repeat split; try lia. destruct (f_chan f =? 3); lia. Qed.
Lemma sec_int4 hs b x off : List.length b = sec1_len -> (off + 4 <= 200)%nat -> int4 hs (b ++ x) off = Ok (word b off).
Proof. intros L H. rewrite int4_word by (rewrite app_length, L; unfold sec1_len; lia). now rewrite word_app by (rewrite L; unfold sec1_len; lia). Qed.
Lemma read_header_ok hs f r : headers_ok f -> read_header hs (mk_stream (f_sec1 f ++ f_sec2 f ++ f_sec3 f ++ r) false) = Ok (header_of f, mk_stream r false).
Proof.
  intros H. destruct (headers_len f H) as (_ & L1 & L2 & L3). unfold read_header. rewrite sread_app by now rewrite L1. cbn [failed].
  replace hdr_len with (sec1_len + (sec2_len + (List.length (f_sec3 f) + pad_len (f_sec3 f))))%nat
    by (unfold pad_len; rewrite L3; unfold hdr_len, sec1_len, sec2_len, sec3_viscmp, sec3_normal; destruct (f_chan f =? 3); lia).
  rewrite !repeat_app. rewrite copy_into0 by (rewrite repeat_length; auto). cbn [bind].
  unfold is_rectified. rewrite sec_int4 by (assumption || lia). cbn [bind]. unfold is_visible_composite, chan_is, header_of. fold (f_rectified f).
  destruct (f_rectified f).
  - unfold sskip. cbn [failed left]. rewrite skipn_app_exact by now rewrite L2. cbn [failed bind]. rewrite sec_int4 by (assumption || lia). cbn [bind]. fold (f_chan f).
    rewrite <- L3. rewrite sread_app by reflexivity. cbn [failed]. rewrite app_assoc. rewrite copy_into.
    + cbn [bind]. now rewrite <- app_assoc.
    + rewrite app_length, L1, repeat_length. reflexivity.
    + apply repeat_length.
  - rewrite sread_app by now rewrite L2. cbn [failed bind]. rewrite copy_into by (rewrite ?repeat_length; auto). cbn [bind]. rewrite sec_int4 by (assumption || lia). cbn [bind]. fold (f_chan f).
    rewrite <- L3. rewrite sread_app by reflexivity. cbn [failed]. rewrite app_assoc. rewrite copy_into.
    + cbn [bind]. now rewrite <- app_assoc.
    + rewrite app_length, L1, L2. reflexivity.
    + apply repeat_length.
Qed.
Lemma read_header_cut hs f n : headers_ok f -> (n < List.length (f_sec1 f ++ f_sec2 f ++ f_sec3 f))%nat ->
  read_header hs (mk_stream (firstn n (f_sec1 f ++ f_sec2 f ++ f_sec3 f)) false) = Terminate.
Proof.
  intros H L. destruct (headers_len f H) as (_ & L1 & L2 & L3). unfold read_header.
  destruct (cut n (f_sec1 f) (f_sec2 f ++ f_sec3 f)) as [(C & ->)|(m & -> & ->)].
  { rewrite sread_short by (rewrite firstn_length, <- L1; lia). reflexivity. }
  rewrite app_length in L. rewrite sread_app by now rewrite L1. cbn [failed].
  replace hdr_len with (sec1_len + (sec2_len + (List.length (f_sec3 f) + pad_len (f_sec3 f))))%nat
    by (unfold pad_len; rewrite L3; unfold hdr_len, sec1_len, sec2_len, sec3_viscmp, sec3_normal; destruct (f_chan f =? 3); lia).
  rewrite !repeat_app. rewrite copy_into0 by (rewrite repeat_length; auto). cbn [bind].
  unfold is_rectified. rewrite sec_int4 by (assumption || lia). cbn [bind]. unfold is_visible_composite, chan_is.
  assert (P3 : (0 < List.length (f_sec3 f))%nat) by (rewrite L3; unfold sec3_viscmp, sec3_normal; destruct (f_chan f =? 3); lia).
  rewrite app_length in L. destruct (3 <? word (f_sec1 f) 36).
  - unfold sskip. cbn [failed left bind]. rewrite sec_int4 by (assumption || lia). cbn [bind]. fold (f_chan f). rewrite <- L3. rewrite sread_short. { reflexivity. }
    rewrite skipn_length, firstn_length, app_length, <- L2. lia.
  - destruct (cut m (f_sec2 f) (f_sec3 f)) as [(C & ->)|(k & -> & ->)].
    { rewrite sread_short by (rewrite firstn_length, <- L2; lia). reflexivity. }
    rewrite sread_app by now rewrite L2. cbn [failed bind]. rewrite copy_into by (rewrite ?repeat_length; auto). cbn [bind]. rewrite sec_int4 by (assumption || lia). cbn [bind]. fold (f_chan f).
    rewrite <- L3. rewrite sread_short. { reflexivity. } rewrite firstn_length. lia.
Qed.
(** Whatever the bytes, the header keeps the first section. *)
Lemma read_header_inv hs f : read_header hs (mk_stream f false) = Terminate \/
  exists h s, read_header hs (mk_stream f false) = Ok (h, s) /\ (sec1_len <= List.length f)%nat /\ (forall off, (off + 4 <= 200)%nat -> int4 hs h off = Ok (word f off)) /\ List.length h = hdr_len.
Proof.
  unfold read_header. destruct (Nat.ltb_spec (List.length f) sec1_len). { left. now rewrite sread_short by assumption. }
  rewrite sread_long by assumption. cbn [failed].
  assert (L1 : List.length (firstn sec1_len f) = sec1_len) by (rewrite firstn_length; lia).
  assert (W : forall off, (off + 4 <= 200)%nat -> word (firstn sec1_len f) off = word f off).
  { intros off O. apply word_firstn; [unfold sec1_len; lia|lia]. }
  set (b := firstn sec1_len f) in *. set (r := skipn sec1_len f).
  replace hdr_len with (sec1_len + (sec2_len + (sec3_viscmp + 0)))%nat by (unfold hdr_len, sec1_len, sec2_len, sec3_viscmp; lia).
  rewrite !repeat_app. rewrite copy_into0 by (rewrite repeat_length; auto). cbn [bind].
  unfold is_rectified. rewrite sec_int4 by (assumption || lia). cbn [bind]. unfold is_visible_composite, chan_is.
  assert (G : forall y s', List.length y = sec2_len -> failed s' = false ->
    let z := (let! comp := (let! v := int4 hs (b ++ y ++ repeat 0 sec3_viscmp ++ repeat 0 0) 40 in Ok (v =? 3)) in
              let '(b3, s) := sread s' (if comp then sec3_viscmp else sec3_normal) in
              if failed s then Terminate else let! h := copy_to (b ++ y ++ repeat 0 sec3_viscmp ++ repeat 0 0) (sec1_len + sec2_len) b3 in Ok (h, s)) in
    z = Terminate \/ exists h s, z = Ok (h, s) /\ (sec1_len <= List.length f)%nat /\ (forall off, (off + 4 <= 200)%nat -> int4 hs h off = Ok (word f off)) /\ List.length h = (sec1_len + (sec2_len + (sec3_viscmp + 0)))%nat).
  { intros y s' Ly F. cbn zeta. rewrite sec_int4 by (assumption || lia). cbn [bind]. set (n3 := if word b 40 =? 3 then sec3_viscmp else sec3_normal).
    assert (N3 : (n3 <= sec3_viscmp)%nat) by (unfold n3, sec3_viscmp, sec3_normal; destruct (word b 40 =? 3); lia).
    destruct s' as [l fl]. cbn [failed] in F. subst fl. destruct (Nat.ltb_spec (List.length l) n3). { left. now rewrite sread_short by assumption. }
    rewrite sread_long by assumption. cbn [failed]. right.
    replace (repeat 0 sec3_viscmp) with (repeat 0 n3 ++ repeat 0 (sec3_viscmp - n3)) by (rewrite <- repeat_app; f_equal; lia).
    rewrite <- (app_assoc (repeat 0 n3)), app_assoc. rewrite copy_into.
    2:{ rewrite app_length. lia. } 2:{ rewrite repeat_length, firstn_length. lia. }
    cbn [bind]. eexists. eexists. split; [reflexivity|]. split; [lia|]. split.
    - intros off O. rewrite <- app_assoc. rewrite sec_int4 by assumption. now rewrite W.
    - rewrite !app_length, !repeat_length, firstn_length. lia. }
  destruct (3 <? word b 36).
  - unfold sskip. cbn [failed left bind]. apply (G (repeat 0 sec2_len)); [apply repeat_length|reflexivity].
  - destruct (Nat.ltb_spec (List.length r) sec2_len). { left. now rewrite sread_short by assumption. }
    rewrite sread_long by assumption. cbn [failed]. rewrite copy_into by (rewrite ?repeat_length, ?firstn_length; lia). cbn [bind].
    apply (G (firstn sec2_len r)); [rewrite firstn_length; lia|reflexivity].
Qed.

(** ** Lines *)
Lemma read_line_ok np l r : 0 <= np <= 5000 -> Z.of_nat (List.length l) = np + 32 -> read_line (mk_stream (l ++ r) false) np = Ok (l, mk_stream r false).
Proof.
  intros N L. unfold read_line. replace (int_ok (np + 32)) with true by (unfold int_ok, int_max; lia). unfold sreadz. replace (np + 32 <? 0) with false by lia.
  rewrite sread_app by lia. cbn [failed]. replace (List.length l <=? Z.to_nat 5032)%nat with true; [reflexivity|]. symmetry. apply Nat.leb_le. lia.
Qed.
Lemma read_line_short np l : 0 <= np <= 5000 -> Z.of_nat (List.length l) < np + 32 -> read_line (mk_stream l false) np = Terminate.
Proof.
  intros N L. unfold read_line. replace (int_ok (np + 32)) with true by (unfold int_ok, int_max; lia). unfold sreadz. replace (np + 32 <? 0) with false by lia.
  rewrite sread_short by lia. cbn [failed]. replace (List.length l <=? Z.to_nat 5032)%nat with true; [reflexivity|]. symmetry. apply Nat.leb_le. lia.
Qed.
Lemma read_lines_step n i np l r pre old : 0 <= np <= 5000 -> Z.of_nat (List.length l) = np + 32 -> List.length pre = (i * Z.to_nat np)%nat -> (Z.to_nat np <= List.length old)%nat ->
  read_lines (S n) i np (mk_stream (l ++ r) false) (pre ++ old) = read_lines n (S i) np (mk_stream r false) ((pre ++ skipn 32 l) ++ skipn (Z.to_nat np) old).
Proof.
  intros N L P O. cbn [read_lines]. rewrite read_line_ok by assumption. cbn [bind]. replace (np <? 0) with false by lia. rewrite bytes_at_ok by lia. cbn [bind].
  rewrite firstn_all2 by (rewrite skipn_length; lia). rewrite <- (firstn_skipn (Z.to_nat np) old) at 1. rewrite copy_into.
  - cbn [bind]. now rewrite <- app_assoc.
  - now symmetry.
  - rewrite firstn_length, skipn_length. lia.
Qed.
Lemma read_lines_ok np : 0 <= np <= 5000 -> forall lines i pre old r, Forall (fun l => Z.of_nat (List.length l) = np + 32) lines -> List.length pre = (i * Z.to_nat np)%nat ->
  (List.length lines * Z.to_nat np <= List.length old)%nat ->
  read_lines (List.length lines) i np (mk_stream (List.concat lines ++ r) false) (pre ++ old) =
    Ok (pre ++ List.concat (map (skipn 32) lines) ++ skipn (List.length lines * Z.to_nat np) old, mk_stream r false).
Proof.
  intros N. induction lines as [|l lines IH]; intros i pre old r F P O.
  - reflexivity.
  - inversion F as [|? ? L F']; subst. cbn [List.length List.concat map]. cbn [List.length Nat.mul] in O. set (w := (List.length lines * Z.to_nat np)%nat) in *. rewrite <- app_assoc, read_lines_step by (assumption || lia).
    rewrite IH.
    + rewrite skipn_skipn, <- !app_assoc. do 5 f_equal. f_equal. lia.
    + assumption.
    + rewrite app_length, skipn_length, P. lia.
    + rewrite skipn_length. lia.
Qed.
Lemma read_lines_cut np : 0 <= np <= 5000 -> forall lines i pre old m, Forall (fun l => Z.of_nat (List.length l) = np + 32) lines -> List.length pre = (i * Z.to_nat np)%nat ->
  (List.length lines * Z.to_nat np <= List.length old)%nat -> (m < List.length (List.concat lines))%nat ->
  read_lines (List.length lines) i np (mk_stream (firstn m (List.concat lines)) false) (pre ++ old) = Terminate.
Proof.
  intros N. induction lines as [|l lines IH]; intros i pre old m F P O M.
  - cbn in M. lia.
  - inversion F as [|? ? L F']; subst. cbn [List.length List.concat]. cbn [List.length Nat.mul] in O. set (w := (List.length lines * Z.to_nat np)%nat) in *. cbn [List.concat] in M. rewrite app_length in M.
    destruct (cut m l (List.concat lines)) as [(C & ->)|(k & -> & ->)].
    + cbn [read_lines]. rewrite read_line_short; [reflexivity|assumption|]. rewrite firstn_length. lia.
    + rewrite read_lines_step by (assumption || lia). apply IH; [assumption| | |lia].
      * rewrite app_length, skipn_length, P. lia.
      * rewrite skipn_length. lia.
Qed.
Lemma read_lines_small np : 0 <= np <= 5000 -> forall lines i pre old r, Forall (fun l => Z.of_nat (List.length l) = np + 32) lines -> List.length pre = (i * Z.to_nat np)%nat ->
  (List.length old < List.length lines * Z.to_nat np)%nat ->
  read_lines (List.length lines) i np (mk_stream (List.concat lines ++ r) false) (pre ++ old) = UB.
Proof.
  intros N. induction lines as [|l lines IH]; intros i pre old r F P O.
  - cbn in O. lia.
  - inversion F as [|? ? L F']; subst. cbn [List.length List.concat]. cbn [List.length Nat.mul] in O. set (w := (List.length lines * Z.to_nat np)%nat) in *. rewrite <- app_assoc.
    destruct (Nat.leb_spec (Z.to_nat np) (List.length old)).
    + rewrite read_lines_step by (assumption || lia). apply IH; [assumption| |].
      * rewrite app_length, skipn_length, P. lia.
      * rewrite skipn_length. lia.
    + cbn [read_lines]. rewrite read_line_ok by assumption. cbn [bind]. replace (np <? 0) with false by lia. rewrite bytes_at_ok by lia. cbn [bind].
      unfold copy_to. rewrite firstn_length, skipn_length, app_length, <- P. destruct (Nat.leb_spec (List.length pre + Nat.min (Z.to_nat np) (List.length l - 32)) (List.length pre + List.length old)); [lia|reflexivity].
Qed.
Lemma read_line_defined s np : -32 <= np <= 5000 -> exists x, read_line s np = x /\ (x = Terminate \/ exists l s', x = Ok (l, s') /\ Z.of_nat (List.length l) = np + 32).
Proof.
  intros N. eexists. split; [reflexivity|]. unfold read_line. replace (int_ok (np + 32)) with true by (unfold int_ok, int_max; lia). unfold sreadz. replace (np + 32 <? 0) with false by lia.
  unfold sread. destruct s as [l fl]. cbn [failed left]. destruct fl. { left. cbn [List.length]. replace (0 <=? Z.to_nat 5032)%nat with true by reflexivity. reflexivity. }
  destruct (Nat.leb_spec (Z.to_nat (np + 32)) (List.length l)).
  - cbn [failed]. destruct (Nat.leb_spec (List.length (firstn (Z.to_nat (np + 32)) l)) (Z.to_nat 5032)) as [|B].
    + right. eexists. eexists. split; [reflexivity|]. rewrite firstn_length. lia.
    + rewrite firstn_length in B. lia.
  - cbn [failed]. left. destruct (Nat.leb_spec (List.length l) (Z.to_nat 5032)); [reflexivity|lia].
Qed.
Lemma read_lines_defined np : 0 <= np <= 5000 -> forall n i s image, ((i + n) * Z.to_nat np <= List.length image)%nat -> defined (read_lines n i np s image) = true.
Proof.
  intros N. induction n as [|n IH]; intros i s image L; [reflexivity|]. cbn [read_lines].
  destruct (read_line_defined s np) as (x & -> & [->|(l & s' & -> & Ll)]); [lia|reflexivity|]. cbn [bind]. replace (np <? 0) with false by lia. rewrite bytes_at_ok by lia. cbn [bind].
  unfold copy_to. destruct (Nat.leb_spec (i * Z.to_nat np + List.length (firstn (Z.to_nat np) (skipn 32 l))) (List.length image)) as [H|H].
  - cbn [bind]. apply IH. rewrite !app_length, !firstn_length, !skipn_length in *. lia.
  - exfalso. rewrite firstn_length, skipn_length in H. lia.
Qed.

(** ** The layout *)
Definition okind_dec (a b : okind) : {a = b} + {a <> b}.
Proof. decide equality. Defined.
Fixpoint offset_in (l : list (string * okind * Z)) (name : string) : Z :=
  match l with
  | [] => 0
  | f :: l' => if String.eqb (fst (fst f)) name then 0 else field_size (snd (fst f)) (snd f) + offset_in l' name
  end.
Lemma locate name k n (bs : list Z) : forall l bss, Forall2 (fun f bs => Z.of_nat (List.length bs) = field_size (snd (fst f)) (snd f)) l bss -> NoDup (map (fun f => fst (fst f)) l) ->
  In ((name, k, n), bs) (combine l bss) -> exists pre post, List.concat bss = pre ++ bs ++ post /\ Z.of_nat (List.length pre) = offset_in l name /\ Z.of_nat (List.length bs) = field_size k n.
Proof.
  intros l bss F. induction F as [|f b l bss S F IH]; intros N I; [contradiction|]. cbn [map] in N. inversion N as [|? ? NI N']; subst. cbn [combine] in I. destruct I as [E|I].
  - apply pair_inj in E as [-> ->]. exists [], (List.concat bss). cbn [List.concat app offset_in fst snd]. rewrite String.eqb_refl. repeat split. exact S.
  - destruct (IH N' I) as (pre & post & E & L & W). exists (b ++ pre), post. cbn [List.concat offset_in]. split; [now rewrite E, <- app_assoc|]. split; [|exact W].
    destruct (String.eqb_spec (fst (fst f)) name) as [Q|Q].
    + exfalso. apply NI. rewrite Q. apply in_combine_l in I. apply (in_map (fun f => fst (fst f))) in I. exact I.
    + rewrite app_length. lia.
Qed.
Fixpoint nodup_b (l : list string) : bool := match l with [] => true | x :: l' => negb (existsb (String.eqb x) l') && nodup_b l' end.
Lemma nodup_b_ok l : nodup_b l = true -> NoDup l.
Proof.
  induction l as [|x l IH]; intros H; constructor; cbn [nodup_b] in H; apply andb_prop in H as [H1 H2].
  - intros I. apply negb_true_iff in H1. assert (existsb (String.eqb x) l = true); [|congruence]. apply existsb_exists. exists x. split; [assumption|apply String.eqb_refl].
  - now apply IH.
Qed.
Lemma layout_nodup : NoDup (map (fun f => fst (fst f)) layout).
Proof. apply nodup_b_ok. vm_compute. reflexivity. Qed.
Definition regular (name : string) : bool := negb (String.prefix "spare" name) && negb (existsb (String.eqb name) odd_accessors).
Definition field_ok (f : string * okind * Z) : bool :=
  let '(name, k, n) := f in
  if regular name then
    match find_accessor name with
    | Some (k', off, n', size) => (if okind_dec k k' then true else false) && (off =? offset_in layout name) && (n' =? n) && (size =? n) && (0 <=? n)
    | None => false
    end
  else true.
Lemma layout_fields : forallb field_ok layout = true.
Proof. vm_compute. reflexivity. Qed.
Lemma get_elem_val hs h k off : (off + owidth k <= List.length h)%nat -> get_elem hs h k off = Ok (elem k (firstn (owidth k) (skipn off h))).
Proof.
  intros L. assert (R : forall n, n = owidth k -> List.length (firstn n (skipn off h)) = n) by (intros n ->; rewrite firstn_length, skipn_length; lia).
  assert (R1 : owidth k = 1%nat -> rd1 h off = Ok (be_val (firstn 1 (skipn off h)))).
  { intros W. rewrite W in L. unfold rd1. rewrite <- (firstn_skipn off h) at 1. rewrite nth_error_app2 by (rewrite firstn_length; lia). rewrite firstn_length. replace (off - Nat.min off (List.length h))%nat with 0%nat by lia.
    specialize (R 1%nat). rewrite W in R. destruct (skipn off h) as [|b r]; [specialize (R eq_refl); discriminate|]. cbn [nth_error firstn be_val List.length]. do 2 f_equal. change (256 ^ Z.of_nat 0) with 1. lia. }
  destruct k; cbn [get_elem elem owidth] in *; unfold int2, int4, r4_from_char5, r4_from_char3, int4_from_char3, int4_from_char2, chars; rewrite ?mint_val, ?mbits_val; cbn [List.length];
    rewrite ?bytes_at_ok by assumption; cbn [bind]; rewrite ?R1 by reflexivity; cbn [bind]; rewrite ?R by reflexivity; try reflexivity.
  - do 2 f_equal. now destruct (be_val _ =? 0).
  - specialize (R 5%nat eq_refl). destruct (firstn 5 (skipn off h)) as [|a [|b [|c [|d [|e [|]]]]]]; try discriminate. f_equal. unfold place. cbn [sum_digits digit]. unfold digit.
    destruct (a =? 32), (b =? 32), (c =? 32), (d =? 32), (e =? 32); cbn [negb]; lia.
  - specialize (R 3%nat eq_refl). destruct (firstn 3 (skipn off h)) as [|a [|b [|c [|]]]]; try discriminate. f_equal. unfold place. cbn [sum_digits digit]. unfold digit.
    destruct (a =? 32), (b =? 32), (c =? 32); cbn [negb]; lia.
  - specialize (R 3%nat eq_refl). destruct (firstn 3 (skipn off h)) as [|a [|b [|c [|]]]]; try discriminate. f_equal. unfold place. cbn [sum_digits digit]. unfold digit.
    destruct (a =? 32), (b =? 32), (c =? 32); cbn [negb]; lia.
  - specialize (R 2%nat eq_refl). destruct (firstn 2 (skipn off h)) as [|a [|b [|]]]; try discriminate. f_equal. unfold place. cbn [sum_digits digit]. unfold digit.
    destruct (a =? 32), (b =? 32); cbn [negb]; lia.
Qed.
Lemma width_size k : Z.to_nat (field_size k 1) = owidth k.
Proof. now destruct k. Qed.
Lemma size_width k n : field_size k n = n * Z.of_nat (owidth k).
Proof. destruct k; reflexivity. Qed.
Lemma get_elems_val hs k pre bs post n : (n * owidth k <= List.length bs)%nat -> forall m j, (j + m = n)%nat ->
  get_elems hs (pre ++ bs ++ post) k (List.length pre + owidth k * j) m = Ok (map (elem_at k bs) (seq j m)).
Proof.
  intros L. induction m as [|m IH]; intros j E; [reflexivity|]. cbn [get_elems seq map]. assert (B : (owidth k * j + owidth k <= List.length bs)%nat) by nia.
  rewrite get_elem_val by (rewrite !app_length; nia). cbn [bind]. replace (List.length pre + owidth k * j + owidth k)%nat with (List.length pre + owidth k * S j)%nat by lia.
  rewrite IH by lia. cbn [bind]. do 2 f_equal. unfold elem_at. rewrite width_size. f_equal.
  rewrite skipn_app. rewrite skipn_all2 by lia. cbn [app]. replace (List.length pre + owidth k * j - List.length pre)%nat with (owidth k * j)%nat by lia.
  rewrite skipn_app, firstn_app, skipn_length. replace (owidth k - (List.length bs - owidth k * j))%nat with 0%nat by lia. now rewrite firstn_O, app_nil_r.
Qed.

(** ** Text *)
Lemma fmt04_digits v : 0 <= v <= 9999 -> fmt04 v = four_digits v.
Proof.
  intros V. unfold fmt04, four_digits, digit_char. replace (v <? 0) with false by lia. cbn [digits_of map].
  destruct (Z.ltb_spec v 10). { cbn [List.length Nat.sub repeat app]. repeat (apply (f_equal2 cons); [lia|]). reflexivity. }
  destruct (Z.ltb_spec (v / 10) 10). { cbn [List.length app Nat.sub repeat]. repeat (apply (f_equal2 cons); [lia|]). reflexivity. }
  destruct (Z.ltb_spec (v / 10 / 10) 10). { cbn [List.length app Nat.sub repeat]. repeat (apply (f_equal2 cons); [lia|]). reflexivity. }
  destruct (Z.ltb_spec (v / 10 / 10 / 10) 10); [|lia]. cbn [List.length app Nat.sub repeat]. repeat (apply (f_equal2 cons); [lia|]). reflexivity.
Qed.
Fixpoint weights (n : nat) : list Z := match n with O => [] | S m => 10 ^ Z.of_nat m :: weights m end.
Lemma weights_length n : List.length (weights n) = n.
Proof. induction n; cbn [weights List.length]; congruence. Qed.
Lemma aligned_length c n : forall v, List.length (aligned c n v) = n.
Proof. induction n as [|n IH]; intros v; [reflexivity|]. cbn [aligned]. destruct (v <? 10); rewrite app_length; cbn [List.length]; rewrite ?repeat_length, ?IH; lia. Qed.
Lemma sum_app ws : forall vs xs ys, List.length ws = List.length xs -> sum_digits (ws ++ vs) (xs ++ ys) = sum_digits ws xs + sum_digits vs ys.
Proof. induction ws as [|w ws IH]; intros vs [|x xs] ys L; try discriminate; [reflexivity|]. cbn [app sum_digits]. rewrite IH by (cbn [List.length] in L; lia). lia. Qed.
Lemma weights_snoc n : weights (S n) = map (Z.mul 10) (weights n) ++ [1].
Proof.
  induction n as [|n IH]; [reflexivity|]. change (weights (S (S n))) with (10 ^ Z.of_nat (S n) :: weights (S n)). rewrite IH at 1. cbn [weights map app]. f_equal. rewrite Nat2Z.inj_succ, Z.pow_succ_r by lia. lia.
Qed.
Lemma sum_scale ws : forall xs, sum_digits (map (Z.mul 10) ws) xs = 10 * sum_digits ws xs.
Proof. induction ws as [|w ws IH]; intros [|x xs]; cbn [map sum_digits]; try lia. rewrite IH. unfold digit. destruct (negb _); lia. Qed.
Lemma sum_fill c : c = 32 \/ c = 48 -> forall n ws, sum_digits ws (repeat c n) = 0.
Proof. intros C. induction n as [|n IH]; intros [|w ws]; try reflexivity. cbn [repeat sum_digits]. rewrite IH. destruct C as [-> | ->]; unfold digit; cbn; lia. Qed.
Lemma sum_aligned c : c = 32 \/ c = 48 -> forall n v, 0 <= v < 10 ^ Z.of_nat n -> sum_digits (weights n) (aligned c n v) = v.
Proof.
  intros C. induction n as [|n IH]; intros v V; [cbn in *; lia|]. rewrite weights_snoc. cbn [aligned]. rewrite Nat2Z.inj_succ, Z.pow_succ_r in V by lia. unfold digit_char.
  destruct (Z.ltb_spec v 10).
  - rewrite sum_app by (rewrite map_length, weights_length, repeat_length; reflexivity). rewrite sum_fill by assumption. cbn [sum_digits]. unfold digit. replace (48 + v =? 32) with false by lia. cbn [negb]. lia.
  - rewrite sum_app by (rewrite map_length, weights_length, aligned_length; reflexivity). rewrite sum_scale, IH by lia. cbn [sum_digits]. unfold digit. replace (48 + v mod 10 =? 32) with false by lia. cbn [negb]. lia.
Qed.
Lemma four_digits_inj a b : 0 <= a <= 9999 -> 0 <= b <= 9999 -> four_digits a = four_digits b -> a = b.
Proof.
  intros A B E. unfold four_digits, digit_char in E. cbn [map] in E.
  assert (G : forall v, 0 <= v -> v = 1000 * (v / 1000) + 100 * (v / 100 mod 10) + 10 * (v / 10 mod 10) + v mod 10) by (intros v V; lia).
  rewrite (G a), (G b) by lia. clear G. remember (a / 1000) as a1. remember (a / 100 mod 10) as a2. remember (a / 10 mod 10) as a3. remember (a mod 10) as a4.
  remember (b / 1000) as b1. remember (b / 100 mod 10) as b2. remember (b / 10 mod 10) as b3. remember (b mod 10) as b4.
  assert (E1 : 48 + a1 = 48 + b1) by congruence. assert (E2 : 48 + a2 = 48 + b2) by congruence. assert (E3 : 48 + a3 = 48 + b3) by congruence. assert (E4 : 48 + a4 = 48 + b4) by congruence. clear - E1 E2 E3 E4. lia.
Qed.
