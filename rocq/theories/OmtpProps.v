(** Properties C53 and C85-C90: OpenMTP files. *)
From Verif Require Import BaseFacts MachineModel MachineProofs HriModel HriProofs OmtpModel OmtpSpec OmtpProofs.
#[local] Open Scope string_scope.
#[local] Open Scope list_scope.
#[local] Open Scope Z_scope.

(** ** C53. The kinds of image. *)
Definition full_A (chan nl np : Z) : Prop := (4 <= chan <= 7 /\ nl = 2500 /\ np = 2500) \/ (chan = 3 /\ nl = 5000 /\ np = 5000).
Definition sub_B (chan nl np fl : Z) : Prop := (4 <= chan <= 7 /\ nl = 625 /\ np = 1250 /\ fl = 1810) \/ (chan = 3 /\ nl = 1250 /\ np = 2500 /\ fl = 3620).
Lemma formats hs h : (139 <= List.length h)%nat -> exists a b, is_A_format hs h = Ok a /\ is_B_format hs h = Ok b /\
  (a = true <-> full_A (word h 40) (word h 131) (word h 135)) /\ (b = true <-> sub_B (word h 40) (word h 131) (word h 135) (word h 123)).
Proof.
  intros L. unfold is_A_format, is_B_format, is_ir_data, is_wv_data, is_visible_composite, chan_is, nlines, npixels, first_line. rewrite !int4_word by lia. cbn [bind].
  eexists. eexists. split; [reflexivity|]. split; [reflexivity|]. unfold full_A, sub_B.
  assert (G : forall c d : bool, (if c then true else if d then true else false) = c || d) by (intros [|] [|]; reflexivity). rewrite !G. split; lia.
Qed.
Theorem C53_formats_partial hs h : (139 <= List.length h)%nat -> exists a b, is_A_format hs h = Ok a /\ is_B_format hs h = Ok b /\
  (a = true <-> full_A (word h 40) (word h 131) (word h 135)) /\ (b = true <-> sub_B (word h 40) (word h 131) (word h 135) (word h 123)) /\ (a && b = false) /\
  (a || b = false -> is_subwindow hs h = Ok true).
Proof.
  intros L. destruct (formats hs h L) as (a & b & A & B & EA & EB). exists a, b. repeat split; try assumption; try tauto.
  - destruct a, b; try reflexivity. exfalso. destruct EA as [EA _], EB as [EB _]. specialize (EA eq_refl). specialize (EB eq_refl). unfold full_A, sub_B in *. lia.
  - intros N. unfold is_subwindow. rewrite A. cbn [bind]. destruct a; [discriminate|]. reflexivity.
Qed.
Print Assumptions C53_formats_partial.
(** Full disc images, like all the others, are said to be subwindows. *)
Theorem C53_refuted_always hs h : (139 <= List.length h)%nat -> is_subwindow hs h = Ok true.
Proof.
  intros L. destruct (C53_formats_partial hs h L) as (a & b & A & B & _ & _ & X & _). unfold is_subwindow. rewrite A. cbn [bind]. destruct a; [|reflexivity]. cbn [negb]. rewrite B. cbn [bind]. destruct b; [discriminate|reflexivity].
Qed.
Print Assumptions C53_refuted_always.
Definition sample_sec1 (proc chan nl np : Z) : list Z :=
  repeat 0 8 ++ be 4 2004 ++ repeat 0 12 ++ be 4 40229 ++ be 4 1830 ++ codes "M7" ++ [0; 0] ++ be 4 proc ++ be 4 chan ++ codes "0769 050100 7" ++ repeat 0 66 ++ be 4 1 ++ repeat 0 4 ++ be 4 nl ++ be 4 np ++ repeat 0 (Z.to_nat 5036).
Example C53_case : (139 <= List.length (sample_sec1 0 4 2500 2500))%nat /\ full_A (word (sample_sec1 0 4 2500 2500) 40) (word (sample_sec1 0 4 2500 2500) 131) (word (sample_sec1 0 4 2500 2500) 135) /\
  is_A_format LE (sample_sec1 0 4 2500 2500) = Ok true /\ is_subwindow LE (sample_sec1 0 4 2500 2500) = Ok true.
Proof. split; [|split; [left|split]]; vm_compute; repeat split; try congruence; try reflexivity; repeat constructor. Qed.

(** ** C85. A complete file gives its lines back. *)
Definition sections_kept (f : file) (h : list Z) : Prop :=
  Z.of_nat (List.length h) = 192999 /\ firstn (Z.to_nat 5175) h = f_sec1 f /\
  firstn (Z.to_nat 2636) (skipn (Z.to_nat 5175) h) = (if f_rectified f then repeat 0 (Z.to_nat 2636) else f_sec2 f) /\
  firstn (List.length (f_sec3 f)) (skipn (Z.to_nat 7811) h) = f_sec3 f /\ (forall i, (Z.to_nat 7811 + List.length (f_sec3 f) <= i)%nat -> nth i h 0 = 0).
Lemma header_sections f : headers_ok f -> sections_kept f (header_of f).
Proof.
  intros H. destruct (headers_len f H) as (_ & L1 & L2 & L3). unfold sections_kept, header_of.
  set (y := if f_rectified f then repeat 0 sec2_len else f_sec2 f). assert (Ly : List.length y = sec2_len) by (unfold y; destruct (f_rectified f); [apply repeat_length|assumption]).
  assert (LT : (List.length (f_sec3 f) <= sec3_viscmp)%nat) by (rewrite L3; unfold sec3_viscmp, sec3_normal; destruct (f_chan f =? 3); lia).
  assert (E7 : Z.to_nat 7811 = (sec1_len + sec2_len)%nat) by (unfold sec1_len, sec2_len; lia).
  split; [|split; [|split; [|split]]].
  - rewrite !app_length, repeat_length, L1, Ly. unfold pad_len, hdr_len, sec1_len, sec2_len, sec3_viscmp in *. lia.
  - apply firstn_app_exact. symmetry. exact L1.
  - rewrite skipn_app_exact by (symmetry; exact L1). apply firstn_app_exact. symmetry. exact Ly.
  - rewrite E7, app_assoc. rewrite skipn_app_exact by (rewrite app_length; lia). apply firstn_app_exact. reflexivity.
  - intros i I. rewrite E7 in I. rewrite !app_assoc. rewrite app_nth2 by (rewrite !app_length; lia). apply nth_repeat.
Qed.
Lemma read_ascii_ok a r : List.length a = ascii_len -> read_ascii (mk_stream (a ++ r) false) = Ok (a, mk_stream r false).
Proof. intros L. unfold read_ascii. rewrite sread_app by (symmetry; exact L). reflexivity. Qed.
Lemma header_ints hs f : headers_ok f -> nlines hs (header_of f) = Ok (f_nlines f) /\ npixels hs (header_of f) = Ok (f_npixels f).
Proof. intros H. destruct (headers_len f H) as (_ & L1 & _). unfold nlines, npixels, header_of. now rewrite !sec_int4 by (assumption || lia). Qed.
Lemma concat_pixels np (lines : list (list Z)) : 0 <= np -> Forall (fun l => Z.of_nat (List.length l) = np + 32) lines ->
  Z.of_nat (List.length (List.concat (map (skipn 32) lines))) = Z.of_nat (List.length lines) * np /\
  forall j i, (j < List.length lines)%nat -> (i < Z.to_nat np)%nat -> nth (j * Z.to_nat np + i) (List.concat (map (skipn 32) lines)) 0 = nth (32 + i) (nth j lines []) 0.
Proof.
  intros N F. induction F as [|l lines L F [IH1 IH2]]; [split; [reflexivity|cbn; lia]|]. cbn [map List.concat]. split.
  - rewrite app_length, skipn_length. cbn [List.length]. lia.
  - intros j i J I. destruct j as [|j].
    + cbn [Nat.mul Nat.add nth]. rewrite app_nth1 by (rewrite skipn_length; lia). apply nth_skipn.
    + cbn [nth List.length] in *. cbn [Nat.mul]. set (q := (j * Z.to_nat np)%nat) in *. rewrite app_nth2 by (rewrite skipn_length; lia). rewrite <- (IH2 j i) by lia. fold q. f_equal. rewrite skipn_length. lia.
Qed.
Theorem C85_image hs fill o f r : file_ok f -> o_image o = None -> exists h im, read hs fill o (file_bytes f ++ r) = Ok (mk_omtp (f_ascii f) h (Some im), mk_stream r false) /\
  sections_kept f h /\ Z.of_nat (List.length im) = f_nlines f * f_npixels f /\
  forall j i, (j < Z.to_nat (f_nlines f))%nat -> (i < Z.to_nat (f_npixels f))%nat -> nth (j * Z.to_nat (f_npixels f) + i) im 0 = nth (32 + i) (nth j (f_lines f) []) 0.
Proof.
  intros (H & NL & NP & P & LL & FL) O. destruct (headers_len f H) as (LA & _). destruct (header_ints hs f H) as [E1 E2].
  exists (header_of f), (List.concat (map (skipn 32) (f_lines f))). destruct (concat_pixels (f_npixels f) (f_lines f)) as [C1 C2]; [lia|assumption|].
  split; [|split; [now apply header_sections|split; [lia|intros j i J I; apply C2; lia]]].
  unfold read, file_bytes. rewrite <- !app_assoc. rewrite read_ascii_ok by assumption. cbn [bind]. rewrite read_header_ok by assumption. cbn [bind]. unfold read_image. rewrite E1, E2, O. cbn [bind].
  replace (int_ok (f_nlines f * f_npixels f)) with true by (unfold int_ok, int_max; nia). replace (f_nlines f * f_npixels f <? 0) with false by nia. cbn [bind].
  replace (Z.to_nat (f_nlines f)) with (List.length (f_lines f)) by lia.
  pose proof (read_lines_ok (f_npixels f) NP (f_lines f) 0 [] (repeat fill (Z.to_nat (f_nlines f * f_npixels f))) r FL eq_refl) as R. cbn [app] in R. rewrite repeat_length in R. rewrite R by nia.
  cbn [bind]. rewrite skipn_all2 by (rewrite repeat_length; nia). now rewrite app_nil_r.
Qed.
Print Assumptions C85_image.
(** Reading into an object again works when the former image was at least as
    large; what follows the pixels is what was there. *)
Theorem C85_again_partial hs fill o f r im0 : file_ok f -> o_image o = Some im0 -> f_nlines f * f_npixels f <= Z.of_nat (List.length im0) ->
  exists h im, read hs fill o (file_bytes f ++ r) = Ok (mk_omtp (f_ascii f) h (Some im), mk_stream r false) /\ sections_kept f h /\ List.length im = List.length im0 /\
  forall j i, (j < Z.to_nat (f_nlines f))%nat -> (i < Z.to_nat (f_npixels f))%nat -> nth (j * Z.to_nat (f_npixels f) + i) im 0 = nth (32 + i) (nth j (f_lines f) []) 0.
Proof.
  intros (H & NL & NP & P & LL & FL) O B. destruct (headers_len f H) as (LA & _). destruct (header_ints hs f H) as [E1 E2].
  destruct (concat_pixels (f_npixels f) (f_lines f)) as [C1 C2]; [lia|assumption|].
  exists (header_of f), (List.concat (map (skipn 32) (f_lines f)) ++ skipn (List.length (f_lines f) * Z.to_nat (f_npixels f)) im0).
  split; [|split; [now apply header_sections|split]].
  - unfold read, file_bytes. rewrite <- !app_assoc. rewrite read_ascii_ok by assumption. cbn [bind]. rewrite read_header_ok by assumption. cbn [bind]. unfold read_image. rewrite E1, E2, O. cbn [bind].
    replace (Z.to_nat (f_nlines f)) with (List.length (f_lines f)) by lia.
    pose proof (read_lines_ok (f_npixels f) NP (f_lines f) 0 [] im0 r FL eq_refl) as R. cbn [app] in R. rewrite R by nia. reflexivity.
  - rewrite app_length, skipn_length. nia.
  - intros j i J I. rewrite app_nth1 by nia. apply C2; lia.
Qed.
Print Assumptions C85_again_partial.
Definition sample_file (proc chan : Z) : file :=
  mk_file (repeat 65 (Z.to_nat 1345)) (sample_sec1 proc chan 2 3) (repeat 5 (Z.to_nat 2636)) (repeat 6 (Z.to_nat (if chan =? 3 then 185188 else 136704)))
    [repeat 0 32 ++ [1; 2; 3]; repeat 0 32 ++ [4; 5; 6]].
Lemma sample_ok proc chan : proc = 0 \/ proc = 4 -> chan = 3 \/ chan = 4 -> file_ok (sample_file proc chan).
Proof. intros [-> | ->] [-> | ->]; unfold file_ok, headers_ok; repeat split; try (vm_compute; congruence); repeat constructor. Qed.
Example C85_case : file_ok (sample_file 0 4) /\ file_ok (sample_file 4 3) /\
  match read LE 99 (fresh [] []) (file_bytes (sample_file 4 3) ++ [8]) with Ok (o, s) => o_image o = Some [1; 2; 3; 4; 5; 6] /\ left s = [8] | _ => False end.
Proof. split; [|split]; [apply sample_ok; auto|apply sample_ok; auto|]. vm_compute. split; reflexivity. Qed.

(** ** C86. An incomplete file ends the program: no partial image is delivered. *)
Theorem C86_truncated hs fill o f n : file_ok f -> o_image o = None -> (n < List.length (file_bytes f))%nat -> read hs fill o (firstn n (file_bytes f)) = Terminate.
Proof.
  intros (H & NL & NP & P & LL & FL) O N. destruct (headers_len f H) as (LA & _). destruct (header_ints hs f H) as [E1 E2]. unfold file_bytes in *. unfold read.
  destruct (cut n (f_ascii f) (f_sec1 f ++ f_sec2 f ++ f_sec3 f ++ List.concat (f_lines f))) as [(C & ->)|(m & -> & ->)].
  { unfold read_ascii. rewrite sread_short by (rewrite firstn_length, <- LA; lia). reflexivity. }
  rewrite read_ascii_ok by assumption. cbn [bind]. rewrite app_length in N.
  replace (f_sec1 f ++ f_sec2 f ++ f_sec3 f ++ List.concat (f_lines f)) with ((f_sec1 f ++ f_sec2 f ++ f_sec3 f) ++ List.concat (f_lines f)) in * by now rewrite <- !app_assoc.
  destruct (cut m (f_sec1 f ++ f_sec2 f ++ f_sec3 f) (List.concat (f_lines f))) as [(C & ->)|(k & -> & ->)].
  { rewrite read_header_cut by assumption. reflexivity. }
  rewrite <- !app_assoc. rewrite read_header_ok by assumption. cbn [bind]. unfold read_image. rewrite E1, E2, O. cbn [bind].
  replace (int_ok (f_nlines f * f_npixels f)) with true by (unfold int_ok, int_max; nia). replace (f_nlines f * f_npixels f <? 0) with false by nia. cbn [bind].
  replace (Z.to_nat (f_nlines f)) with (List.length (f_lines f)) by lia. rewrite !app_length in N.
  pose proof (read_lines_cut (f_npixels f) NP (f_lines f) 0 [] (repeat fill (Z.to_nat (f_nlines f * f_npixels f))) k FL eq_refl) as R. cbn [app] in R. rewrite R; [reflexivity|rewrite repeat_length; nia|lia].
Qed.
Print Assumptions C86_truncated.
Example C86_case : file_ok (sample_file 0 4) /\ read LE 99 (fresh [] []) (firstn (Z.to_nat 145920) (file_bytes (sample_file 0 4))) = Terminate /\ (Z.to_nat 145920 < List.length (file_bytes (sample_file 0 4)))%nat.
Proof. split; [apply sample_ok; auto|]. split; [vm_compute; reflexivity|]. apply Nat.ltb_lt. vm_compute. reflexivity. Qed.

(** ** C87. Memory. *)
Theorem C87_new_object_partial hs fill o bytes : o_image o = None ->
  let h := skipn (Z.to_nat 1345) bytes in
  word h 135 <= 5000 -> - 2 ^ 31 <= word h 131 * word h 135 < 2 ^ 31 ->
  defined (read hs fill o bytes) = true.
Proof.
  intros O h W P. unfold read, read_ascii. destruct (Nat.ltb_spec (List.length bytes) ascii_len) as [S|S]. { now rewrite sread_short by assumption. }
  rewrite sread_long by assumption. cbn [failed bind]. change (skipn ascii_len bytes) with h. clearbody h.
  destruct (read_header_inv hs h) as [->|(hd & s & -> & L & I & _)]; [reflexivity|]. cbn [bind]. unfold read_image, nlines, npixels. rewrite !I by lia. rewrite O. cbn [bind].
  replace (int_ok (word h 131 * word h 135)) with true by (unfold int_ok, int_max; lia). destruct (Z.ltb_spec (word h 131 * word h 135) 0) as [|Q]; [reflexivity|]. cbn [bind].
  destruct (Z.leb_spec (word h 131) 0) as [Z0|Z0]. { replace (Z.to_nat (word h 131)) with 0%nat by lia. reflexivity. }
  assert (0 <= word h 135) by nia.
  assert (D : defined (read_lines (Z.to_nat (word h 131)) 0 (word h 135) s (repeat fill (Z.to_nat (word h 131 * word h 135)))) = true).
  { apply read_lines_defined; [lia|]. rewrite repeat_length. cbn [Nat.add]. nia. }
  destruct (read_lines _ _ _ _ _) as [[im s']| | | |]; try discriminate; reflexivity.
Qed.
Print Assumptions C87_new_object_partial.
(** Lines of more than 5000 pixels overflow the line buffer. *)
Theorem C87_refuted_wide hs fill o f t : headers_ok f -> o_image o = None -> 0 < f_nlines f -> 5000 < f_npixels f -> f_nlines f * f_npixels f < 2 ^ 31 ->
  f_npixels f + 32 <= Z.of_nat (List.length t) -> read hs fill o (f_ascii f ++ f_sec1 f ++ f_sec2 f ++ f_sec3 f ++ t) = UB.
Proof.
  intros H O NL NP P T. destruct (headers_len f H) as (LA & _). destruct (header_ints hs f H) as [E1 E2]. unfold read. rewrite read_ascii_ok by assumption. cbn [bind]. rewrite read_header_ok by assumption. cbn [bind].
  unfold read_image. rewrite E1, E2, O. cbn [bind]. replace (int_ok (f_nlines f * f_npixels f)) with true by (unfold int_ok, int_max; nia). replace (f_nlines f * f_npixels f <? 0) with false by nia. cbn [bind].
  destruct (Z.to_nat (f_nlines f)) eqn:E; [lia|]. cbn [read_lines]. unfold read_line. destruct (int_ok (f_npixels f + 32)); [|reflexivity]. unfold sreadz. replace (f_npixels f + 32 <? 0) with false by lia.
  rewrite sread_long by lia. destruct (Nat.leb_spec (List.length (firstn (Z.to_nat (f_npixels f + 32)) t)) (Z.to_nat 5032)) as [B|B]; [|reflexivity]. rewrite firstn_length in B. lia.
Qed.
Print Assumptions C87_refuted_wide.
(** Reading a larger image into an object that already holds one overflows the
    image buffer. *)
Theorem C87_refuted_again hs fill o f r im0 : file_ok f -> o_image o = Some im0 -> Z.of_nat (List.length im0) < f_nlines f * f_npixels f -> read hs fill o (file_bytes f ++ r) = UB.
Proof.
  intros (H & NL & NP & P & LL & FL) O B. destruct (headers_len f H) as (LA & _). destruct (header_ints hs f H) as [E1 E2].
  unfold read, file_bytes. rewrite <- !app_assoc. rewrite read_ascii_ok by assumption. cbn [bind]. rewrite read_header_ok by assumption. cbn [bind]. unfold read_image. rewrite E1, E2, O. cbn [bind].
  replace (Z.to_nat (f_nlines f)) with (List.length (f_lines f)) by lia.
  pose proof (read_lines_small (f_npixels f) NP (f_lines f) 0 [] im0 r FL eq_refl) as R. cbn [app] in R. rewrite R by nia. reflexivity.
Qed.
Print Assumptions C87_refuted_again.
Example C87_case : file_ok (sample_file 0 4) /\ read LE 99 (mk_omtp [] [] (Some [1; 2])) (file_bytes (sample_file 0 4)) = UB /\
  word (skipn (Z.to_nat 1345) (file_bytes (sample_file 0 4))) 135 = 3.
Proof. split; [apply sample_ok; auto|]. split; vm_compute; reflexivity. Qed.

(** ** C88. The accessors return their own fields. *)
Theorem C88_accessors_partial hs bss name k n bs : packed bss -> In ((name, k, n), bs) (combine layout bss) -> String.prefix "spare" name = false -> ~ In name odd_accessors ->
  accessor name hs (List.concat bss) = Ok (map (elem_at k bs) (seq 0 (Z.to_nat n))).
Proof.
  intros P I NS NO. destruct (locate name k n bs layout bss P layout_nodup I) as (pre & post & E & L & W).
  pose proof layout_fields as F. rewrite forallb_forall in F. specialize (F (name, k, n) (in_combine_l _ _ _ _ I)). cbn [field_ok] in F. unfold regular in F. rewrite NS in F. cbn [negb andb] in F.
  assert (X : existsb (String.eqb name) odd_accessors = false).
  { destruct (existsb (String.eqb name) odd_accessors) eqn:X; [|reflexivity]. exfalso. apply NO. apply existsb_exists in X as (y & Y & Q). apply String.eqb_eq in Q. now subst y. }
  rewrite X in F. cbn [negb] in F. unfold accessor. destruct (find_accessor name) as [[[[k' off] n'] size]|]; [|discriminate].
  destruct (okind_dec k k') as [<-|]; [|discriminate]. cbn [andb] in F. assert (off = offset_in layout name /\ n' = n /\ size = n /\ 0 <= n) as (-> & -> & -> & N0) by lia.
  rewrite E. rewrite size_width in W. pose proof (get_elems_val hs k pre bs post (Z.to_nat n)) as G. specialize (G ltac:(nia) (Z.to_nat n) 0%nat eq_refl). rewrite Nat.mul_0_r, Nat.add_0_r in G.
  replace (Z.to_nat (offset_in layout name)) with (List.length pre) by lia. rewrite G. cbn [bind]. rewrite Z.sub_diag. cbn [Z.to_nat repeat]. now rewrite app_nil_r.
Qed.
Print Assumptions C88_accessors_partial.
Lemma packed_field name k n bss : packed bss -> In (name, k, n) layout -> exists bs, In ((name, k, n), bs) (combine layout bss).
Proof.
  unfold packed. intros P. induction P as [|f b l bss _ P IH]; intros I; [contradiction|]. destruct I as [->|I]; [exists b; now left|]. destruct (IH I) as [bs B]. exists bs. now right.
Qed.
Theorem C88_header_size bss : packed bss -> Z.of_nat (List.length (List.concat bss)) = 192999.
Proof.
  intros P. assert (G : forall l bss, Forall2 (fun (f : string * okind * Z) (bs : list Z) => Z.of_nat (List.length bs) = field_size (snd (fst f)) (snd f)) l bss ->
    Z.of_nat (List.length (List.concat bss)) = fold_right (fun f acc => field_size (snd (fst f)) (snd f) + acc) 0 l).
  { clear. intros l bss F. induction F as [|f b l bss E F IH]; [reflexivity|]. cbn [List.concat fold_right]. rewrite app_length. lia. }
  rewrite (G _ _ P). vm_compute. reflexivity.
Qed.
Print Assumptions C88_header_size.
(** The five others. Of the histograms only the first twenty of 256 classes are
    given. *)
Theorem C88_refuted_histogram hs bss name bs : packed bss -> In ((name, OI4, 256), bs) (combine layout bss) ->
  accessor name hs (List.concat bss) = Ok (map (elem_at OI4 bs) (seq 0 20) ++ repeat 0 236).
Proof.
  intros P I. destruct (locate name OI4 256 bs layout bss P layout_nodup I) as (pre & post & E & L & W).
  assert (N : name = "urect_raw_image_histogram" \/ name = "urect_raw_image_histogram_VISn").
  { apply in_combine_l in I. assert (In (name, OI4, 256) (filter (fun f => snd f =? 256) layout)) as J by (apply filter_In; split; [exact I|reflexivity]).
    vm_compute in J. destruct J as [J|[J|[]]]; injection J as J; auto. }
  assert (A : find_accessor name = Some (OI4, offset_in layout name, 20, 256)) by (destruct N as [-> | ->]; vm_compute; reflexivity).
  unfold accessor. rewrite A. rewrite E. rewrite size_width in W. pose proof (get_elems_val hs OI4 pre bs post 20) as G. cbn [owidth] in G, W. specialize (G ltac:(lia) 20%nat 0%nat eq_refl). rewrite Nat.mul_0_r, Nat.add_0_r in G.
  replace (Z.to_nat (offset_in layout name)) with (List.length pre) by lia. change (Z.to_nat 20) with 20%nat. rewrite G. reflexivity.
Qed.
Print Assumptions C88_refuted_histogram.
(** The times of the horizon lines are taken from the horizon limits, and the
    fourth components of the attitudes from the following fields. *)
Theorem C88_refuted_times hs bss bs : packed bss -> In (("urec_horizon_limit_information", OI2, 12), bs) (combine layout bss) ->
  accessor "urec_times_of_horizon_scan_lines" hs (List.concat bss) = Ok [elem_at OF8 bs 0; elem_at OF8 bs 1].
Proof.
  intros P I. destruct (locate _ OI2 12 bs layout bss P layout_nodup I) as (pre & post & E & L & W).
  assert (A : find_accessor "urec_times_of_horizon_scan_lines" = Some (OF8, offset_in layout "urec_horizon_limit_information", 2, 2)) by (vm_compute; reflexivity).
  unfold accessor. rewrite A, E. rewrite size_width in W. pose proof (get_elems_val hs OF8 pre bs post 2) as G. cbn [owidth] in G, W. specialize (G ltac:(lia) 2%nat 0%nat eq_refl). rewrite Nat.mul_0_r, Nat.add_0_r in G.
  replace (Z.to_nat (offset_in layout "urec_horizon_limit_information")) with (List.length pre) by lia. change (Z.to_nat 2) with 2%nat. rewrite G. reflexivity.
Qed.
Print Assumptions C88_refuted_times.
Lemma get_elem_in hs k pre bs post j : (owidth k * S j <= List.length bs)%nat -> get_elem hs (pre ++ bs ++ post) k (List.length pre + owidth k * j) = Ok (elem_at k bs j).
Proof.
  intros L. pose proof (get_elems_val hs k pre bs post (S j)) as G. specialize (G ltac:(lia) 1%nat j ltac:(lia)). cbn [get_elems seq map] in G.
  destruct (get_elem hs (pre ++ bs ++ post) k (List.length pre + owidth k * j)); cbn [bind] in G; try discriminate. now injection G as ->.
Qed.
Theorem C88_refuted_attitude hs bss bs1 bs2 bs3 : packed bss -> In (("urec_cartesian_attitude_start", OF4, 3), bs1) (combine layout bss) -> In (("urec_cartesian_attitude_end", OF4, 3), bs2) (combine layout bss) ->
  In (("urec_horizon_information", OI2, 12), bs3) (combine layout bss) ->
  accessor "urec_cartesian_attitude_start" hs (List.concat bss) = Ok [elem_at OF4 bs1 0; elem_at OF4 bs1 1; elem_at OF4 bs1 2; elem_at OF4 bs2 0] /\
  accessor "urec_cartesian_attitude_end" hs (List.concat bss) = Ok [elem_at OF4 bs2 0; elem_at OF4 bs2 1; elem_at OF4 bs2 2; elem_at OF4 bs3 0].
Proof.
  intros P I1 I2 I3. destruct (locate _ _ _ _ layout bss P layout_nodup I1) as (p1 & q1 & E1 & L1 & W1). destruct (locate _ _ _ _ layout bss P layout_nodup I2) as (p2 & q2 & E2 & L2 & W2).
  destruct (locate _ _ _ _ layout bss P layout_nodup I3) as (p3 & q3 & E3 & L3 & W3).
  assert (O1 : offset_in layout "urec_cartesian_attitude_start" = 7479) by (vm_compute; reflexivity). assert (O2 : offset_in layout "urec_cartesian_attitude_end" = 7491) by (vm_compute; reflexivity).
  assert (O3 : offset_in layout "urec_horizon_information" = 7503) by (vm_compute; reflexivity). rewrite O1 in L1. rewrite O2 in L2. rewrite O3 in L3. clear O1 O2 O3 I1 I2 I3 P.
  rewrite size_width in W1, W2, W3. cbn [owidth] in W1, W2, W3. change (3 * Z.of_nat 4) with 12 in W1, W2. change (12 * Z.of_nat 2) with 24 in W3.
  unfold accessor. assert (A1 : find_accessor "urec_cartesian_attitude_start" = Some (OF4, 7479, 4, 4)) by (vm_compute; reflexivity). assert (A2 : find_accessor "urec_cartesian_attitude_end" = Some (OF4, 7491, 4, 4)) by (vm_compute; reflexivity).
  rewrite A1, A2. clear A1 A2. set (h := List.concat bss) in *. change (Z.to_nat 4) with 4%nat. change (Z.to_nat (4 - 4)) with 0%nat.
  assert (G1 : forall j, (j < 3)%nat -> forall off, off = (Z.to_nat 7479 + 4 * j)%nat -> get_elem hs h OF4 off = Ok (elem_at OF4 bs1 j)).
  { intros j J off ->. rewrite E1. replace (Z.to_nat 7479) with (List.length p1) by lia. apply (get_elem_in hs OF4). cbn [owidth]. lia. }
  assert (G2 : forall j, (j < 3)%nat -> forall off, off = (Z.to_nat 7491 + 4 * j)%nat -> get_elem hs h OF4 off = Ok (elem_at OF4 bs2 j)).
  { intros j J off ->. rewrite E2. replace (Z.to_nat 7491) with (List.length p2) by lia. apply (get_elem_in hs OF4). cbn [owidth]. lia. }
  assert (G3 : get_elem hs h OF4 (Z.to_nat 7503 + 4 * 0) = Ok (elem_at OF4 bs3 0)).
  { rewrite E3. replace (Z.to_nat 7503) with (List.length p3) by lia. apply (get_elem_in hs OF4). cbn [owidth]. lia. }
  cbn [get_elems owidth]. split.
  - rewrite (G1 0%nat) by lia. rewrite (G1 1%nat) by lia. rewrite (G1 2%nat) by lia. rewrite (G2 0%nat) by lia. reflexivity.
  - rewrite (G2 0%nat) by lia. rewrite (G2 1%nat) by lia. rewrite (G2 2%nat) by lia. replace (Z.to_nat 7491 + 4 + 4 + 4)%nat with (Z.to_nat 7503 + 4 * 0)%nat by lia. rewrite G3. reflexivity.
Qed.
Print Assumptions C88_refuted_attitude.
Fixpoint ramp_fields (i : Z) (l : list (string * okind * Z)) : list (list Z) :=
  match l with
  | [] => []
  | f :: l' => repeat (i mod 200) (Z.to_nat (field_size (snd (fst f)) (snd f))) :: ramp_fields (i + 1) l'
  end.
Lemma ramp_packed : packed (ramp_fields 1 layout).
Proof.
  unfold packed. assert (N : Forall (fun f => 0 <= field_size (snd (fst f)) (snd f)) layout).
  { apply Forall_forall. intros f I. assert (E : forallb (fun f => 0 <=? field_size (snd (fst f)) (snd f)) layout = true) by (vm_compute; reflexivity). rewrite forallb_forall in E. specialize (E f I). lia. }
  generalize 1 as i. induction N as [|f l Hf N IH]; intros i; cbn [ramp_fields]; constructor; [rewrite repeat_length; lia|apply IH].
Qed.
Example C88_case : packed (ramp_fields 1 layout) /\ In (("origin", OI4, 1), repeat 25 4) (combine layout (ramp_fields 1 layout)) /\
  accessor "origin" LE (List.concat (ramp_fields 1 layout)) = Ok [25 * 16843009] /\ accessor "urect_raw_image_histogram" LE (List.concat (ramp_fields 1 layout)) = Ok (repeat (46 * 16843009) 20 ++ repeat 0 236).
Proof. split; [apply ramp_packed|]. split; [|split; vm_compute; reflexivity]. apply (nth_error_In _ 24). vm_compute. reflexivity. Qed.

(** ** C89. Dates. *)
Theorem C89_datetime hs h y c m d hh mi : (139 <= List.length h)%nat -> 1900 <= y <= 9999 -> 0 <= c -> 1 <= m <= 12 -> 1 <= d <= 31 -> 0 <= hh <= 23 -> 0 <= mi <= 59 ->
  word h 8 = y -> word h 24 = c * 10000 + m * 100 + d -> word h 28 = hh * 100 + mi ->
  get_datetime hs h = Ok (mk_tm (y - 1900) (m - 1) d hh mi) /\
  get_timestr hs h = Ok (four_digits y ++ four_digits (m * 100 + d) ++ [95] ++ four_digits (hh * 100 + mi)).
Proof.
  intros L Y C M D H I W1 W2 W3. unfold get_datetime, get_timestr. rewrite !int4_word by lia. rewrite W1, W2, W3. cbn [bind]. replace (int_ok (y - 1900)) with true by (unfold int_ok, int_max; lia). cbn [negb].
  assert (E : c * 10000 + m * 100 + d - Z.quot (c * 10000 + m * 100 + d) 10000 * 10000 = m * 100 + d) by (rewrite Z.quot_div_nonneg by lia; lia). rewrite E. clear E.
  assert (E : Z.quot (m * 100 + d) 100 = m) by (rewrite Z.quot_div_nonneg by lia; lia). rewrite E. clear E. assert (E : Z.quot (hh * 100 + mi) 100 = hh) by (rewrite Z.quot_div_nonneg by lia; lia). rewrite E. clear E.
  split; [do 2 f_equal; lia|]. rewrite !fmt04_digits by lia. reflexivity.
Qed.
Print Assumptions C89_datetime.
Lemma app_inv_len {A} (a b c d : list A) : a ++ c = b ++ d -> List.length a = List.length b -> a = b /\ c = d.
Proof. revert b. induction a as [|x a IH]; intros [|y b] E L; try discriminate; [auto|]. cbn [app] in E. injection E as -> E. destruct (IH b E) as [-> ->]; [cbn [List.length] in L; lia|auto]. Qed.
(** Two images have the same name only if they are of the same minute. *)
Theorem C89_distinct hs h1 h2 y1 c1 m1 d1 hh1 mi1 y2 c2 m2 d2 hh2 mi2 :
  (139 <= List.length h1)%nat -> 1900 <= y1 <= 9999 -> 0 <= c1 -> 1 <= m1 <= 12 -> 1 <= d1 <= 31 -> 0 <= hh1 <= 23 -> 0 <= mi1 <= 59 ->
  word h1 8 = y1 -> word h1 24 = c1 * 10000 + m1 * 100 + d1 -> word h1 28 = hh1 * 100 + mi1 ->
  (139 <= List.length h2)%nat -> 1900 <= y2 <= 9999 -> 0 <= c2 -> 1 <= m2 <= 12 -> 1 <= d2 <= 31 -> 0 <= hh2 <= 23 -> 0 <= mi2 <= 59 ->
  word h2 8 = y2 -> word h2 24 = c2 * 10000 + m2 * 100 + d2 -> word h2 28 = hh2 * 100 + mi2 ->
  get_timestr hs h1 = get_timestr hs h2 -> (y1, m1, d1, hh1, mi1) = (y2, m2, d2, hh2, mi2).
Proof.
  intros L1 Y1 C1 M1 D1 H1 I1 A1 B1 T1 L2 Y2 C2 M2 D2 H2 I2 A2 B2 T2 E.
  destruct (C89_datetime hs h1 y1 c1 m1 d1 hh1 mi1) as [_ E1]; try assumption. destruct (C89_datetime hs h2 y2 c2 m2 d2 hh2 mi2) as [_ E2]; try assumption.
  rewrite E1, E2 in E. apply Ok_inj in E.
  apply app_inv_len in E as [Ey E]; [|reflexivity]. apply app_inv_len in E as [Em E]; [|reflexivity]. apply app_inv_len in E as [_ Et]; [|reflexivity].
  apply four_digits_inj in Ey; [|lia..]. apply four_digits_inj in Em; [|lia..]. apply four_digits_inj in Et; [|lia..]. clear - Ey Em Et M1 M2 D1 D2 H1 H2 I1 I2.
  assert (m1 = m2) by lia. assert (d1 = d2) by lia. assert (hh1 = hh2) by lia. assert (mi1 = mi2) by lia. congruence.
Qed.
Print Assumptions C89_distinct.
Example C89_case : get_datetime LE (sample_sec1 0 4 2500 2500) = Ok (mk_tm 104 1 29 18 30) /\ get_timestr LE (sample_sec1 0 4 2500 2500) = Ok (codes "20040229_1830").
Proof. split; vm_compute; reflexivity. Qed.

(** ** C90. Numbers in characters: right aligned, filled with blanks or zeros. *)
Lemma text_numbers fillc v n pre post ws : fillc = 32 \/ fillc = 48 -> 0 <= v < 10 ^ Z.of_nat n -> ws = weights n ->
  chars ws (pre ++ aligned fillc n v ++ post) (List.length pre) = Ok v.
Proof.
  intros F V ->. unfold chars. rewrite weights_length. rewrite bytes_at_ok by (rewrite !app_length, aligned_length; lia). cbn [bind]. f_equal.
  rewrite skipn_app_exact by reflexivity. rewrite firstn_app_exact by (now rewrite aligned_length). now apply sum_aligned.
Qed.
(** The four functions of the reader, the results of the first two being scaled. *)
Theorem C90_functions fillc v pre post : fillc = 32 \/ fillc = 48 ->
  (0 <= v < 100000 -> r4_from_char5 (pre ++ aligned fillc 5 v ++ post) (List.length pre) = Ok v) /\
  (0 <= v < 1000 -> r4_from_char3 (pre ++ aligned fillc 3 v ++ post) (List.length pre) = Ok v) /\
  (0 <= v < 1000 -> int4_from_char3 (pre ++ aligned fillc 3 v ++ post) (List.length pre) = Ok v) /\
  (0 <= v < 100 -> int4_from_char2 (pre ++ aligned fillc 2 v ++ post) (List.length pre) = Ok v).
Proof.
  intros F. split; [|split; [|split]]; intros V.
  - now apply (text_numbers fillc v 5).
  - now apply (text_numbers fillc v 3).
  - now apply (text_numbers fillc v 3).
  - now apply (text_numbers fillc v 2).
Qed.
Print Assumptions C90_functions.
Example C90_case : int4_from_char3 (codes "xx  7yy") 2 = Ok 7 /\ aligned 32 3 7 = codes "  7" /\ aligned 48 2 40 = codes "40" /\ int4_from_char2 (codes "40") 0 = Ok 40.
Proof. repeat split; vm_compute; reflexivity. Qed.
