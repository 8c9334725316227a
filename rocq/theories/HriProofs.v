(** Proofs about reading HRI files. *)
From Verif Require Import BaseFacts MachineModel MachineProofs HriImageModel HriImageSpec HriImageProofs HriFloatModel HriFloatSpec HriFloatProofs HriModel HriSpec.
From Coq Require Import QArith.
#[local] Open Scope string_scope.
#[local] Open Scope list_scope.
#[local] Open Scope Z_scope.

(** ** Frames *)
Lemma over_full n bs : List.length bs = n -> over (repeat 0 n) bs = bs.
Proof. intros L. unfold over. rewrite skipn_all2 by (rewrite repeat_length; lia). apply app_nil_r. Qed.
Lemma sread_full n a r : List.length a = n -> sread (mk_stream (a ++ r) false) n = (a, mk_stream r false).
Proof.
  intros L. unfold sread. cbn [failed left]. rewrite app_length. replace (n <=? List.length a + List.length r)%nat with true by (symmetry; apply Nat.leb_le; lia).
  rewrite firstn_app_exact, skipn_app_exact by auto. reflexivity.
Qed.
Lemma getbuff_n_good n off pre b3 p r : List.length pre = off -> List.length (pre ++ [0x05; 0x0C; 0xDF; b3] ++ p) = n ->
  getbuff_n LE n off (mk_stream ((pre ++ [0x05; 0x0C; 0xDF; b3] ++ p) ++ r) false) = Ok (pre ++ [0x05; 0x0C; 0xDF; b3] ++ p, mk_stream r false).
Proof.
  intros LP L. unfold getbuff_n. rewrite sread_full by exact L. cbn [failed]. rewrite over_full by exact L. unfold sync_error.
  change ([5; 12; 223; b3] ++ p) with ([5; 12] ++ ([223; b3] ++ p)). rewrite (bytes_at_app pre [5; 12]) by auto. cbn [bind].
  rewrite app_assoc. rewrite (bytes_at_app (pre ++ [5; 12]) [223; b3]) by (rewrite ?app_length; cbn [List.length]; lia). cbn [bind].
  change (load_u LE [5; 12] =? 3077) with true. reflexivity.
Qed.
Lemma getbuff_frame id p r : List.length p = 360%nat -> getbuff LE (mk_stream (frame id p ++ r) false) = Ok (frame id p, mk_stream r false).
Proof. intros L. unfold getbuff, frame. apply (getbuff_n_good 364 0 [] id p r eq_refl). cbn [app List.length]. lia. Qed.

Fixpoint table_at (d : nat) (specs : list (nat * nat)) : list (nat * nat * nat) :=
  match specs with [] => [] | (src, n) :: t => (d, src, n) :: table_at (d + n) t end.
Fixpoint total (specs : list (nat * nat)) : nat := match specs with [] => O | (_, n) :: t => (n + total t)%nat end.
Fixpoint pieces (specs : list (nat * nat)) (cs : list (list Z)) : list Z :=
  match specs, cs with
  | (src, n) :: t, c :: cs' => firstn n (skipn (src - 4) c) ++ pieces t cs'
  | _, _ => []
  end.
Lemma a_table_at : a_table = table_at 0 [(68, 296); (4, 360); (4, 360); (4, 360); (4, 360); (4, 360); (4, 360); (4, 44)]%nat.
Proof. reflexivity. Qed.
Lemma bx_table_at : bx_table = table_at 0 [(36, 328); (4, 360); (4, 360); (4, 202)]%nat.
Proof. reflexivity. Qed.
Lemma pieces_length specs : forall cs, Forall (fun c => List.length c = 360%nat) cs -> List.length cs = List.length specs ->
  Forall (fun sn => (4 <= fst sn)%nat /\ (fst sn + snd sn <= 364)%nat) specs -> List.length (pieces specs cs) = total specs.
Proof.
  induction specs as [|[src n] specs IH]; intros [|c cs] FC L FS; try discriminate; [reflexivity|]. inversion FC; inversion FS; subst. cbn [pieces total fst snd] in *.
  rewrite app_length, firstn_length, skipn_length, IH by (auto; cbn in L; lia). lia.
Qed.
Lemma frame_piece id c src n : List.length c = 360%nat -> (4 <= src)%nat -> (src + n <= 364)%nat -> bytes_at (frame id c) src n = Ok (firstn n (skipn (src - 4) c)).
Proof.
  intros L S N. rewrite bytes_at_ok by (unfold frame; rewrite app_length, L; cbn [List.length]; lia). do 2 f_equal. unfold frame.
  replace src with ((src - 4) + 4)%nat at 1 by lia. rewrite <- skipn_skipn. reflexivity.
Qed.
Lemma get_frames_ok specs : forall d id cs r lb, Forall (fun c => List.length c = 360%nat) cs -> List.length cs = List.length specs ->
  Forall (fun sn => (4 <= fst sn)%nat /\ (fst sn + snd sn <= 364)%nat) specs -> (d + total specs <= List.length lb)%nat ->
  get_frames LE (table_at d specs) (mk_stream (List.concat (map (frame id) cs) ++ r) false) lb =
  Ok (firstn d lb ++ pieces specs cs ++ skipn (d + total specs) lb, mk_stream r false).
Proof.
  induction specs as [|[src n] specs IH]; intros d id [|c cs] r lb FC L FS B; try discriminate.
  - cbn [table_at get_frames map List.concat app pieces total]. rewrite Nat.add_0_r, firstn_skipn. reflexivity.
  - inversion FC as [|? ? Lc FC']; inversion FS as [|? ? Sc FS']; subst. cbn [fst snd] in Sc. cbn [table_at get_frames map List.concat]. rewrite <- app_assoc, getbuff_frame by assumption. cbn [bind].
    rewrite frame_piece by (auto; lia). cbn [bind total] in *. unfold copy_to. assert (LP : List.length (firstn n (skipn (src - 4) c)) = n) by (rewrite firstn_length, skipn_length; lia).
    rewrite LP. replace (d + n <=? List.length lb)%nat with true by (symmetry; apply Nat.leb_le; lia). cbn [bind].
    set (lb' := firstn d lb ++ firstn n (skipn (src - 4) c) ++ skipn (d + n) lb).
    assert (L' : List.length lb' = List.length lb) by (unfold lb'; rewrite !app_length, LP, firstn_length, skipn_length; lia).
    rewrite IH by (auto; cbn in L; lia). do 2 f_equal.
    assert (F1 : firstn (d + n) lb' = firstn d lb ++ firstn n (skipn (src - 4) c)).
    { unfold lb'. rewrite app_assoc. apply firstn_app_exact. rewrite app_length, LP, firstn_length. lia. }
    assert (F2 : skipn (d + n + total specs) lb' = skipn (d + (n + total specs)) lb).
    { unfold lb'. rewrite app_assoc, skipn_app, app_length, LP, firstn_length, Nat.min_l by lia. rewrite skipn_all2 by (rewrite app_length, LP, firstn_length; lia). cbn [app].
      rewrite skipn_skipn. f_equal. lia. }
    rewrite F1, F2. cbn [pieces]. now rewrite <- !app_assoc.
Qed.

(** The chunks of a payload. *)
Lemma chop_length n : forall p, List.length (chop n p) = n.
Proof. induction n as [|n IH]; intros p; cbn [chop List.length]; [reflexivity|]. now rewrite IH. Qed.
Lemma chop_chunks n : forall p, List.length p = (360 * n)%nat -> Forall (fun c => List.length c = 360%nat) (chop n p).
Proof. induction n as [|n IH]; intros p L; cbn [chop]; constructor; [rewrite firstn_length; lia|]. apply IH. rewrite skipn_length. lia. Qed.
Lemma chop_concat n : forall p, List.length p = (360 * n)%nat -> List.concat (chop n p) = p.
Proof.
  induction n as [|n IH]; intros p L; cbn [chop List.concat]; [destruct p; [reflexivity|discriminate]|]. rewrite IH by (rewrite skipn_length; lia). apply firstn_skipn.
Qed.
Definition specs_of (lead : nat) (k last : nat) : list (nat * nat) := ((4 + lead)%nat, (360 - lead)%nat) :: repeat (4%nat, 360%nat) k ++ [(4%nat, last)].
Lemma pieces_all k : forall cs x last, Forall (fun c => List.length c = 360%nat) cs -> List.length cs = k ->
  pieces (repeat (4%nat, 360%nat) k ++ [(4%nat, last)]) (cs ++ [x]) = List.concat cs ++ firstn last x.
Proof.
  induction k as [|k IH]; intros cs x last F L.
  - destruct cs; [|discriminate]. cbn [repeat app pieces List.concat Nat.sub]. rewrite skipn_O. apply app_nil_r.
  - destruct cs as [|c cs]; [discriminate|]. inversion F; subst. cbn [repeat app pieces List.concat Nat.sub]. rewrite skipn_O, firstn_all2 by lia. rewrite IH by (auto; cbn in L; lia). now rewrite app_assoc.
Qed.
Lemma pieces_line lead line pad k last : List.length (lead ++ line ++ pad) = (360 * (k + 2))%nat -> (List.length lead <= 360)%nat -> (last <= 360)%nat -> List.length line = (360 - List.length lead + 360 * k + last)%nat ->
  pieces (specs_of (List.length lead) k last) (chop (k + 2) (lead ++ line ++ pad)) = line.
Proof.
  intros L B1 B2 LL. set (p := lead ++ line ++ pad) in *. pose proof (chop_concat _ p L) as CC. pose proof (chop_chunks _ p L) as CF. pose proof (chop_length (k + 2) p) as CL.
  destruct (chop (k + 2) p) as [|c0 cs]; [cbn in CL; lia|]. inversion CF as [|? ? L0 CF']; subst. destruct (exists_last (l := cs)) as (mid & x & ->); [destruct cs; [cbn in CL; lia|discriminate]|].
  apply Forall_app in CF' as [FM FX]. inversion FX as [|? ? LX _]; subst. assert (LM : List.length mid = k) by (cbn [List.length] in CL; rewrite app_length in CL; cbn in CL; lia).
  unfold specs_of. cbn [pieces]. rewrite pieces_all by assumption. replace (4 + List.length lead - 4)%nat with (List.length lead) by lia.
  rewrite firstn_all2 by (rewrite skipn_length; lia).
  assert (E : line = firstn (List.length line) (skipn (List.length lead) p)).
  { unfold p. rewrite skipn_app_exact by reflexivity. rewrite firstn_app_exact by reflexivity. reflexivity. }
  rewrite E at 1. rewrite <- CC at 1. cbn [List.concat]. rewrite concat_app. cbn [List.concat]. rewrite app_nil_r, skipn_app.
  replace (List.length lead - List.length c0)%nat with 0%nat by lia. rewrite skipn_O.
  assert (LCM : List.length (List.concat mid) = (360 * k)%nat).
  { rewrite <- LM. clear -FM. induction FM as [|c m Hc _ IH]; cbn [List.concat List.length]; [lia|]. rewrite app_length, IH, Hc. lia. }
  rewrite firstn_app. rewrite (firstn_all2 (skipn (List.length lead) c0)) by (rewrite skipn_length; lia). rewrite skipn_length.
  rewrite firstn_app. rewrite (firstn_all2 (List.concat mid)) by lia. do 3 f_equal. lia.
Qed.

(** ** Data lines: the first bytes of the buffer are the samples. *)
Lemma is_a_eq f : is_a f = true -> frame_id f = 112 /\ line_size f = 2500%nat.
Proof. unfold frame_id, line_size. intros ->. auto. Qed.
Lemma get_dataline_ok f d r lb : dline_ok f false d -> List.length lb = 2500%nat ->
  get_dataline LE (frame_id f) (mk_stream (dline_bytes f false d ++ r) false) lb = Ok (dl_data d ++ skipn (line_size f) lb, mk_stream r false).
Proof.
  intros (L1 & L2 & L3) LB. unfold dline_bytes, get_dataline, frame_id, line_size, framed in *. destruct (is_a f).
  - change (112 =? 112) with true. cbn [bind].
    change a_table with (table_at 0 (specs_of 64 6 44)). assert (LL : List.length (dl_lead d ++ dl_data d ++ dl_pad d) = (360 * 8)%nat) by (rewrite !app_length; lia).
    rewrite (get_frames_ok (specs_of 64 6 44) 0 112 _ r lb).
    + cbn [firstn app Nat.add]. do 3 f_equal. pose proof (pieces_line (dl_lead d) (dl_data d) (dl_pad d) 6 44) as P. rewrite L2 in P. apply P; lia.
    + now apply chop_chunks.
    + now rewrite chop_length.
    + unfold specs_of. cbn [repeat app]. repeat (apply Forall_cons; [cbn [fst snd]; lia|]). apply Forall_nil.
    + rewrite LB. cbn. lia.
  - change (48 =? 112) with false. change (48 =? 48) with true. cbn [bind].
    change bx_table with (table_at 0 (specs_of 32 2 202)). assert (LL : List.length (dl_lead d ++ dl_data d ++ dl_pad d) = (360 * 4)%nat) by (rewrite !app_length; lia).
    rewrite (get_frames_ok (specs_of 32 2 202) 0 48 _ r lb).
    + cbn [firstn app Nat.add]. do 3 f_equal. pose proof (pieces_line (dl_lead d) (dl_data d) (dl_pad d) 2 202) as P. rewrite L2 in P. apply P; lia.
    + now apply chop_chunks.
    + now rewrite chop_length.
    + unfold specs_of. cbn [repeat app]. repeat (apply Forall_cons; [cbn [fst snd]; lia|]). apply Forall_nil.
    + rewrite LB. cbn. lia.
Qed.
Lemma bytes_at_start (b c : list Z) n : n = List.length b -> bytes_at (b ++ c) 0 n = Ok b.
Proof. intros H. exact (bytes_at_app [] b c 0 n eq_refl H). Qed.
Lemma copy_to_start lb bs : (List.length bs <= List.length lb)%nat -> copy_to lb 0 bs = Ok (bs ++ skipn (List.length bs) lb).
Proof. intros L. unfold copy_to. cbn [Nat.add firstn app]. replace (_ <=? _)%nat with true by (symmetry; apply Nat.leb_le; lia). reflexivity. Qed.
Lemma copy_to_after a lb bs n : n = List.length a -> (List.length a + List.length bs <= List.length a + List.length lb)%nat -> copy_to (a ++ lb) n bs = Ok (a ++ bs ++ skipn (List.length bs) lb).
Proof.
  intros -> L. unfold copy_to. rewrite app_length. replace (_ <=? _)%nat with true by (symmetry; apply Nat.leb_le; lia). rewrite firstn_app_exact by reflexivity.
  rewrite Nat.add_comm. rewrite <- skipn_skipn, skipn_app_exact by reflexivity. reflexivity.
Qed.
Lemma mod_get_dataline_ok f d r lb : dline_ok f true d -> List.length lb = 2500%nat ->
  mod_get_dataline LE (frame_id f) (mk_stream (dline_bytes f true d ++ r) false) lb = Ok (dl_data d ++ skipn (line_size f) lb, mk_stream r false).
Proof.
  intros (L1 & L2 & L3) LB. unfold dline_bytes, mod_get_dataline, frame_id, line_size in *. destruct (is_a f).
  - change (112 =? 112) with true. cbn iota.
    assert (D : dl_data d = firstn 1660 (dl_data d) ++ skipn 1660 (dl_data d)) by (symmetry; apply firstn_skipn).
    set (d1 := firstn 1660 (dl_data d)) in *. set (d2 := skipn 1660 (dl_data d)) in *.
    assert (LD1 : List.length d1 = 1660%nat) by (unfold d1; rewrite firstn_length; lia). assert (LD2 : List.length d2 = 840%nat) by (unfold d2; rewrite skipn_length; lia). clearbody d1 d2.
    rewrite D. replace (([5; 12; 223; 112] ++ dl_lead d ++ (d1 ++ d2) ++ dl_pad d) ++ r) with (([] ++ [5; 12; 223; 112] ++ (dl_lead d ++ d1)) ++ (d2 ++ dl_pad d) ++ r) by (cbn [app]; now rewrite <- !app_assoc).
    unfold mod_getbuff. rewrite (getbuff_n_good 2048 0 [] 112 (dl_lead d ++ d1)) by (cbn [app List.length]; rewrite ?app_length; lia). cbn [bind].
    cbn [app]. change (5 :: 12 :: 223 :: 112 :: dl_lead d ++ d1) with ([5; 12; 223; 112] ++ dl_lead d ++ d1). rewrite app_assoc. rewrite <- (app_nil_r d1) at 1. rewrite (bytes_at_app _ d1 []) by (rewrite ?app_length; cbn [List.length]; lia). cbn [bind].
    rewrite copy_to_start by lia. cbn [bind].
    rewrite sread_full by (rewrite app_length; lia). cbn [failed]. unfold over. rewrite <- app_assoc. rewrite (bytes_at_start d2) by lia. cbn [bind].
    rewrite copy_to_after by (rewrite ?skipn_length; lia). cbn [bind]. rewrite <- app_assoc, skipn_skipn. do 6 f_equal. lia.
  - change (48 =? 112) with false. change (48 =? 48) with true. cbn iota.
    assert (D : dl_data d = firstn 168 (dl_data d) ++ skipn 168 (dl_data d)) by (symmetry; apply firstn_skipn).
    set (d1 := firstn 168 (dl_data d)) in *. set (d2 := skipn 168 (dl_data d)) in *.
    assert (LD1 : List.length d1 = 168%nat) by (unfold d1; rewrite firstn_length; lia). assert (LD2 : List.length d2 = 1082%nat) by (unfold d2; rewrite skipn_length; lia). clearbody d1 d2.
    rewrite D. replace (([5; 12; 223; 48] ++ dl_lead d ++ (d1 ++ d2) ++ dl_pad d) ++ r) with (([] ++ [5; 12; 223; 48] ++ (dl_lead d ++ d1)) ++ (d2 ++ dl_pad d) ++ r) by (cbn [app]; now rewrite <- !app_assoc).
    unfold getbuff. rewrite (getbuff_n_good 364 0 [] 48 (dl_lead d ++ d1)) by (cbn [app List.length]; rewrite ?app_length; lia). cbn [bind].
    cbn [app]. change (5 :: 12 :: 223 :: 48 :: dl_lead d ++ d1) with ([5; 12; 223; 48] ++ dl_lead d ++ d1). rewrite app_assoc. rewrite <- (app_nil_r d1) at 1. rewrite (bytes_at_app _ d1 []) by (rewrite ?app_length; cbn [List.length]; lia). cbn [bind].
    rewrite copy_to_start by lia. cbn [bind].
    rewrite sread_full by (rewrite app_length; lia). cbn [failed]. unfold over. rewrite <- app_assoc. rewrite (bytes_at_start d2) by lia. cbn [bind].
    rewrite copy_to_after by (rewrite ?skipn_length; lia). cbn [bind]. rewrite <- app_assoc, skipn_skipn. do 6 f_equal. lia.
Qed.
Lemma dataline_ok f tec d r lb : dline_ok f tec d -> List.length lb = 2500%nat ->
  dataline tec LE (frame_id f) (mk_stream (dline_bytes f tec d ++ r) false) lb = Ok (dl_data d ++ skipn (line_size f) lb, mk_stream r false).
Proof. destruct tec; cbn [dataline]; [apply mod_get_dataline_ok|apply get_dataline_ok]. Qed.
