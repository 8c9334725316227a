(** Properties C52 and C80-C84: HRI files. *)
From Verif Require Import BaseFacts MachineModel MachineProofs HriImageModel HriImageSpec HriImageProofs HriFloatModel HriFloatProps HriModel HriSpec HriProofs HriFile.
From Coq Require Import QArith.
#[local] Open Scope string_scope.
#[local] Open Scope list_scope.
#[local] Open Scope Z_scope.

(** ** C52. Frames with correct synchronisation are accepted on little endian
    hosts; a frame is refused exactly when both its first two bytes and its third
    one are wrong. *)
Theorem C52_accept_partial b0 b1 b2 b3 p r : is_byte b0 -> is_byte b1 -> is_byte b2 -> is_byte b3 -> List.length p = 360%nat ->
  getbuff LE (mk_stream (b0 :: b1 :: b2 :: b3 :: p ++ r) false) =
    if ((b0 =? 0x05) && (b1 =? 0x0C)) || (b2 =? 0xDF) then Ok (b0 :: b1 :: b2 :: b3 :: p, mk_stream r false) else Terminate.
Proof.
  intros B0 B1 B2 B3 L. unfold getbuff, getbuff_n. change (b0 :: b1 :: b2 :: b3 :: p ++ r) with ((b0 :: b1 :: b2 :: b3 :: p) ++ r).
  rewrite sread_full by (cbn [List.length]; lia). cbn [failed]. rewrite over_full by (cbn [List.length]; lia). unfold sync_error. rewrite !bytes_at_ok by (cbn [List.length Nat.add]; lia). cbn [Nat.add skipn firstn bind].
  unfold load_u. cbn [rev app]. rewrite !be_load_val by (repeat constructor; assumption). cbn [be_val List.length]. change (256 ^ Z.of_nat 1) with 256. change (256 ^ Z.of_nat 0) with 1. unfold is_byte in *.
  change 255 with (Z.ones 8). rewrite Z.land_ones by lia. change (2 ^ 8) with 256.
  assert (E1 : (b1 * 256 + (b0 * 1 + 0) =? 0x0C05) = ((b0 =? 5) && (b1 =? 12))) by lia. assert (E2 : ((b3 * 256 + (b2 * 1 + 0)) mod 256 =? 0xDF) = (b2 =? 0xDF)) by lia. rewrite E1, E2.
  destruct ((b0 =? 5) && (b1 =? 12)), (b2 =? 0xDF); reflexivity.
Qed.
Print Assumptions C52_accept_partial.
(** One of the two parts of the mark is enough; short reads are not checked; on
    big endian hosts correct frames are refused. *)
Theorem C52_refuted b2 b3 p r : List.length p = 360%nat -> is_byte b2 -> is_byte b3 ->
  getbuff LE (mk_stream ([0x05; 0x0C; b2; b3] ++ p ++ r) false) = Ok ([0x05; 0x0C; b2; b3] ++ p, mk_stream r false).
Proof. intros L B2 B3. cbn [app]. rewrite C52_accept_partial by (try assumption; unfold is_byte; lia). reflexivity. Qed.
Print Assumptions C52_refuted.
Theorem C52_refuted_third b0 b1 b3 p r : List.length p = 360%nat -> is_byte b0 -> is_byte b1 -> is_byte b3 ->
  getbuff LE (mk_stream ([b0; b1; 0xDF; b3] ++ p ++ r) false) = Ok ([b0; b1; 0xDF; b3] ++ p, mk_stream r false).
Proof. intros L B0 B1 B3. cbn [app]. rewrite C52_accept_partial by (try assumption; unfold is_byte; lia). now rewrite Z.eqb_refl, orb_true_r. Qed.
Print Assumptions C52_refuted_third.
Theorem C52_refuted_short hs bs : (List.length bs < 364)%nat -> getbuff hs (mk_stream bs false) = Ok (bs ++ repeat 0 (364 - List.length bs), mk_stream [] true).
Proof.
  intros L. unfold getbuff, getbuff_n, sread. cbn [failed left]. replace (364 <=? List.length bs)%nat with false by (symmetry; apply Nat.leb_gt; lia). cbn [failed]. do 2 f_equal. unfold over. f_equal.
  replace 364%nat with (List.length bs + (364 - List.length bs))%nat at 1 by lia. rewrite repeat_app. apply skipn_app_exact. now rewrite repeat_length.
Qed.
Print Assumptions C52_refuted_short.
Theorem C52_refuted_big_endian id p r : is_byte id -> id <> 0xDF -> List.length p = 360%nat -> getbuff BE (mk_stream (frame id p ++ r) false) = Terminate.
Proof.
  intros B N L. unfold getbuff, getbuff_n, frame. rewrite sread_full by (rewrite app_length; cbn [List.length]; lia). cbn [failed]. rewrite over_full by (rewrite app_length; cbn [List.length]; lia).
  unfold sync_error. rewrite !bytes_at_ok by (rewrite app_length; cbn [List.length Nat.add]; lia). cbn [app Nat.add skipn firstn bind]. unfold load_u. rewrite !be_load_val by (repeat constructor; first [assumption|unfold is_byte; lia]). cbn [be_val List.length]. change (256 ^ Z.of_nat 1) with 256. change (256 ^ Z.of_nat 0) with 1. unfold is_byte in *.
  change 255 with (Z.ones 8). rewrite Z.land_ones by lia. change (2 ^ 8) with 256. destruct (Z.eqb_spec ((223 * 256 + (id * 1 + 0)) mod 256) 0xDF); [lia|]. reflexivity.
Qed.
Print Assumptions C52_refuted_big_endian.
Example C52_case : getbuff LE (mk_stream (frame 48 (repeat 7 360) ++ [1; 2]) false) = Ok (frame 48 (repeat 7 360), mk_stream [1; 2] false) /\ getbuff LE (mk_stream (repeat 0 364) false) = Terminate.
Proof. split; vm_compute; reflexivity. Qed.

(** ** C80. Data lines are reassembled, in both kinds of files. *)
Theorem C80_dataline f tec d r lb : dline_ok f tec d -> List.length lb = 2500%nat ->
  exists lb', dataline tec LE (frame_id f) (mk_stream (dline_bytes f tec d ++ r) false) lb = Ok (lb', mk_stream r false) /\ firstn (line_size f) lb' = dl_data d.
Proof.
  intros D L. rewrite dataline_ok by assumption. eexists. split; [reflexivity|]. destruct D as (D & _). apply firstn_app_exact. now symmetry.
Qed.
Print Assumptions C80_dataline.
Definition ramp_line (lead n pad : nat) : dline := mk_dline (repeat 1 lead) (map (fun i => Z.of_nat i mod 251) (seq 0 n)) (repeat 2 pad).
Example C80_case : dline_ok "BW" false (ramp_line 32 1250 158) /\ dline_ok "AW" true (ramp_line 384 2500 184) /\
  match dataline true LE 112 (mk_stream (dline_bytes "AW" true (ramp_line 384 2500 184) ++ [9]) false) (repeat 3 2500) with
  | Ok (lb, s) => lb = map (fun i => Z.of_nat i mod 251) (seq 0 2500) /\ left s = [9]
  | _ => False
  end.
Proof. split; [repeat split|split; [repeat split|vm_compute; split; reflexivity]]. Qed.

(** ** C81. Whole files: every image has the pixels of its data lines. *)
Theorem C81_whole_lines_partial f tec pre h ds tail lb ims n o : format_spec f = Some (ims, n, o) -> code_of (hd_label h) = Some f -> header_ok h -> List.length pre = 512%nat ->
  Forall (dline_ok f tec) ds -> List.length ds = n -> List.length lb = 2500%nat ->
  exists x, readfrom 4 LE tec lb (file_bytes f tec pre h ds tail) = Ok x /\
    h_format x = f /\ h_seed x = hd_seed h /\ h_satellite x = (nth 0 (hd_ident h) 0, nth 1 (hd_ident h) 0) /\ List.length (h_images x) = List.length ims /\
    forall k fm b np nl, nth_error ims k = Some (fm, b) -> dims fm b = Some (np, nl) ->
      forall l p, Z.of_nat l < nl -> 0 <= p < (if in_halves o k then np / 2 - 2 else np) ->
        get_pixel (nth k (h_images x) no_image) (Z.of_nat l) p = Ok (Some (sample ds (source o (np / 2) k l p))).
Proof.
  intros FS CO H LP FD LD LB. destruct (file_read f tec pre h _ ds _ lb ims n o FS CO H LP (feeds_lines f tec ds tail FD) LD LB) as (lab & interp & keys & images & geo & E & EL & EI & EG & KEYS & LI & PX).
  eexists. split; [exact E|]. cbn [h_format h_seed h_satellite h_images]. do 3 (split; [reflexivity|]). split; [exact LI|].
  intros k fm b np nl E1 E2 l p L P. destruct (PX k fm b np nl E1 E2) as (_ & _ & G). assert (NP : 0 < np) by (clear - E2; destruct fm, b; cbn in E2; try discriminate; apply Some_inj, pair_inj in E2 as [<- _]; reflexivity).
  rewrite G; [|exact L|destruct (in_halves o k); lia]. f_equal. unfold actual. destruct (in_halves o k) eqn:IH; [|reflexivity]. replace (p <? np / 2 - 2) with true by lia. cbn [option_map]. do 2 f_equal.
  destruct o as [m| |]; cbn [source]; [destruct k; discriminate|..].
  - replace (0 <? np / 2) with true by lia. now replace (p <? np / 2) with true by lia.
  - destruct k; [discriminate|]. replace (0 <? np / 2) with true by lia. now replace (p <? np / 2) with true by lia.
Qed.
Print Assumptions C81_whole_lines_partial.
(** In the images whose lines come in halves, the second halves are two pixels too
    far to the left, and the last two pixels of each line are indeterminate. *)
Theorem C81_refuted_halves f tec pre h ds tail lb ims n o : format_spec f = Some (ims, n, o) -> code_of (hd_label h) = Some f -> header_ok h -> List.length pre = 512%nat ->
  Forall (dline_ok f tec) ds -> List.length ds = n -> List.length lb = 2500%nat ->
  exists x, readfrom 4 LE tec lb (file_bytes f tec pre h ds tail) = Ok x /\
    forall k fm b np nl, nth_error ims k = Some (fm, b) -> dims fm b = Some (np, nl) -> in_halves o k = true ->
      forall l p, Z.of_nat l < nl ->
        (np / 2 - 2 <= p < np - 2 -> get_pixel (nth k (h_images x) no_image) (Z.of_nat l) p = Ok (Some (sample ds (source o (np / 2) k l (p + 2))))) /\
        (np - 2 <= p < np -> get_pixel (nth k (h_images x) no_image) (Z.of_nat l) p = Ok None).
Proof.
  intros FS CO H LP FD LD LB. destruct (file_read f tec pre h _ ds _ lb ims n o FS CO H LP (feeds_lines f tec ds tail FD) LD LB) as (lab & interp & keys & images & geo & E & EL & EI & EG & KEYS & LI & PX).
  eexists. split; [exact E|]. cbn [h_images]. intros k fm b np nl E1 E2 IH l p L. destruct (PX k fm b np nl E1 E2) as (_ & _ & G). assert (NP : 8 < np /\ np mod 2 = 0) by (clear - E2; destruct fm, b; cbn in E2; try discriminate; apply Some_inj, pair_inj in E2 as [<- _]; split; reflexivity).
  split; intros P; (rewrite G; [|exact L|lia]); f_equal; unfold actual; rewrite IH; replace (p <? np / 2 - 2) with false by lia.
  - replace (p <? 2 * (np / 2) - 2) with true by lia. cbn [option_map]. do 2 f_equal. destruct o as [m| |]; cbn [source]; [destruct k; discriminate|..].
    + replace (0 <? np / 2) with true by lia. replace (p + 2 <? np / 2) with false by lia. cbn [fst]. f_equal. lia.
    + destruct k; [discriminate|]. replace (0 <? np / 2) with true by lia. replace (p + 2 <? np / 2) with false by lia. cbn [fst]. f_equal. lia.
  - now replace (p <? 2 * (np / 2) - 2) with false by lia.
Qed.
Print Assumptions C81_refuted_halves.
(** The keys of A format files are those of the file, except in TECNAVIA files
    where they are never set. *)
Theorem C81_keys_partial f pre h ds tail lb ims n o : format_spec f = Some (ims, n, o) -> code_of (hd_label h) = Some f -> header_ok h -> List.length pre = 512%nat ->
  List.length ds = n -> List.length lb = 2500%nat -> is_a f = true ->
  (Forall (dline_ok f false) ds -> exists x ks, readfrom 4 LE false lb (file_bytes f false pre h ds tail) = Ok x /\ h_keys x = Some ks /\ read_keys (hd_keys h) = Ok ks) /\
  (Forall (dline_ok f true) ds -> exists x, readfrom 4 LE true lb (file_bytes f true pre h ds tail) = Ok x /\ h_keys x = None).
Proof.
  intros FS CO H LP LD LB A. split; intros FD.
  - destruct (file_read f false pre h _ ds _ lb ims n o FS CO H LP (feeds_lines f false ds tail FD) LD LB) as (lab & interp & keys & images & geo & E & _ & _ & _ & KEYS & _). rewrite A in KEYS. destruct KEYS as (ks & -> & EK). eexists _, ks. split; [exact E|]. split; [reflexivity|exact EK].
  - destruct (file_read f true pre h _ ds _ lb ims n o FS CO H LP (feeds_lines f true ds tail FD) LD LB) as (lab & interp & keys & images & geo & E & _ & _ & _ & KEYS & _). rewrite A in KEYS. cbn [andb negb] in KEYS. subst keys. eexists. split; [exact E|reflexivity].
Qed.
Print Assumptions C81_keys_partial.
(** A header of a known satellite for each format; its label byte 15 says
    infrared, 13 and 14 visible, 16 water vapour. *)
Definition label_of (form vs vn ir wv : Z) : list Z := repeat 0 12 ++ [form; vs; vn; ir; wv] ++ repeat 0 7.
Definition some_header (lab : list Z) : header := mk_header lab [1; 2; 3; 4; 5; 6; 7; 8] (212 :: repeat 0 47) (repeat 0 1360) (repeat 0 1440).
Example C81_case : header_ok (some_header (label_of 255 1 0 1 0)) /\ code_of (label_of 255 1 0 1 0) = Some "BIV" /\ code_of (label_of 0 1 1 0 0) = Some "AV" /\
  code_of (label_of 15 255 255 0 0) = Some "XVH" /\ code_of (label_of 255 0 0 1 1) = Some "BIW" /\ code_of (label_of 0 0 0 1 1) = Some "AIW".
Proof.
  split; [|repeat split; reflexivity]. unfold header_ok, some_header. cbn [hd_label hd_seed hd_ident hd_interp hd_keys]. rewrite !repeat_length. split; [reflexivity|]. split; [reflexivity|]. split; [reflexivity|]. split; [reflexivity|]. split; [reflexivity|].
  assert (R : forall n, bytes_ok (repeat 0 n)) by (intros n; apply Forall_forall; intros x I; apply repeat_spec in I; subst; unfold is_byte; lia).
  split; [repeat constructor; unfold is_byte; lia|]. split; [repeat constructor; unfold is_byte; lia|]. split; [constructor; [unfold is_byte; lia|apply R]|]. split; [apply R|]. split; [apply R|]. left. reflexivity.
Qed.
(** Data line [j] of a file in "BIV" filled with [j mod 256]. *)
Example C81_case_pixels : let ds := map (fun j => mk_dline (repeat 0 32) (repeat (Z.of_nat j mod 256) 1250) (repeat 0 158)) (seq 0 (Z.to_nat 3125)) in
  sample ds (source IrVisHalves 625 0 100 3) = 500 mod 256 /\ sample ds (source IrVisHalves 1250 1 7 0) = 18 /\ sample ds (source IrVisHalves 1250 1 7 2499) = 19 /\ sample ds (source IrVisHalves 1250 1 8 0) = 21.
Proof. repeat split; vm_compute; reflexivity. Qed.

(** ** C82. A format code is accepted everywhere or nowhere. *)
Theorem C82_formats f : (exists p, plan_of f = Ok p) /\ (exists g, geolocation f = Ok g) /\ format_spec f <> None \/ plan_of f = Terminate /\ geolocation f = Terminate /\ format_spec f = None.
Proof.
  pose proof (plan_spec f) as P. unfold plan_matches in P. destruct (format_spec f) as [[[ims n] o]|].
  - left. destruct P as (p & EP & _ & _ & g & EG). split; [now exists p|]. split; [now exists g|discriminate].
  - right. destruct P. now split.
Qed.
Print Assumptions C82_formats.
(** The code comes from the label: whatever its content, the letter and the
    channels present. *)
Theorem C82_code b hs : List.length b = 24%nat -> exists l, read_label hs b = Ok l /\ match code_of b with Some f => format_code l = Ok f | None => format_code l = Terminate end.
Proof.
  intros L. destruct (read_label_ok hs b L) as (l & E & A1 & A2 & A3 & A4 & A5). exists l. split; [exact E|]. destruct (code_of b) as [f|] eqn:C; [now apply (format_code_ok b)|].
  unfold code_of, letter in C. unfold format_code. rewrite A1. destruct (nth 12 b 0 =? 0); [discriminate|]. destruct (nth 12 b 0 =? 255); [discriminate|]. destruct (nth 12 b 0 =? 15); [discriminate|]. reflexivity.
Qed.
Print Assumptions C82_code.
Example C82_case : format_spec "BIVH" <> None /\ format_spec "XIV" = None /\ plan_of "XIV" = Terminate.
Proof. repeat split. discriminate. Qed.

(** ** C83. Files that end early. *)
Theorem C83_refuted_missing_lines f pre h ds lb ims n o : format_spec f = Some (ims, n, o) -> code_of (hd_label h) = Some f -> header_ok h -> List.length pre = 512%nat ->
  Forall (dline_ok f false) ds -> (List.length ds <= n)%nat -> List.length lb = 2500%nat ->
  exists x, readfrom 4 LE false lb (file_bytes f false pre h ds []) = Ok x /\ List.length (h_images x) = List.length ims /\
    forall k fm b np nl, nth_error ims k = Some (fm, b) -> dims fm b = Some (np, nl) -> in_halves o k = false ->
      forall l p, Z.of_nat l < nl -> 0 <= p < np ->
        get_pixel (nth k (h_images x) no_image) (Z.of_nat l) p =
          Ok (Some (if (fst (source o (np / 2) k l p) <? List.length ds)%nat then sample ds (source o (np / 2) k l p) else 0)).
Proof.
  intros FS CO H LP FD LD LB. destruct (feeds_eof f (n - List.length ds) false) as [s' FE].
  pose proof (feeds_app f false ds _ _ _ _ (feeds_lines f false ds [] FD) FE) as FA.
  destruct (file_read f false pre h _ _ s' lb ims n o FS CO H LP FA) as (lab & interp & keys & images & geo & E & EL & EI & EG & KEYS & LI & PX).
  { rewrite app_length, repeat_length. lia. }
  { exact LB. }
  eexists. split; [exact E|]. cbn [h_images]. split; [exact LI|]. intros k fm b np nl E1 E2 IH l p L P. destruct (PX k fm b np nl E1 E2) as (_ & _ & G). rewrite G by assumption. do 2 f_equal. unfold actual. rewrite IH. cbn [option_map]. f_equal.
  unfold sample. destruct (Nat.ltb_spec (fst (source o (np / 2) k l p)) (List.length ds)) as [C|C].
  - now rewrite app_nth1 by exact C.
  - rewrite app_nth2 by exact C. destruct (Nat.lt_ge_cases (fst (source o (np / 2) k l p) - List.length ds) (n - List.length ds)) as [C2|C2].
    + rewrite nth_repeat_lt by exact C2. cbn [zero_line dl_data]. destruct (Nat.lt_ge_cases (Z.to_nat (snd (source o (np / 2) k l p))) (line_size f)); [now rewrite nth_repeat_lt|]. now rewrite nth_overflow by (rewrite repeat_length; lia).
    + rewrite (nth_overflow (repeat (zero_line f) _)) by (rewrite repeat_length; lia). cbn [dl_data]. now destruct (Z.to_nat (snd (source o (np / 2) k l p))).
Qed.
Print Assumptions C83_refuted_missing_lines.
(** TECNAVIA files with lines missing are refused. *)
Theorem C83_tecnavia_partial f pre h ds lb ims n o : format_spec f = Some (ims, n, o) -> code_of (hd_label h) = Some f -> header_ok h -> List.length pre = 512%nat ->
  Forall (dline_ok f true) ds -> (List.length ds < n)%nat -> List.length lb = 2500%nat ->
  readfrom 4 LE true lb (file_bytes f true pre h ds []) = Terminate.
Proof.
  intros FS CO H LP FD LD LB. unfold file_bytes.
  destruct (file_start f true pre h (List.concat (map (dline_bytes f true) ds) ++ []) lb ims n o FS CO H LP) as (lab & interp & keys & geo & im0 & -> & EL & EI & EG & KEYS & L0 & LI & IMP & W0 & FO & DIM).
  rewrite (run_short f _ ds); [reflexivity|now apply feeds_lines|now rewrite map_length, seq_length|exact LB|exact W0|exact FO].
Qed.
Print Assumptions C83_tecnavia_partial.
(** "BW" with 3 of its 625 lines: an image of 625 lines. *)
Example C83_case : header_ok (some_header (label_of 255 0 0 0 1)) /\ code_of (label_of 255 0 0 0 1) = Some "BW" /\ Forall (dline_ok "BW" false) (repeat (ramp_line 32 1250 158) 3).
Proof.
  split; [|split; [reflexivity|]].
  - destruct C81_case as [X _]. unfold header_ok, some_header in *. cbn [hd_label hd_seed hd_ident hd_interp hd_keys] in *. destruct X as (A & B & C & D & E & _ & F). do 5 (split; [first [assumption|reflexivity]|]). split; [repeat constructor; unfold is_byte; lia|exact F].
  - cbn [repeat]. repeat constructor.
Qed.

(** ** C84. The fields of the interpretation subframe: each lies inside it, and no
    two share a byte - except two. *)
Definition apart (a b : string * kind * nat) : bool := (snd a + width (snd (fst a)) <=? snd b)%nat || (snd b + width (snd (fst b)) <=? snd a)%nat.
Fixpoint pairwise {A} (r : A -> A -> bool) (l : list A) : bool := match l with [] => true | a :: l' => forallb (r a) l' && pairwise r l' end.
Lemma pairwise_nth {A} (r : A -> A -> bool) : forall l, pairwise r l = true -> forall i j a b, (i < j)%nat -> nth_error l i = Some a -> nth_error l j = Some b -> r a b = true.
Proof.
  induction l as [|x l IH]; intros P i j a b H I J; [destruct i; discriminate|]. cbn [pairwise] in P. apply andb_prop in P as [P1 P2]. destruct j as [|j]; [lia|]. cbn [nth_error] in J. destruct i as [|i]; cbn [nth_error] in I.
  - apply Some_inj in I. subst a. rewrite forallb_forall in P1. apply P1. now apply (nth_error_In l j).
  - apply (IH P2 i j a b); [lia|assumption..].
Qed.
Theorem C84_layout_partial : forall i j na ka oa nb kb ob, (i < j)%nat -> nth_error interp_table i = Some (na, ka, oa) -> nth_error interp_table j = Some (nb, kb, ob) ->
  (oa + width ka <= 1360)%nat /\ (na <> nb) /\ (na = "snmxwp_ir" \/ (oa + width ka <= ob)%nat \/ (ob + width kb <= oa)%nat).
Proof.
  intros i j na ka oa nb kb ob H I J. split; [|split].
  - pose proof (interp_inside 1360 (le_n _)) as F. rewrite Forall_forall in F. exact (F _ (nth_error_In _ _ I)).
  - assert (P : pairwise (fun a b => negb (fst (fst a) =? fst (fst b))%string) interp_table = true) by (vm_compute; reflexivity).
    pose proof (pairwise_nth _ _ P i j _ _ H I J) as N. cbn [fst] in N. intros ->. now rewrite String.eqb_refl in N.
  - assert (P : pairwise (fun a b => (fst (fst a) =? "snmxwp_ir")%string || apart a b) interp_table = true) by (vm_compute; reflexivity).
    pose proof (pairwise_nth _ _ P i j _ _ H I J) as N. unfold apart in N. cbn [fst snd] in N. apply orb_prop in N as [N|N]; [left; now apply String.eqb_eq|right]. apply orb_prop in N as [N|N]; apply Nat.leb_le in N; auto.
Qed.
Print Assumptions C84_layout_partial.
(** The infrared and the first visible maximum of the west part are the same two
    bytes; bytes 464 and 465 are read into nothing. *)
Theorem C84_refuted w hs buf t : read_interp w hs buf = Ok t ->
  exists v, In ("snmxwp_ir", v) t /\ In ("snmxwp_v1", v) t /\ read_field w hs buf I2 466 = Ok v.
Proof.
  intros E.
  assert (G : forall l t, read_fields w hs buf l = Ok t -> forall n k off, In (n, k, off) l -> exists v, read_field w hs buf k off = Ok v /\ In (n, v) t).
  { induction l as [|[[n k] off] l IH]; intros t' E' n' k' off' I; [contradiction|]. cbn [read_fields] in E'. destruct (read_field w hs buf k off) as [v| | | |] eqn:RV; try discriminate. cbn [bind] in E'. destruct (read_fields w hs buf l) as [vs| | | |] eqn:RS; try discriminate. cbn [bind] in E'. apply Ok_inj in E'. subst t'.
    destruct I as [I|I]; [injection I as <- <- <-; exists v; split; [exact RV|now left]|]. destruct (IH vs eq_refl n' k' off' I) as (v' & R' & I'). exists v'. split; [exact R'|now right]. }
  destruct (G interp_table t E "snmxwp_ir" I2 466%nat) as (v & RV & IV); [apply (nth_error_In interp_table 120); vm_compute; reflexivity|].
  destruct (G interp_table t E "snmxwp_v1" I2 466%nat) as (v' & RV' & IV'); [apply (nth_error_In interp_table 121); vm_compute; reflexivity|].
  exists v. split; [exact IV|]. split; [|exact RV]. congruence.
Qed.
Print Assumptions C84_refuted.
Example C84_case : exists v, read_interp 4 LE (repeat 0x41 1360) = Ok v /\ List.length v = List.length interp_table.
Proof. eexists. split; [vm_compute; reflexivity|reflexivity]. Qed.

(** ** C139. The geometry of a file is that of its images. *)
(** Pixels across the whole disk, by band: visible images have twice as many. *)
Definition disk_pixels (b : hband) : Z := match b with VIS_BAND => 5000 | _ => 2500 end.
(** The scaling factors are proportional to them; 18204444 is that of 5000 pixels. *)
Definition scale_fits (g : Z * Z * Z * Z) (b : hband) : Prop :=
  let '(cfac, lfac, _, _) := g in 5000 * - cfac = 18204444 * disk_pixels b /\ 5000 * - lfac = 18204444 * disk_pixels b.
(** In files of the whole disk (A formats) the offsets are its centre, to two pixels. *)
Definition centre_fits (g : Z * Z * Z * Z) (b : hband) : Prop :=
  let '(_, _, coff, loff) := g in Z.abs (2 * coff - disk_pixels b) <= 4 /\ Z.abs (2 * loff - disk_pixels b) <= 4.
Definition starts_with (c : Ascii.ascii) (f : string) : Prop := match f with String a _ => a = c | EmptyString => False end.
Ltac each_format f H := unfold format_spec in H;
  repeat match type of H with (if (f =? ?s)%string then _ else _) = _ => destruct (String.eqb_spec f s) as [->|?]; [|] end; [..|discriminate].
Theorem C139_geometry_partial f ims n o g : format_spec f = Some (ims, n, o) -> geolocation f = Ok g -> ~ starts_with "B" f ->
  Forall (fun i => scale_fits g (snd i)) ims /\ (starts_with "A" f -> Forall (fun i => centre_fits g (snd i)) ims).
Proof.
  intros H G NB. each_format f H; injection H as <- <- <-; cbn in G; injection G as <-; try (exfalso; apply NB; reflexivity).
  all: split; [repeat constructor; cbn; lia|]; intros SA; try (cbn in SA; discriminate SA); repeat constructor; cbn; lia.
Qed.
Print Assumptions C139_geometry_partial.
(** B files have the scale of visible images whatever they hold: infrared and water
    vapour images, alone or beside a visible one, are placed at half their scale. *)
Theorem C139_refuted_b f ims n o : format_spec f = Some (ims, n, o) -> starts_with "B" f ->
  exists g, geolocation f = Ok g /\ Forall (fun i => scale_fits g (snd i) <-> snd i = VIS_BAND) ims /\ Exists (fun i => snd i <> VIS_BAND) ims.
Proof.
  intros H SB. each_format f H; injection H as <- <- <-; try (cbn in SB; discriminate SB).
  all: eexists; split; [reflexivity|]; split; [repeat (apply Forall_cons; [cbn; split; [intros [Q1 Q2]; (reflexivity || (exfalso; lia))|intros Q; (discriminate Q || lia)]|]); apply Forall_nil|].
  all: constructor; discriminate.
Qed.
Print Assumptions C139_refuted_b.
Example C139_case : exists ims n o, format_spec "AIVH" = Some (ims, n, o) /\ ~ starts_with "B" "AIVH" /\ starts_with "B" "BIW" /\ format_spec "BIW" <> None.
Proof. do 3 eexists. split; [reflexivity|]. split; [discriminate|]. split; [reflexivity|discriminate]. Qed.
