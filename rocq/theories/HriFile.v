(** Proofs about reading whole HRI files. *)
From Verif Require Import BaseFacts MachineModel MachineProofs HriImageModel HriImageSpec HriImageProofs HriFloatModel HriFloatSpec HriFloatProofs HriFloatProps HriModel HriSpec HriProofs.
From Coq Require Import QArith.
#[local] Open Scope string_scope.
#[local] Open Scope list_scope.
#[local] Open Scope Z_scope.

(** ** The loop over the data lines *)
Definition wr_of (l : nat) (p : part) (c : list Z) : write :=
  match p with All => Whole (Z.of_nat l) c | First => Half (Z.of_nat l) c true | Second => Half (Z.of_nat l) c false end.
Fixpoint writes (k : nat) (ops : list (nat * nat * part)) (ds : list dline) : list write :=
  match ops, ds with
  | (k', l, p) :: ops', d :: ds' => (if (k' =? k)%nat then [wr_of l p (dl_data d)] else []) ++ writes k ops' ds'
  | _, _ => []
  end.
Definition op_fits (size : nat) (ims : list image) (op : nat * nat * part) : Prop :=
  let '(k, l, p) := op in
  let im := nth k ims no_image in
  (k < List.length ims)%nat /\ 0 <= Z.of_nat l < nlines im /\ (match p with All => npixels im | _ => halflin im end) = Z.of_nat size.
Lemma store_prefix m off c x n : n = Z.of_nat (List.length c) -> store m off (c ++ x) n = store m off c n.
Proof.
  intros ->. unfold store. destruct ((off <? 0) || _); [reflexivity|]. rewrite Nat2Z.id. rewrite !bytes_at_ok by (rewrite ?app_length; lia). cbn [bind]. rewrite !skipn_O, firstn_app_exact, firstn_all by reflexivity. reflexivity.
Qed.
Lemma put_part_step im c x l p : wf im -> 0 <= Z.of_nat l < nlines im -> (match p with All => npixels im | _ => halflin im end) = Z.of_nat (List.length c) ->
  exists im', put_part im (c ++ x) l p = Ok im' /\ wf im' /\ npixels im' = npixels im /\ nlines im' = nlines im /\ halflin im' = halflin im /\
    forall ws, put_all im (wr_of l p c :: ws) = put_all im' ws.
Proof.
  intros W L S. assert (H2 : npixels im / 2 = halflin im) by (destruct W as (_ & N & _); lia). destruct p; cbn [put_part wr_of].
  - destruct (put_line_ok im c (Z.of_nat l) W L) as (im' & E & R); [lia|]. exists im'.
    assert (E' : put_line im (c ++ x) (npixels im) (Z.of_nat l) = Ok im') by (unfold put_line in *; rewrite store_prefix by lia; exact E).
    split; [exact E'|]. destruct R as (W' & A & B & C & _). do 4 (split; [assumption|]). intros ws. cbn [put_all]. now rewrite E.
  - destruct (put_half_ok im c (Z.of_nat l) true W L) as (im' & E & R); [lia|]. exists im'. rewrite H2.
    assert (E' : put_halfline im (c ++ x) (halflin im) (Z.of_nat l) true = Ok im') by (unfold put_halfline in *; rewrite store_prefix by lia; exact E).
    split; [exact E'|]. destruct R as (W' & A & B & C & _). do 4 (split; [assumption|]). intros ws. cbn [put_all]. now rewrite E.
  - destruct (put_half_ok im c (Z.of_nat l) false W L) as (im' & E & R); [lia|]. exists im'. rewrite H2.
    assert (E' : put_halfline im (c ++ x) (halflin im) (Z.of_nat l) false = Ok im') by (unfold put_halfline in *; rewrite store_prefix by lia; exact E).
    split; [exact E'|]. destruct R as (W' & A & B & C & _). do 4 (split; [assumption|]). intros ws. cbn [put_all]. now rewrite E.
Qed.
Lemma line_size_le f : (line_size f <= 2500)%nat.
Proof. unfold line_size. destruct (is_a f); lia. Qed.
(** Reading from [s] gives these data lines, one by one. *)
Fixpoint feeds (f : string) (tec : bool) (s : stream) (ds : list dline) (s' : stream) : Prop :=
  match ds with
  | [] => s = s'
  | d :: ds' => List.length (dl_data d) = line_size f /\ exists s1,
      (forall lb, List.length lb = 2500%nat -> dataline tec LE (frame_id f) s lb = Ok (dl_data d ++ skipn (line_size f) lb, s1)) /\ feeds f tec s1 ds' s'
  end.
Lemma feeds_lines f tec ds : forall r, Forall (dline_ok f tec) ds -> feeds f tec (mk_stream (List.concat (map (dline_bytes f tec) ds) ++ r) false) ds (mk_stream r false).
Proof.
  induction ds as [|d ds IH]; intros r F; cbn [feeds map List.concat app]; [reflexivity|]. inversion F as [|? ? D F']; subst. split; [apply D|]. eexists. rewrite <- app_assoc. split; [|apply IH; exact F'].
  intros lb L. now apply dataline_ok.
Qed.
Lemma feeds_app f tec a : forall b s s1 s2, feeds f tec s a s1 -> feeds f tec s1 b s2 -> feeds f tec s (a ++ b) s2.
Proof.
  induction a as [|d a IH]; intros b s s1 s2 A B; cbn [feeds app] in *; [now subst|]. destruct A as (L & s0 & E & A). split; [exact L|]. exists s0. split; [exact E|]. now apply (IH b s0 s1).
Qed.
Lemma run_body_ok f tec : forall ops ds s s' lb ims, feeds f tec s ds s' -> List.length ds = List.length ops -> List.length lb = 2500%nat ->
  Forall wf ims -> Forall (op_fits (line_size f) ims) ops ->
  exists lb' ims', run_body tec LE (frame_id f) ops (mk_state s lb ims) = Ok (mk_state s' lb' ims') /\
    List.length lb' = 2500%nat /\ List.length ims' = List.length ims /\
    forall k, (k < List.length ims)%nat -> put_all (nth k ims no_image) (writes k ops ds) = Ok (nth k ims' no_image).
Proof.
  induction ops as [|[[k l] p] ops IH]; intros [|d ds] s s' lb ims FD L LB FW FO; try discriminate.
  - exists lb, ims. cbn [run_body writes put_all feeds] in *. subst s'. repeat split; auto.
  - cbn [feeds] in FD. destruct FD as (D & s1 & DL & FD'). inversion FO as [|? ? O FO']; subst. cbn [run_body st_stream st_buf st_images].
    rewrite DL by assumption. cbn [bind]. cbn [op_fits] in O. destruct O as (K & LL & SZ).
    assert (WK : wf (nth k ims no_image)) by (rewrite Forall_forall in FW; apply FW, nth_In, K).
    destruct (put_part_step (nth k ims no_image) (dl_data d) (skipn (line_size f) lb) l p WK LL) as (im' & E & W' & A & B & C & PA); [rewrite D; exact SZ|].
    rewrite E. cbn [bind].
    assert (NTH : forall j, nth j (set_nth ims k im') no_image = if (k =? j)%nat then im' else nth j ims no_image).
    { intros j. destruct (Nat.eqb_spec k j) as [<-|N]; [now rewrite set_nth_same|now rewrite set_nth_other]. }
    destruct (IH ds s1 s' (dl_data d ++ skipn (line_size f) lb) (set_nth ims k im')) as (lb2 & ims2 & E2 & LB2 & LI2 & P2).
    + exact FD'.
    + cbn in L. lia.
    + rewrite app_length, skipn_length, D. pose proof (line_size_le f). lia.
    + apply Forall_forall. intros x I. apply (In_nth _ _ no_image) in I as (j & J & <-). rewrite set_nth_length in J. rewrite NTH. destruct (k =? j)%nat; [exact W'|]. rewrite Forall_forall in FW. now apply FW, nth_In.
    + apply Forall_forall. intros [[k2 l2] p2] I. rewrite Forall_forall in FO'. specialize (FO' _ I). unfold op_fits in *. rewrite set_nth_length, NTH. destruct (Nat.eqb_spec k k2) as [<-|]; [|exact FO']. destruct p2; rewrite ?A, ?B, ?C; exact FO'.
    + exists lb2, ims2. rewrite E2. split; [reflexivity|]. split; [exact LB2|]. split; [now rewrite LI2, set_nth_length|]. intros j J. cbn [writes].
      specialize (P2 j). rewrite set_nth_length, NTH in P2. revert P2. destruct (Nat.eqb_spec k j) as [EQ|N]; intros P2; cbn [app]; [rewrite <- EQ in *; rewrite PA|]; apply P2; exact J.
Qed.
Lemma run_body_app tec hs id a b : forall x, run_body tec hs id (a ++ b) x = let! x := run_body tec hs id a x in run_body tec hs id b x.
Proof.
  induction a as [|[[k l] p] a IH]; intros x; cbn [run_body app]; [reflexivity|]. destruct (dataline tec hs id (st_stream x) (st_buf x)) as [[lb s]| | | |]; cbn [bind]; try reflexivity.
  destruct (put_part _ lb l p); cbn [bind]; try reflexivity. apply IH.
Qed.
Lemma run_turns_body tec hs id body : forall n i x, run_turns tec hs id body i n x = run_body tec hs id (flat_map body (seq i n)) x.
Proof.
  induction n as [|n IH]; intros i x; cbn [run_turns seq flat_map]; [reflexivity|]. rewrite run_body_app. destruct (run_body tec hs id (body i) x); cbn [bind]; try reflexivity. apply IH.
Qed.

(** The data line [j] of each order. *)
Definition op_at (o : HriSpec.order) (j : nat) : nat * nat * part :=
  match o with
  | Turns k => ((j mod k)%nat, (j / k)%nat, All)
  | VisHalves => (0%nat, (j / 2)%nat, if Nat.even j then First else Second)
  | IrVisHalves => if (j mod 5 =? 0)%nat then (0%nat, (j / 5)%nat, All)
                   else (1%nat, (2 * (j / 5) + (j mod 5 - 1) / 2)%nat, if Nat.even (j mod 5) then Second else First)
  end.
Lemma even_mod j : Nat.even j = (j mod 2 =? 0)%nat.
Proof.
  pose proof (Nat.div_mod_eq j 2) as D. rewrite D at 1. rewrite Nat.add_comm, Nat.even_add_mul_2. assert (H : (j mod 2 < 2)%nat) by (apply Nat.mod_upper_bound; lia).
  destruct (j mod 2)%nat as [|[|n]]; try reflexivity. lia.
Qed.
Lemma flat_seq (body : nat -> list (nat * nat * part)) op m : (forall i, body i = map op (seq (m * i) m)) -> forall n i, flat_map body (seq i n) = map op (seq (m * i) (m * n)).
Proof.
  intros H. induction n as [|n IH]; intros i; cbn [seq flat_map]; [now rewrite Nat.mul_0_r|]. rewrite IH, H, <- map_app. replace (m * S i)%nat with (m * i + m)%nat by lia. rewrite <- seq_app. do 2 f_equal. lia.
Qed.
Lemma body_one i : [(0%nat, i, All)] = map (op_at (Turns 1)) (seq (1 * i) 1).
Proof. cbn [seq map op_at]. rewrite Nat.mod_1_r, Nat.div_1_r, Nat.mul_1_l. reflexivity. Qed.
Lemma body_two i : [(0%nat, i, All); (1%nat, i, All)] = map (op_at (Turns 2)) (seq (2 * i) 2).
Proof. cbn [seq map op_at]. repeat f_equal; lia. Qed.
Lemma body_halves i : halves 0 i = map (op_at VisHalves) (seq (4 * i) 4).
Proof.
  cbn [seq map op_at halves]. rewrite !even_mod. replace ((4 * i) mod 2)%nat with 0%nat by lia. replace (S (4 * i) mod 2)%nat with 1%nat by lia. replace (S (S (4 * i)) mod 2)%nat with 0%nat by lia. replace (S (S (S (4 * i))) mod 2)%nat with 1%nat by lia.
  cbn [Nat.eqb]. unfold halves. replace (4 * i / 2)%nat with (i * 2)%nat by lia. replace (S (4 * i) / 2)%nat with (i * 2)%nat by lia. replace (S (S (4 * i)) / 2)%nat with (i * 2 + 1)%nat by lia. replace (S (S (S (4 * i))) / 2)%nat with (i * 2 + 1)%nat by lia. reflexivity.
Qed.
Lemma body_irvis i : (0%nat, i, All) :: halves 1 i = map (op_at IrVisHalves) (seq (5 * i) 5).
Proof.
  cbn [seq map op_at]. replace ((5 * i) mod 5)%nat with 0%nat by lia. replace (S (5 * i) mod 5)%nat with 1%nat by lia. replace (S (S (5 * i)) mod 5)%nat with 2%nat by lia. replace (S (S (S (5 * i))) mod 5)%nat with 3%nat by lia. replace (S (S (S (S (5 * i)))) mod 5)%nat with 4%nat by lia.
  cbn [Nat.eqb Nat.even]. unfold halves. change ((1 - 1) / 2)%nat with 0%nat. change ((2 - 1) / 2)%nat with 0%nat. change ((3 - 1) / 2)%nat with 1%nat. change ((4 - 1) / 2)%nat with 1%nat. replace (5 * i / 5)%nat with i by lia. replace (S (5 * i) / 5)%nat with i by lia. replace (S (S (5 * i)) / 5)%nat with i by lia. replace (S (S (S (5 * i))) / 5)%nat with i by lia. replace (S (S (S (S (5 * i)))) / 5)%nat with i by lia. rewrite Nat.add_0_r, (Nat.mul_comm 2 i). reflexivity.
Qed.

(** Plans and the specification of formats. *)
Definition plan_matches (f : string) : Prop := match format_spec f with
  | Some (ims, n, o) => exists p, plan_of f = Ok p /\ p_images p = ims /\ flat_map (p_body p) (seq 0 (p_turns p)) = map (op_at o) (seq 0 n) /\ (exists g, geolocation f = Ok g)
  | None => plan_of f = Terminate /\ geolocation f = Terminate
  end.
Lemma plan_matches_intro f ims n o t body m : format_spec f = Some (ims, n, o) -> plan_of f = Ok (mk_plan ims t body) -> (exists g, geolocation f = Ok g) ->
  (forall i, body i = map (op_at o) (seq (m * i) m)) -> n = (m * t)%nat -> plan_matches f.
Proof.
  intros F P G B N. unfold plan_matches. rewrite F, P. exists (mk_plan ims t body). cbn [p_images p_body p_turns]. repeat split; try assumption. rewrite N, (flat_seq body _ m B t 0). now rewrite Nat.mul_0_r.
Qed.
Definition formats : list string := ["AV"; "AVH"; "AW"; "AIW"; "AIVH"; "BW"; "BIV"; "BIVH"; "BIW"; "XI"; "XW"; "XVH"].
Lemma plan_known f : In f formats -> plan_matches f.
Proof.
  unfold formats. cbn [In]. intros I.
  repeat match type of I with _ \/ _ => destruct I as [<-|I] end; [..|destruct I].
  - eapply (plan_matches_intro _ _ _ _ _ _ 4); [reflexivity|reflexivity|eexists; reflexivity|apply body_halves|lia].
  - eapply (plan_matches_intro _ _ _ _ _ _ 1); [reflexivity|reflexivity|eexists; reflexivity|apply body_one|lia].
  - eapply (plan_matches_intro _ _ _ _ _ _ 1); [reflexivity|reflexivity|eexists; reflexivity|apply body_one|lia].
  - eapply (plan_matches_intro _ _ _ _ _ _ 2); [reflexivity|reflexivity|eexists; reflexivity|apply body_two|lia].
  - eapply (plan_matches_intro _ _ _ _ _ _ 2); [reflexivity|reflexivity|eexists; reflexivity|apply body_two|lia].
  - eapply (plan_matches_intro _ _ _ _ _ _ 1); [reflexivity|reflexivity|eexists; reflexivity|apply body_one|lia].
  - eapply (plan_matches_intro _ _ _ _ _ _ 5); [reflexivity|reflexivity|eexists; reflexivity|apply body_irvis|lia].
  - eapply (plan_matches_intro _ _ _ _ _ _ 5); [reflexivity|reflexivity|eexists; reflexivity|apply body_irvis|lia].
  - eapply (plan_matches_intro _ _ _ _ _ _ 2); [reflexivity|reflexivity|eexists; reflexivity|apply body_two|lia].
  - eapply (plan_matches_intro _ _ _ _ _ _ 1); [reflexivity|reflexivity|eexists; reflexivity|apply body_one|lia].
  - eapply (plan_matches_intro _ _ _ _ _ _ 1); [reflexivity|reflexivity|eexists; reflexivity|apply body_one|lia].
  - eapply (plan_matches_intro _ _ _ _ _ _ 1); [reflexivity|reflexivity|eexists; reflexivity|apply body_one|lia].
Qed.
Lemma plan_spec f : plan_matches f.
Proof.
  destruct (in_dec string_dec f formats) as [I|N]; [now apply plan_known|].
  assert (A : forall x, In x formats -> (f =? x)%string = false) by (intros x I; apply String.eqb_neq; intros ->; contradiction).
  assert (H : forall x, In x formats <-> existsb (String.eqb x) formats = true).
  { intros x. rewrite existsb_exists. split; [intros I; exists x; split; [exact I|apply String.eqb_refl]|]. intros (y & I & E). apply String.eqb_eq in E. now subst. }
  unfold plan_matches, format_spec, plan_of, geolocation, one_of. cbn [existsb].
  rewrite !A by (apply H; reflexivity). cbn [orb]. split; reflexivity.
Qed.

(** ** Headers *)
Definition width (k : kind) : nat :=
  match k with C6 => 6 | C3 | CF3 | I3 => 3 | C5 | CF5 => 5 | I2c | I2 => 2 | R8 => 8 | R4 | I4 => 4 | B1 => 1 end.
Ltac take_bytes L := repeat match goal with |- context [match ?b with [] => UB | _ => _ end] => destruct b; [cbn [List.length] in L; exfalso; lia|cbn [List.length] in L] end.
Lemma read_field_ok hs buf k off : bytes_ok buf -> (off + width k <= List.length buf)%nat -> exists v, read_field 4 hs buf k off = Ok v.
Proof.
  intros B L. assert (LS : (width k <= List.length (skipn off buf))%nat) by (rewrite skipn_length; lia). pose proof (bytes_ok_skipn off buf B) as BS.
  unfold read_field. destruct k; cbn [width] in *; try (unfold r4_from_char6, r4_from_char3, r4f_from_char3, r4_from_char5, r4f_from_char5, i2_from_char3, i2_from_char2; take_bytes LS; cbn [bind]; eexists; reflexivity).
  - destruct (proj2 (C79_total hs _ BS) LS) as (hi & lo & ->). cbn [bind]. eexists; reflexivity.
  - destruct (proj1 (C79_total hs _ BS) LS) as (v & ->). cbn [bind]. eexists; reflexivity.
  - unfold i4_from_buff. rewrite bytes_at_ok by lia. cbn [bind]. eexists; reflexivity.
  - unfold i2_from_buff. rewrite bytes_at_ok by lia. cbn [bind]. eexists; reflexivity.
  - unfold rd1. destruct (nth_error buf off) as [v|] eqn:N; [cbn [bind]; eexists; reflexivity|]. apply nth_error_None in N. lia.
Qed.
Lemma read_fields_ok hs buf t : bytes_ok buf -> Forall (fun e => (snd e + width (snd (fst e)) <= List.length buf)%nat) t -> exists v, read_fields 4 hs buf t = Ok v.
Proof.
  intros B. induction t as [|[[n k] off] t IH]; intros F; cbn [read_fields]; [now eexists|]. inversion F as [|? ? F1 F2]; subst. cbn [fst snd] in F1. destruct (read_field_ok hs buf k off B F1) as [v ->]. cbn [bind]. destruct (IH F2) as [vs ->]. cbn [bind]. now eexists.
Qed.
Lemma interp_inside n : (1360 <= n)%nat -> Forall (fun e => (snd e + width (snd (fst e)) <= n)%nat) interp_table.
Proof.
  intros H. assert (A : Forall (fun e => (snd e + width (snd (fst e)) <= 1360)%nat) interp_table).
  { apply Forall_forall. intros e I. apply Nat.leb_le. revert e I. apply forallb_forall. vm_compute. reflexivity. }
  eapply Forall_impl; [|exact A]. cbn beta. lia.
Qed.
Lemma read_interp_ok hs buf : bytes_ok buf -> List.length buf = 1360%nat -> exists v, read_interp 4 hs buf = Ok v.
Proof. intros B L. apply read_fields_ok; [exact B|]. apply interp_inside. lia. Qed.
Lemma read_label_ok hs b : List.length b = 24%nat -> exists l, read_label hs b = Ok l /\ l_format l = nth 12 b 0 /\ l_viss l = nth 13 b 0 /\ l_visn l = nth 14 b 0 /\ l_ir l = nth 15 b 0 /\ l_wv l = nth 16 b 0.
Proof.
  intros L. do 24 (destruct b as [|? b]; [discriminate|]). destruct b; [|discriminate]. eexists. split; [reflexivity|]. repeat split.
Qed.
Lemma format_code_ok b l f : l_format l = nth 12 b 0 -> l_viss l = nth 13 b 0 -> l_visn l = nth 14 b 0 -> l_ir l = nth 15 b 0 -> l_wv l = nth 16 b 0 ->
  code_of b = Some f -> format_code l = Ok f.
Proof.
  unfold format_code, code_of, letter. intros -> -> -> -> ->. destruct (nth 12 b 0 =? 0); [|destruct (nth 12 b 0 =? 255); [|destruct (nth 12 b 0 =? 15); [|discriminate]]]; cbn [bind]; intros H; apply Some_inj in H; subst f;
  destruct (Z.eqb_spec (nth 13 b 0) 0) as [E13|], (Z.eqb_spec (nth 14 b 0) 0) as [E14|]; rewrite ?E13, ?E14; destruct (nth 15 b 0 =? 0), (nth 16 b 0 =? 0); cbn; try reflexivity;
  destruct (nth 13 b 0 =? 255), (nth 14 b 0 =? 255); reflexivity.
Qed.
Lemma read_satellite_ok b : List.length b = 48%nat -> bytes_ok b -> (nth 0 b 0 = 212 \/ nth 0 b 0 = 0 /\ nth 1 b 0 < 4) -> read_satellite b = Ok (nth 0 b 0, nth 1 b 0).
Proof.
  intros L B H. unfold read_satellite. rewrite bytes_at_ok by lia. cbn [bind]. do 2 (destruct b as [|? b]; [discriminate|]). cbn [skipn firstn nth] in *.
  assert (0 <= z0) by (inversion B as [|? ? ? B']; inversion B' as [|? ? [? ?]]; subst; assumption).
  destruct (Z.eqb_spec z 212); [reflexivity|]. destruct H as [|[-> H]]; [contradiction|]. cbn [Z.eqb andb].
  destruct (Z.eqb_spec z0 0); [reflexivity|]. destruct (Z.eqb_spec z0 1); [reflexivity|]. destruct (Z.eqb_spec z0 2); [reflexivity|]. destruct (Z.eqb_spec z0 3); [reflexivity|]. lia.
Qed.
Lemma chop4 p : chop 4 p = [firstn 360 p; firstn 360 (skipn 360 p); firstn 360 (skipn 360 (skipn 360 p)); firstn 360 (skipn 360 (skipn 360 (skipn 360 p)))].
Proof. reflexivity. Qed.
Lemma framed4 id p : framed id 4 p = frame id (firstn 360 p) ++ frame id (firstn 360 (skipn 360 p)) ++ frame id (firstn 360 (skipn 360 (skipn 360 p))) ++ frame id (firstn 360 (skipn 360 (skipn 360 (skipn 360 p)))).
Proof. unfold framed. rewrite chop4. cbn [map List.concat]. now rewrite app_nil_r. Qed.
Lemma skipn_firstn_prefix {A} (a b : list A) n m : List.length a = n -> List.length b = m -> forall c, firstn m (skipn n (a ++ b ++ c)) = b.
Proof. intros <- <- c. rewrite skipn_app_exact, firstn_app_exact by reflexivity. reflexivity. Qed.
Lemma firstn_skipn_le {A} (l : list A) n m k : (n + m <= k)%nat -> firstn n (skipn m (firstn k l)) = firstn n (skipn m l).
Proof. intros H. rewrite skipn_firstn_comm, firstn_firstn, Nat.min_l by lia. reflexivity. Qed.
Definition hd_parts (h : header) := hd_label h ++ hd_seed h ++ hd_ident h ++ hd_interp h.
Lemma hd_at h : header_ok h -> List.length (hd_parts h) = 1440%nat /\ firstn 24 (skipn 0 (hd_parts h)) = hd_label h /\ firstn 8 (skipn 24 (hd_parts h)) = hd_seed h /\ firstn 48 (skipn 32 (hd_parts h)) = hd_ident h /\ skipn 80 (hd_parts h) = hd_interp h.
Proof.
  intros (L1 & L2 & L3 & L4 & _). unfold hd_parts. split; [rewrite !app_length; lia|]. split; [rewrite skipn_O; apply firstn_app_exact; lia|]. split; [now apply skipn_firstn_prefix|]. split.
  - rewrite (app_assoc (hd_label h)). apply skipn_firstn_prefix; [rewrite app_length; lia|exact L3].
  - rewrite 2!app_assoc. apply skipn_app_exact. rewrite !app_length. lia.
Qed.
Lemma read_head_ok f tec pre h r : header_ok h -> List.length pre = 512%nat ->
  exists lab interp, read_head 4 LE tec (mk_stream (head_bytes f tec pre h ++ r) false) =
    Ok (frame_id f, lab, hd_seed h, (nth 0 (hd_ident h) 0, nth 1 (hd_ident h) 0), interp,
        mk_stream ((if is_a f then (if tec then skipn 92 (hd_keys h) ++ repeat 0 188 else framed (frame_id f) 4 (hd_keys h)) else []) ++ r) false) /\
    read_label LE (hd_label h) = Ok lab /\ read_interp 4 LE (hd_interp h) = Ok interp.
Proof.
  intros H LP. destruct (hd_at h H) as (PL & P1 & P2 & P3 & P4). pose proof H as (L1 & L2 & L3 & L4 & L5 & B1 & B2 & B3 & B4 & B5 & SAT).
  destruct (read_label_ok LE (hd_label h) L1) as (lab & EL & _). destruct (read_interp_ok LE (hd_interp h) B4 L4) as (interp & EI). exists lab, interp. split; [|now split].
  unfold read_head, head_bytes. destruct tec.
  - fold (hd_parts h). set (rest := if is_a f then _ else []). unfold mod_getbuff. rewrite <- !app_assoc. 
    assert (LK : List.length (firstn 92 (hd_keys h)) = 92%nat) by (rewrite firstn_length; lia).
    replace (pre ++ [5; 12; 223; frame_id f] ++ hd_parts h ++ firstn 92 (hd_keys h) ++ rest ++ r) with ((pre ++ [5; 12; 223; frame_id f] ++ (hd_parts h ++ firstn 92 (hd_keys h))) ++ rest ++ r) by (rewrite <- !app_assoc; reflexivity).
    assert (LN : List.length (pre ++ [5; 12; 223; frame_id f] ++ hd_parts h ++ firstn 92 (hd_keys h)) = 2048%nat) by (rewrite !app_length, LP, PL, LK; reflexivity).
    rewrite (getbuff_n_good 2048 512 pre (frame_id f) _ _ LP LN). cbn [bind].
    assert (AT : forall a n, (4 <= a)%nat -> (a - 4 + n <= 1440)%nat -> bytes_at (pre ++ [5; 12; 223; frame_id f] ++ hd_parts h ++ firstn 92 (hd_keys h)) (a + 512) n = Ok (firstn n (skipn (a - 4) (hd_parts h)))).
    { intros a n A N. rewrite bytes_at_ok by (rewrite LN; lia). f_equal. rewrite <- skipn_skipn, skipn_app_exact by (symmetry; exact LP).
      replace a with ((a - 4) + 4)%nat at 1 by lia. rewrite <- skipn_skipn. cbn [app skipn]. rewrite skipn_app, firstn_app. replace (n - List.length (skipn (a - 4) (hd_parts h)))%nat with 0%nat by (rewrite skipn_length; lia). cbn [firstn]. now rewrite app_nil_r. }
    assert (ID : rd1 (pre ++ [5; 12; 223; frame_id f] ++ hd_parts h ++ firstn 92 (hd_keys h)) (3 + 512) = Ok (frame_id f)).
    { unfold rd1. rewrite nth_error_app2 by lia. rewrite LP. reflexivity. }
    rewrite ID. cbn [bind]. rewrite (AT 4%nat 24%nat) by lia. change (4 - 4)%nat with 0%nat. rewrite P1. cbn [bind]. rewrite EL. cbn [bind].
    rewrite (AT 28%nat 8%nat) by lia. change (28 - 4)%nat with 24%nat. rewrite P2. cbn [bind].
    rewrite (AT 36%nat 48%nat) by lia. change (36 - 4)%nat with 32%nat. rewrite P3. cbn [bind]. rewrite read_satellite_ok by assumption. cbn [bind].
    rewrite (AT 84%nat 1360%nat) by lia. change (84 - 4)%nat with 80%nat. rewrite P4. rewrite firstn_all2 by lia. cbn [bind]. rewrite EI. cbn [bind]. reflexivity.
  - fold (hd_parts h). rewrite framed4, <- !app_assoc.
    assert (C0 : List.length (firstn 360 (hd_parts h)) = 360%nat) by (rewrite firstn_length; lia).
    assert (C1 : List.length (firstn 360 (skipn 360 (hd_parts h))) = 360%nat) by (rewrite firstn_length, !skipn_length; lia).
    assert (C2 : List.length (firstn 360 (skipn 360 (skipn 360 (hd_parts h)))) = 360%nat) by (rewrite firstn_length, !skipn_length; lia).
    assert (C3 : List.length (firstn 360 (skipn 360 (skipn 360 (skipn 360 (hd_parts h))))) = 360%nat) by (rewrite firstn_length, !skipn_length; lia).
    rewrite getbuff_frame by exact C0. cbn [bind]. change (rd1 (frame (frame_id f) (firstn 360 (hd_parts h))) 3) with (Ok (frame_id f)). cbn [bind].
    rewrite (frame_piece _ _ 4 24 C0) by lia. rewrite firstn_skipn_le by lia. change (4 - 4)%nat with 0%nat. rewrite P1. cbn [bind]. rewrite EL. cbn [bind].
    rewrite (frame_piece _ _ 28 8 C0) by lia. rewrite firstn_skipn_le by lia. change (28 - 4)%nat with 24%nat. rewrite P2. cbn [bind].
    rewrite (frame_piece _ _ 36 48 C0) by lia. rewrite firstn_skipn_le by lia. change (36 - 4)%nat with 32%nat. rewrite P3. cbn [bind]. rewrite read_satellite_ok by assumption. cbn [bind].
    rewrite (frame_piece _ _ 84 280 C0) by lia. rewrite firstn_skipn_le by lia. change (84 - 4)%nat with 80%nat. rewrite P4. cbn [bind].
    rewrite getbuff_frame by exact C1. cbn [bind]. rewrite (frame_piece _ _ 4 360 C1) by lia. cbn [bind].
    rewrite getbuff_frame by exact C2. cbn [bind]. rewrite (frame_piece _ _ 4 360 C2) by lia. cbn [bind].
    rewrite getbuff_frame by exact C3. cbn [bind]. rewrite (frame_piece _ _ 4 360 C3) by lia. cbn [bind].
    change (4 - 4)%nat with 0%nat. rewrite !skipn_O. rewrite !firstn_firstn. change (Nat.min 360 360) with 360%nat.
    assert (EC : firstn 280 (hd_interp h) ++ firstn 360 (skipn 360 (hd_parts h)) ++ firstn 360 (skipn 360 (skipn 360 (hd_parts h))) ++ firstn 360 (skipn 360 (skipn 360 (skipn 360 (hd_parts h)))) = hd_interp h).
    { replace (skipn 360 (hd_parts h)) with (skipn 280 (hd_interp h)) by (rewrite <- P4, skipn_skipn; reflexivity).
      rewrite (firstn_all2 (skipn 360 (skipn 360 (skipn 280 (hd_interp h))))) by (rewrite !skipn_length; lia). now rewrite !firstn_skipn. }
    rewrite EC, EI. cbn [bind]. destruct (is_a f); reflexivity.
Qed.
Lemma read_keys_total b : List.length b = 1440%nat -> exists ks, read_keys b = Ok ks.
Proof.
  intros L. unfold read_keys. assert (G : forall n i, ((i + n) * 12 <= List.length b)%nat -> exists ks, read_slots b i n = Ok ks).
  { induction n as [|n IH]; intros i H; cbn [read_slots]; [now eexists|]. assert (exists k, read_slot b i = Ok k) as [k ->].
    { unfold read_slot. rewrite bytes_at_ok by lia. cbn [bind]. assert (LL : List.length (firstn 12 (skipn (i * 12) b)) = 12%nat) by (rewrite firstn_length, skipn_length; lia).
      destruct (firstn 12 (skipn (i * 12) b)) as [|z l]; [discriminate|]. do 11 (destruct l as [|? l]; [discriminate|]). destruct l; [|discriminate]. destruct (z =? 0); now eexists. }
    cbn [bind]. destruct (IH (S i)) as [ks ->]; [lia|]. cbn [bind]. now eexists. }
  apply G. lia.
Qed.
Lemma get_four_ok id p r : List.length p = 1440%nat -> get_four LE (mk_stream (framed id 4 p ++ r) false) = Ok (p, mk_stream r false).
Proof.
  intros L. rewrite framed4, <- !app_assoc. unfold get_four.
  assert (C0 : List.length (firstn 360 p) = 360%nat) by (rewrite firstn_length; lia).
  assert (C1 : List.length (firstn 360 (skipn 360 p)) = 360%nat) by (rewrite firstn_length, !skipn_length; lia).
  assert (C2 : List.length (firstn 360 (skipn 360 (skipn 360 p))) = 360%nat) by (rewrite firstn_length, !skipn_length; lia).
  assert (C3 : List.length (firstn 360 (skipn 360 (skipn 360 (skipn 360 p)))) = 360%nat) by (rewrite firstn_length, !skipn_length; lia).
  rewrite getbuff_frame by exact C0. cbn [bind]. rewrite (frame_piece _ _ 4 360 C0) by lia. cbn [bind].
  rewrite getbuff_frame by exact C1. cbn [bind]. rewrite (frame_piece _ _ 4 360 C1) by lia. cbn [bind].
  rewrite getbuff_frame by exact C2. cbn [bind]. rewrite (frame_piece _ _ 4 360 C2) by lia. cbn [bind].
  rewrite getbuff_frame by exact C3. cbn [bind]. rewrite (frame_piece _ _ 4 360 C3) by lia. cbn [bind].
  change (4 - 4)%nat with 0%nat. rewrite !skipn_O. rewrite !firstn_firstn. change (Nat.min 360 360) with 360%nat.
  rewrite (firstn_all2 (skipn 360 (skipn 360 (skipn 360 p)))) by (rewrite !skipn_length; lia). now rewrite !firstn_skipn.
Qed.
Lemma read_keyblock_ok f tec h r : header_ok h ->
  exists ks, read_keyblock LE tec (frame_id f) (mk_stream ((if is_a f then (if tec then skipn 92 (hd_keys h) ++ repeat 0 188 else framed (frame_id f) 4 (hd_keys h)) else []) ++ r) false) =
    Ok (ks, false, mk_stream r false) /\
    (if is_a f && negb tec then exists k, ks = Some k /\ read_keys (hd_keys h) = Ok k else ks = None).
Proof.
  intros (L1 & L2 & L3 & L4 & L5 & _). unfold read_keyblock, frame_id. destruct (is_a f); cbn [Z.eqb].
  - destruct tec.
    + exists None. change (112 =? 112) with true. cbv iota. rewrite sread_full by (rewrite app_length, skipn_length, repeat_length; lia). cbn [failed andb negb]. split; reflexivity.
    + destruct (read_keys_total (hd_keys h) L5) as [k E]. exists (Some k). change (112 =? 112) with true. cbv iota. rewrite get_four_ok by exact L5. cbn [bind]. rewrite E. cbn [bind andb negb]. split; [reflexivity|]. now exists k.
  - exists None. change (48 =? 112) with false. cbn [app andb]. split; reflexivity.
Qed.

(** ** The images *)
Lemma prepare_ok l : Forall (fun fb => dims (fst fb) (snd fb) <> None) l ->
  exists ims, prepare l = Ok ims /\ List.length ims = List.length l /\ Forall wf ims /\
    forall k f b np nl, nth_error l k = Some (f, b) -> dims f b = Some (np, nl) ->
      let im := nth k ims no_image in npixels im = np /\ nlines im = nl /\ data im = repeat None (Z.to_nat (np * nl)).
Proof.
  induction 1 as [|[f b] l D F IH]; cbn [prepare].
  - exists []. split; [reflexivity|]. split; [reflexivity|]. split; [constructor|]. intros [|k]; discriminate.
  - destruct IH as (ims & -> & L & W & N). cbn [fst snd] in D. pose proof (set_format_dims f b) as X. destruct (dims f b) as [[np nl]|] eqn:E; [|contradiction].
    destruct X as (im & -> & WI & A & B & C). cbn [bind]. exists (im :: ims). split; [reflexivity|]. split; [cbn; lia|]. split; [now constructor|].
    intros [|k] f' b' np' nl' H1 H2; cbn [nth_error nth] in *; [|now apply (N k f' b')]. apply Some_inj in H1. injection H1 as <- <-. rewrite E in H2. apply Some_inj in H2. injection H2 as <- <-. now repeat split.
Qed.
Definition touch (k : nat) (o : HriSpec.order) (half second : Z) (ds : list dline) (i j : nat) (l p : Z) : option Z :=
  let '(k', l', part) := op_at o j in
  if (k' =? k)%nat then puts half second (wr_of l' part (dl_data (nth (j - i) ds (mk_dline [] [] [])))) l p else None.
Lemma last_put_cons half second k' l' part d k ops ds l p :
  last_put half second (writes k ((k', l', part) :: ops) (d :: ds)) l p =
  match last_put half second (writes k ops ds) l p with Some v => Some v | None => if (k' =? k)%nat then puts half second (wr_of l' part (dl_data d)) l p else None end.
Proof. cbn [writes]. destruct (k' =? k)%nat; cbn [app last_put]; [reflexivity|]. now destruct (last_put half second (writes k ops ds) l p). Qed.
Lemma touch_shift k o half second d ds i j l p : (i < j)%nat -> touch k o half second (d :: ds) i j l p = touch k o half second ds (S i) j l p.
Proof. intros H. unfold touch. replace (j - i)%nat with (S (j - S i)) by lia. reflexivity. Qed.
Lemma last_put_none k o half second l p : forall n i ds, List.length ds = n -> (forall j, (i <= j < i + n)%nat -> touch k o half second ds i j l p = None) ->
  last_put half second (writes k (map (op_at o) (seq i n)) ds) l p = None.
Proof.
  induction n as [|n IH]; intros i [|d ds] L H; try discriminate; [reflexivity|]. cbn [seq map]. pose proof (H i ltac:(lia)) as H0. unfold touch in H0. rewrite Nat.sub_diag in H0. cbn [nth] in H0.
  destruct (op_at o i) as [[k' l'] part]. rewrite last_put_cons, IH; [exact H0|cbn in L; lia|]. intros j J. rewrite <- (touch_shift k o half second d ds i j) by lia. apply H. lia.
Qed.
Lemma last_put_some k o half second l p v : forall n i ds j, List.length ds = n -> (i <= j < i + n)%nat -> touch k o half second ds i j l p = Some v ->
  (forall j', (j < j' < i + n)%nat -> touch k o half second ds i j' l p = None) ->
  last_put half second (writes k (map (op_at o) (seq i n)) ds) l p = Some v.
Proof.
  induction n as [|n IH]; intros i [|d ds] j L J T H; try discriminate; [lia|]. cbn [seq map]. destruct (op_at o i) as [[k' l'] part] eqn:O. rewrite last_put_cons. destruct (Nat.eq_dec j i) as [->|N].
  - rewrite last_put_none.
    + unfold touch in T. rewrite O, Nat.sub_diag in T. exact T.
    + cbn in L. lia.
    + intros j' J'. rewrite <- (touch_shift k o half second d ds i j') by lia. apply H. lia.
  - rewrite (IH (S i) ds j); [reflexivity|cbn in L; lia|lia| |].
    + rewrite <- (touch_shift k o half second d ds i j) by lia. exact T.
    + intros j' J'. rewrite <- (touch_shift k o half second d ds i j') by lia. apply H. lia.
Qed.

(** What the code does with half lines. *)
Definition actual (o : HriSpec.order) (half : Z) (k l : nat) (p : Z) : option (nat * Z) :=
  if in_halves o k then
    let first := fst (source o half k l 0) in
    if p <? half - 2 then Some (first, p) else if p <? 2 * half - 2 then Some ((first + 1)%nat, p - (half - 2)) else None
  else Some (source o half k l p).
Lemma puts_whole half second l' c l p : puts half second (wr_of l' All c) (Z.of_nat l) p = if (l' =? l)%nat then Some (nth (Z.to_nat p) c 0) else None.
Proof. cbn [wr_of puts]. destruct (Z.eqb_spec (Z.of_nat l') (Z.of_nat l)), (Nat.eqb_spec l' l); try reflexivity; lia. Qed.
Lemma puts_first half second l' c l p : 0 <= p -> puts half second (wr_of l' First c) (Z.of_nat l) p = if (l' =? l)%nat && (p <? half) then Some (nth (Z.to_nat p) c 0) else None.
Proof.
  intros P. cbn [wr_of puts]. replace (0 <=? p) with true by lia. rewrite Z.add_0_l, Z.sub_0_r, andb_true_r. destruct (Z.eqb_spec (Z.of_nat l') (Z.of_nat l)), (Nat.eqb_spec l' l); try reflexivity; lia.
Qed.
Lemma puts_second half second l' c l p : puts half second (wr_of l' Second c) (Z.of_nat l) p = if (l' =? l)%nat && (second <=? p) && (p <? second + half) then Some (nth (Z.to_nat (p - second)) c 0) else None.
Proof. cbn [wr_of puts]. destruct (Z.eqb_spec (Z.of_nat l') (Z.of_nat l)), (Nat.eqb_spec l' l); try reflexivity; lia. Qed.
Lemma written o half n k l p ds nl : List.length ds = n ->
  (match o with Turns m => (0 < m)%nat /\ (k < m)%nat /\ n = (m * nl)%nat | VisHalves => k = 0%nat /\ n = (2 * nl)%nat | IrVisHalves => (k = 0%nat /\ n = (5 * nl)%nat) \/ (k = 1%nat /\ (2 * n = 5 * nl)%nat) end) ->
  (l < nl)%nat -> 0 <= p < 2 * half -> 2 <= half ->
  last_put half (half - 2) (writes k (map (op_at o) (seq 0 n)) ds) (Z.of_nat l) p = option_map (sample ds) (actual o half k l p).
Proof.
  intros L O LL P H2. unfold actual. destruct o as [m| |]; cbn [in_halves source].
  - destruct O as (M & K & ->). apply last_put_some with (j := (l * m + k)%nat); [exact L|nia| |].
    + unfold touch. cbn [op_at]. rewrite Nat.sub_0_r. replace ((l * m + k) mod m)%nat with k by (rewrite Nat.add_comm, Nat.mod_add, Nat.mod_small; lia). rewrite Nat.eqb_refl, puts_whole.
      replace ((l * m + k) / m)%nat with l by (rewrite Nat.div_add_l, Nat.div_small; lia). rewrite Nat.eqb_refl. reflexivity.
    + intros j' J'. unfold touch. cbn [op_at]. destruct (Nat.eqb_spec (j' mod m) k) as [E|]; [|reflexivity]. rewrite puts_whole. destruct (Nat.eqb_spec (j' / m) l) as [E2|]; [|reflexivity].
      exfalso. pose proof (Nat.div_mod_eq j' m). rewrite E, E2 in *. lia.
  - destruct O as (-> & ->). replace (0 <? half) with true by lia. cbn [fst]. 
    assert (T : forall j, touch 0 VisHalves half (half - 2) ds 0 j (Z.of_nat l) p =
       if (j =? 2 * l)%nat && (p <? half) then Some (sample ds (j, p)) else if (j =? 2 * l + 1)%nat && (half - 2 <=? p) && (p <? 2 * half - 2) then Some (sample ds (j, p - (half - 2))) else None).
    { intros j. unfold touch, sample. cbn [op_at Nat.eqb fst snd]. rewrite Nat.sub_0_r, even_mod. destruct (Nat.eqb_spec (j mod 2) 0).
      - rewrite puts_first by lia. destruct (Nat.eqb_spec j (2 * l)) as [->|].
        + replace (2 * l / 2 =? l)%nat with true by (symmetry; apply Nat.eqb_eq; lia). cbn [andb]. replace (2 * l =? 2 * l + 1)%nat with false by (symmetry; apply Nat.eqb_neq; lia). reflexivity.
        + replace (j / 2 =? l)%nat with false by (symmetry; apply Nat.eqb_neq; lia). replace (j =? 2 * l + 1)%nat with false by (symmetry; apply Nat.eqb_neq; lia). reflexivity.
      - rewrite puts_second. replace (half - 2 + half) with (2 * half - 2) by lia. replace (j =? 2 * l)%nat with false by (symmetry; apply Nat.eqb_neq; lia). cbn [andb].
        destruct (Nat.eqb_spec j (2 * l + 1)) as [->|].
        + replace ((2 * l + 1) / 2 =? l)%nat with true by (symmetry; apply Nat.eqb_eq; lia). reflexivity.
        + replace (j / 2 =? l)%nat with false by (symmetry; apply Nat.eqb_neq; lia). reflexivity. }
    destruct (Z.ltb_spec p (half - 2)); cbn [option_map].
    + apply last_put_some with (j := (2 * l)%nat); [exact L|lia|rewrite T, Nat.eqb_refl; now replace (p <? half) with true by lia|].
      intros j' J'. rewrite T. replace (j' =? 2 * l)%nat with false by (symmetry; apply Nat.eqb_neq; lia). replace (half - 2 <=? p) with false by lia. now rewrite andb_false_r.
    + destruct (Z.ltb_spec p (2 * half - 2)); cbn [option_map].
      * apply last_put_some with (j := (2 * l + 1)%nat); [exact L|lia| |].
        -- rewrite T. replace (2 * l + 1 =? 2 * l)%nat with false by (symmetry; apply Nat.eqb_neq; lia). rewrite Nat.eqb_refl. replace (half - 2 <=? p) with true by lia. replace (p <? 2 * half - 2) with true by lia. reflexivity.
        -- intros j' J'. rewrite T. replace (j' =? 2 * l)%nat with false by (symmetry; apply Nat.eqb_neq; lia). replace (j' =? 2 * l + 1)%nat with false by (symmetry; apply Nat.eqb_neq; lia). reflexivity.
      * apply last_put_none; [exact L|]. intros j J. rewrite T. replace (p <? half) with false by lia. replace (p <? 2 * half - 2) with false by lia. now rewrite !andb_false_r.
  - destruct O as [(-> & ->)|(-> & N)].
    + cbn [option_map]. apply last_put_some with (j := (5 * l)%nat); [exact L|lia| |].
      * unfold touch. cbn [op_at]. replace ((5 * l) mod 5)%nat with 0%nat by lia. cbn [Nat.eqb]. rewrite puts_whole, Nat.sub_0_r. replace (5 * l / 5 =? l)%nat with true by (symmetry; apply Nat.eqb_eq; lia). reflexivity.
      * intros j' J'. unfold touch. cbn [op_at]. destruct (Nat.eqb_spec (j' mod 5) 0); cbn [Nat.eqb]; [|reflexivity]. rewrite puts_whole. now replace (j' / 5 =? l)%nat with false by (symmetry; apply Nat.eqb_neq; lia).
    + replace (0 <? half) with true by lia. cbn [fst]. set (a := (5 * (l / 2) + 1 + 2 * (l mod 2))%nat).
      assert (T : forall j, touch 1 IrVisHalves half (half - 2) ds 0 j (Z.of_nat l) p =
       if (j =? a)%nat && (p <? half) then Some (sample ds (j, p)) else if (j =? a + 1)%nat && (half - 2 <=? p) && (p <? 2 * half - 2) then Some (sample ds (j, p - (half - 2))) else None).
      { intros j. unfold touch, sample. cbn [op_at fst snd]. rewrite Nat.sub_0_r. destruct (Nat.eqb_spec (j mod 5) 0).
        - cbn [Nat.eqb]. replace (j =? a)%nat with false by (symmetry; apply Nat.eqb_neq; lia). replace (j =? a + 1)%nat with false by (symmetry; apply Nat.eqb_neq; lia). reflexivity.
        - change (1 =? 1)%nat with true. cbv iota. rewrite even_mod. destruct (Nat.eqb_spec ((j mod 5) mod 2) 0).
          + rewrite puts_second. replace (half - 2 + half) with (2 * half - 2) by lia. replace (j =? a)%nat with false by (symmetry; apply Nat.eqb_neq; lia). cbn [andb].
            destruct (Nat.eqb_spec j (a + 1)) as [E|].
            * replace (2 * (j / 5) + (j mod 5 - 1) / 2 =? l)%nat with true by (symmetry; apply Nat.eqb_eq; lia). reflexivity.
            * replace (2 * (j / 5) + (j mod 5 - 1) / 2 =? l)%nat with false by (symmetry; apply Nat.eqb_neq; lia). reflexivity.
          + rewrite puts_first by lia. replace (j =? a + 1)%nat with false by (symmetry; apply Nat.eqb_neq; lia). cbn [andb].
            destruct (Nat.eqb_spec j a) as [E|].
            * replace (2 * (j / 5) + (j mod 5 - 1) / 2 =? l)%nat with true by (symmetry; apply Nat.eqb_eq; lia). reflexivity.
            * replace (2 * (j / 5) + (j mod 5 - 1) / 2 =? l)%nat with false by (symmetry; apply Nat.eqb_neq; lia). reflexivity. }
      assert (AB : (a + 1 < n)%nat) by lia.
      destruct (Z.ltb_spec p (half - 2)); cbn [option_map].
      * apply last_put_some with (j := a); [exact L|lia|rewrite T, Nat.eqb_refl; now replace (p <? half) with true by lia|].
        intros j' J'. rewrite T. replace (j' =? a)%nat with false by (symmetry; apply Nat.eqb_neq; lia). replace (half - 2 <=? p) with false by lia. now rewrite andb_false_r.
      * destruct (Z.ltb_spec p (2 * half - 2)); cbn [option_map].
        -- apply last_put_some with (j := (a + 1)%nat); [exact L|lia| |].
           ++ rewrite T. replace (a + 1 =? a)%nat with false by (symmetry; apply Nat.eqb_neq; lia). rewrite Nat.eqb_refl. replace (half - 2 <=? p) with true by lia. replace (p <? 2 * half - 2) with true by lia. reflexivity.
           ++ intros j' J'. rewrite T. replace (j' =? a)%nat with false by (symmetry; apply Nat.eqb_neq; lia). replace (j' =? a + 1)%nat with false by (symmetry; apply Nat.eqb_neq; lia). reflexivity.
        -- apply last_put_none; [exact L|]. intros j J. rewrite T. replace (p <? half) with false by lia. replace (p <? 2 * half - 2) with false by lia. now rewrite !andb_false_r.
Qed.
Definition order_fits (o : HriSpec.order) (k n nl : nat) : Prop :=
  match o with
  | Turns m => (0 < m)%nat /\ (k < m)%nat /\ n = (m * nl)%nat
  | VisHalves => k = 0%nat /\ n = (2 * nl)%nat
  | IrVisHalves => (k = 0%nat /\ n = (5 * nl)%nat) \/ (k = 1%nat /\ (2 * n = 5 * nl)%nat)
  end.
Definition images_of (o : HriSpec.order) : nat := match o with Turns m => m | VisHalves => 1%nat | IrVisHalves => 2%nat end.
Definition fmt_ok (f : string) : Prop :=
  match format_spec f with
  | None => True
  | Some (ims, n, o) => List.length ims = images_of o /\
      forall k fm b, nth_error ims k = Some (fm, b) -> exists half nl, dims fm b = Some (2 * half, Z.of_nat nl) /\ 2 <= half /\
        Z.of_nat (line_size f) = (if in_halves o k then half else 2 * half) /\ order_fits o k n nl
  end.
Lemma fmt_known f : fmt_ok f.
Proof.
  destruct (in_dec string_dec f formats) as [I|N].
  - unfold formats in I. cbn [In] in I. unfold fmt_ok. 
    repeat match type of I with _ \/ _ => destruct I as [<-|I] end; [..|destruct I];
    (match goal with |- match ?x with _ => _ end => let v := eval cbv -[Z.to_nat] in x in change x with v end); cbv iota beta; (split; [reflexivity|]);
    intros [|[|k]] fm b E; cbn [nth_error] in E; try discriminate; try (destruct k; discriminate); apply Some_inj in E; injection E as <- <-; cbn [dims in_halves order_fits].
    + exists 2500, (Z.to_nat 5000). repeat split; lia.
    + exists 1250, (Z.to_nat 2500). repeat split; lia.
    + exists 1250, (Z.to_nat 2500). repeat split; lia.
    + exists 1250, (Z.to_nat 2500). repeat split; lia.
    + exists 1250, (Z.to_nat 2500). repeat split; lia.
    + exists 1250, (Z.to_nat 2500). repeat split; lia.
    + exists 1250, (Z.to_nat 2500). repeat split; lia.
    + exists 625, (Z.to_nat 625). repeat split; lia.
    + exists 625, (Z.to_nat 625). repeat split; lia.
    + exists 1250, (Z.to_nat 1250). repeat split; lia.
    + exists 625, (Z.to_nat 625). repeat split; lia.
    + exists 1250, (Z.to_nat 1250). repeat split; lia.
    + exists 625, (Z.to_nat 625). repeat split; lia.
    + exists 625, (Z.to_nat 625). repeat split; lia.
    + exists 625, (Z.to_nat 1250). repeat split; lia.
    + exists 625, (Z.to_nat 1250). repeat split; lia.
    + exists 625, (Z.to_nat 1250). repeat split; lia.
  - unfold fmt_ok. assert (format_spec f = None) as ->; [|exact I].
    assert (A : forall x, In x formats -> (f =? x)%string = false) by (intros x I; apply String.eqb_neq; intros ->; contradiction).
    assert (H : forall x, existsb (String.eqb x) formats = true -> In x formats). { intros x. rewrite existsb_exists. intros (y & I & E). apply String.eqb_eq in E. now subst. }
    unfold format_spec. now rewrite !A by (apply H; reflexivity).
Qed.
Lemma ops_fit o n j k l p : op_at o j = (k, l, p) -> (j < n)%nat -> (forall k nl, order_fits o k n nl -> True) ->
  (0 < images_of o)%nat -> (k < images_of o)%nat /\ (forall nl, order_fits o k n nl -> (l < nl)%nat) /\ (p = All <-> in_halves o k = false).
Proof.
  intros E J _ P. destruct o as [m| |]; cbn [op_at images_of order_fits in_halves] in *.
  - apply pair_inj in E as [E <-]. apply pair_inj in E as [<- <-]. split; [apply Nat.mod_upper_bound; lia|]. split; [|tauto]. intros nl (M & K & ->). apply Nat.div_lt_upper_bound; lia.
  - apply pair_inj in E as [E <-]. apply pair_inj in E as [<- <-]. split; [lia|]. split; [intros nl (_ & ->); lia|]. split; [destruct (Nat.even j); discriminate|discriminate].
  - destruct (Nat.eqb_spec (j mod 5) 0); apply pair_inj in E as [E <-]; apply pair_inj in E as [<- <-]; (split; [lia|]).
    + split; [|tauto]. intros nl [(_ & ->)|(C & _)]; [lia|discriminate].
    + split; [|destruct (Nat.even (j mod 5)); split; discriminate]. intros nl [(C & _)|(_ & H)]; [discriminate|lia].
Qed.
Lemma halves_iff_wf im half : wf im -> npixels im = 2 * half -> halflin im = half.
Proof. intros (_ & N & _) H. lia. Qed.
Definition dim_facts (f : string) (o : HriSpec.order) (n : nat) (ims : list (hformat * hband)) (im0 : list image) (k : nat) : Prop :=
  exists half nl, let im := nth k im0 no_image in wf im /\ npixels im = 2 * half /\ nlines im = Z.of_nat nl /\ halflin im = half /\ 2 <= half /\
    Z.of_nat (line_size f) = (if in_halves o k then half else 2 * half) /\ order_fits o k n nl /\ data im = repeat None (Z.to_nat (2 * half * Z.of_nat nl)) /\
    (forall fm b, nth_error ims k = Some (fm, b) -> dims fm b = Some (2 * half, Z.of_nat nl)).
Lemma file_start f tec pre h body lb ims n o : format_spec f = Some (ims, n, o) -> code_of (hd_label h) = Some f -> header_ok h -> List.length pre = 512%nat ->
  exists lab interp keys geo im0,
    readfrom 4 LE tec lb (head_bytes f tec pre h ++ body) =
      (let! x := run_body tec LE (frame_id f) (map (op_at o) (seq 0 n)) (mk_state (mk_stream body false) lb im0) in
       Ok (mk_hri (frame_id f) lab (hd_seed h) (nth 0 (hd_ident h) 0, nth 1 (hd_ident h) 0) interp keys f (st_images x) (Some geo))) /\
    read_label LE (hd_label h) = Ok lab /\ read_interp 4 LE (hd_interp h) = Ok interp /\ geolocation f = Ok geo /\
    (if is_a f && negb tec then exists ks, keys = Some ks /\ read_keys (hd_keys h) = Ok ks else keys = None) /\
    List.length im0 = List.length ims /\ List.length ims = images_of o /\ (0 < images_of o)%nat /\ Forall wf im0 /\ Forall (op_fits (line_size f) im0) (map (op_at o) (seq 0 n)) /\
    forall k, (k < images_of o)%nat -> dim_facts f o n ims im0 k.
Proof.
  intros FS CO H LP. destruct (read_head_ok f tec pre h body H LP) as (lab & interp & EH & EL & EI).
  destruct (read_keyblock_ok f tec h body H) as (keys & EK & KEYS).
  unfold readfrom. rewrite EH. cbn [bind]. rewrite EK. cbn [bind].
  destruct (read_label_ok LE (hd_label h)) as (lab' & EL' & A1 & A2 & A3 & A4 & A5); [apply H|]. assert (lab' = lab) by congruence. subst lab'. clear EL'.
  rewrite (format_code_ok _ lab f A1 A2 A3 A4 A5 CO). cbn [bind].
  pose proof (plan_spec f) as PS. unfold plan_matches in PS. pose proof (fmt_known f) as FK. unfold fmt_ok in FK. rewrite FS in PS, FK. destruct PS as (pl & EP & PI & PB & geo & EG). destruct FK as [LI FK]. rewrite EP. cbn [bind]. rewrite PI.
  destruct (prepare_ok ims) as (im0 & EPR & L0 & W0 & N0).
  { apply Forall_forall. intros [fm b] I. apply In_nth_error in I as [k E]. destruct (FK k fm b E) as (half & nl & D & _). cbn [fst snd]. congruence. }
  rewrite EPR. cbn [bind]. rewrite run_turns_body, PB.
  assert (DIM : forall k, (k < images_of o)%nat -> dim_facts f o n ims im0 k).
  { intros k K. rewrite <- LI in K. destruct (nth_error ims k) as [[fm b]|] eqn:E; [|apply nth_error_None in E; lia]. destruct (FK k fm b E) as (half & nl & D & HH & SZ & OF). destruct (N0 k fm b _ _ E D) as (NA & NB & ND). exists half, nl. cbv zeta.
    assert (WK : wf (nth k im0 no_image)) by (rewrite Forall_forall in W0; apply W0, nth_In; lia).
    split; [exact WK|]. split; [exact NA|]. split; [exact NB|]. split; [now apply halves_iff_wf|]. split; [exact HH|]. split; [exact SZ|]. split; [exact OF|]. split; [exact ND|]. intros fm' b' E'. rewrite E in E'. apply Some_inj in E'. injection E' as <- <-. exact D. }
  assert (IMP : (0 < images_of o)%nat).
  { destruct (Nat.eq_dec (images_of o) 0) as [Z0|]; [|lia]. exfalso. clear - FS Z0. pose proof (fmt_known f) as FK. unfold fmt_ok in FK. rewrite FS in FK. destruct FK as [LI _]. rewrite Z0 in LI. destruct ims; [|discriminate].
    assert (X : forall g, match format_spec g with Some ([], _, _) => False | _ => True end).
    { intros g. unfold format_spec. repeat match goal with |- context [if ?c then _ else _] => destruct c; [exact I|] end. exact I. }
    specialize (X f). now rewrite FS in X. }
  exists lab, interp, keys, geo, im0. rewrite EG. cbn [bind]. split; [reflexivity|]. split; [exact EL|]. split; [exact EI|]. split; [reflexivity|]. split; [exact KEYS|]. split; [exact L0|]. split; [exact LI|]. split; [exact IMP|]. split; [exact W0|]. split; [|exact DIM].
  apply Forall_forall. intros op IO. apply in_map_iff in IO as (j & EO & IJ). apply in_seq in IJ. subst op. destruct (op_at o j) as [[k l] p] eqn:EO.
  destruct (ops_fit o n j k l p EO) as (KI & LI' & PA'); [lia|auto|exact IMP|]. destruct (DIM k KI) as (half & nl & WK & NA & NB & NH & HH & SZ & OF & _). unfold op_fits. split; [lia|]. split; [rewrite NB; specialize (LI' nl OF); lia|].
  destruct p; [rewrite (proj1 PA' eq_refl) in SZ; lia|..]; (destruct (in_halves o k); [lia|]; destruct PA' as [_ PA']; specialize (PA' eq_refl); discriminate).
Qed.
Lemma file_read_wf f tec pre h body ds s' lb ims n o : format_spec f = Some (ims, n, o) -> code_of (hd_label h) = Some f -> header_ok h -> List.length pre = 512%nat ->
  feeds f tec (mk_stream body false) ds s' -> List.length ds = n -> List.length lb = 2500%nat ->
  exists lab interp keys images geo,
    readfrom 4 LE tec lb (head_bytes f tec pre h ++ body) = Ok (mk_hri (frame_id f) lab (hd_seed h) (nth 0 (hd_ident h) 0, nth 1 (hd_ident h) 0) interp keys f images (Some geo)) /\
    read_label LE (hd_label h) = Ok lab /\ read_interp 4 LE (hd_interp h) = Ok interp /\ geolocation f = Ok geo /\
    (if is_a f && negb tec then exists ks, keys = Some ks /\ read_keys (hd_keys h) = Ok ks else keys = None) /\
    List.length images = List.length ims /\
    forall k fm b np nl, nth_error ims k = Some (fm, b) -> dims fm b = Some (np, nl) -> let im := nth k images no_image in
      wf im /\ npixels im = np /\ nlines im = nl /\
      forall l p, (Z.of_nat l < nl) -> 0 <= p < np -> get_pixel im (Z.of_nat l) p = Ok (option_map (sample ds) (actual o (np / 2) k l p)).
Proof.
  intros FS CO H LP FD LD LB. destruct (file_start f tec pre h body lb ims n o FS CO H LP) as (lab & interp & keys & geo & im0 & -> & EL & EI & EG & KEYS & L0 & LI & IMP & W0 & FO & DIM).
  destruct (run_body_ok f tec (map (op_at o) (seq 0 n)) ds _ s' lb im0 FD) as (lb' & images & ER & _ & LIM & PA).
  { now rewrite map_length, seq_length. }
  { exact LB. }
  { exact W0. }
  { exact FO. }
  rewrite ER. cbn [bind st_images].
  exists lab, interp, keys, images, geo. split; [reflexivity|]. split; [exact EL|]. split; [exact EI|]. split; [exact EG|]. split; [exact KEYS|]. split; [lia|].
  intros k fm b np nl E D. assert (K : (k < images_of o)%nat) by (rewrite <- LI; apply nth_error_Some; congruence).
  destruct (DIM k K) as (half & nl' & WK & NA & NB & NH & HH & SZ & OF & DT & UNI). specialize (UNI fm b E). rewrite D in UNI. apply Some_inj, pair_inj in UNI as [-> ->].
  specialize (PA k ltac:(lia)). destruct (put_all_ok (writes k (map (op_at o) (seq 0 n)) ds) _ WK) as (im' & E' & W' & NA' & NB' & NH' & PX).
  { (* the writes fit *)
    apply Forall_forall. intros w IW. clear - FD LD IW NA NB NH SZ OF IMP.
    assert (G : forall m i s0 ds', feeds f tec s0 ds' s' -> (i + m <= n)%nat -> List.length ds' = m -> In w (writes k (map (op_at o) (seq i m)) ds') -> fits (npixels (nth k im0 no_image)) (halflin (nth k im0 no_image)) (nlines (nth k im0 no_image)) w).
    { induction m as [|m IH]; intros i s0 [|d ds'] F I L IN; try discriminate; [contradiction|]. cbn [feeds] in F. destruct F as (D1 & s1 & _ & D2); subst. cbn [seq map] in IN. destruct (op_at o i) as [[k' l'] p'] eqn:EO. cbn [writes] in IN. apply in_app_or in IN as [IN|IN]; [|apply (IH (S i) s1 ds' D2); [lia|cbn in L; lia|exact IN]].
      destruct (Nat.eqb_spec k' k) as [EK|]; [|contradiction]. rewrite EK in EO. destruct IN as [<-|[]]. destruct (ops_fit o (List.length ds) i k l' p' EO) as (_ & LI' & PA'); [lia|auto|exact IMP|]. specialize (LI' nl' OF).
      destruct p'; cbn [wr_of fits]; (split; [lia|]); [rewrite (proj1 PA' eq_refl) in SZ; lia|..]; (destruct (in_halves o k); [lia|]; destruct PA' as [_ PA']; specialize (PA' eq_refl); discriminate). }
    apply (G n 0%nat _ ds FD); [lia|exact LD|exact IW]. }
  rewrite PA in E'. apply Ok_inj in E'. subst im'. split; [exact W'|]. split; [congruence|]. split; [congruence|]. intros l p L P. rewrite get_pixel_ok; [|exact W'|lia|lia]. f_equal.
  rewrite PX by lia. rewrite NH. replace (2 * half / 2) with half by lia.
  rewrite (written o half n k l p ds nl' LD OF) by lia. destruct (actual o half k l p); cbn [option_map]; [reflexivity|]. unfold pix. rewrite DT, NA. apply nth_repeat_lt. nia.
Qed.

Theorem file_read f tec pre h body ds s' lb ims n o : format_spec f = Some (ims, n, o) -> code_of (hd_label h) = Some f -> header_ok h -> List.length pre = 512%nat ->
  feeds f tec (mk_stream body false) ds s' -> List.length ds = n -> List.length lb = 2500%nat ->
  exists lab interp keys images geo,
    readfrom 4 LE tec lb (head_bytes f tec pre h ++ body) = Ok (mk_hri (frame_id f) lab (hd_seed h) (nth 0 (hd_ident h) 0, nth 1 (hd_ident h) 0) interp keys f images (Some geo)) /\
    read_label LE (hd_label h) = Ok lab /\ read_interp 4 LE (hd_interp h) = Ok interp /\ geolocation f = Ok geo /\
    (if is_a f && negb tec then exists ks, keys = Some ks /\ read_keys (hd_keys h) = Ok ks else keys = None) /\
    List.length images = List.length ims /\
    forall k fm b np nl, nth_error ims k = Some (fm, b) -> dims fm b = Some (np, nl) -> let im := nth k images no_image in
      npixels im = np /\ nlines im = nl /\
      forall l p, (Z.of_nat l < nl) -> 0 <= p < np -> get_pixel im (Z.of_nat l) p = Ok (option_map (sample ds) (actual o (np / 2) k l p)).
Proof.
  intros FS CO H LP FD LD LB. destruct (file_read_wf f tec pre h body ds s' lb ims n o FS CO H LP FD LD LB) as (lab & interp & keys & images & geo & E & EL & EI & EG & KEYS & LI & PX).
  exists lab, interp, keys, images, geo. do 6 (split; [assumption|]). intros k fm b np nl E1 E2. exact (proj2 (PX k fm b np nl E1 E2)).
Qed.

(** ** At the end of the file *)
Lemma getbuff_eof fl : getbuff LE (mk_stream [] fl) = Ok (repeat 0 364, mk_stream [] true).
Proof. destruct fl; reflexivity. Qed.
Lemma bytes_at_zeros m off n : (off + n <= m)%nat -> bytes_at (repeat 0 m) off n = Ok (repeat 0 n).
Proof.
  intros H. rewrite bytes_at_ok by (rewrite repeat_length; lia). f_equal. replace m with (off + (n + (m - off - n)))%nat by lia. rewrite !repeat_app, skipn_app_exact, firstn_app_exact by (now rewrite repeat_length). reflexivity.
Qed.
Lemma copy_to_at lb at_ bs : (at_ + List.length bs <= List.length lb)%nat -> copy_to lb at_ bs = Ok (firstn at_ lb ++ bs ++ skipn (at_ + List.length bs) lb).
Proof. intros H. unfold copy_to. now replace (_ <=? _)%nat with true by (symmetry; apply Nat.leb_le; lia). Qed.
Lemma get_frames_eof : forall specs d fl lb, (d + total specs <= List.length lb)%nat -> Forall (fun sn => (4 <= fst sn)%nat /\ (fst sn + snd sn <= 364)%nat) specs ->
  exists fl', get_frames LE (table_at d specs) (mk_stream [] fl) lb = Ok (firstn d lb ++ repeat 0 (total specs) ++ skipn (d + total specs) lb, mk_stream [] fl') /\ (specs <> [] -> fl' = true).
Proof.
  induction specs as [|[src n] specs IH]; intros d fl lb L F; cbn [table_at get_frames total fst snd] in *.
  - exists fl. rewrite Nat.add_0_r. cbn [repeat app]. now rewrite firstn_skipn.
  - inversion F as [|? ? [F1 F2] F3]; subst. cbn [fst snd] in *. rewrite getbuff_eof. cbn [bind]. rewrite bytes_at_zeros by lia. cbn [bind]. rewrite copy_to_at by (rewrite repeat_length; lia). cbn [bind]. rewrite repeat_length.
    set (lb1 := firstn d lb ++ repeat 0 n ++ skipn (d + n) lb). assert (L1 : List.length lb1 = List.length lb) by (subst lb1; rewrite !app_length, firstn_length, repeat_length, skipn_length; lia).
    destruct (IH (d + n)%nat true lb1) as (fl' & E & FL); [lia|exact F3|]. exists fl'. split.
    + rewrite E. do 2 f_equal. assert (FD : List.length (firstn d lb) = d) by (rewrite firstn_length; lia).
      replace (firstn (d + n) lb1) with (firstn d lb ++ repeat 0 n).
      2:{ subst lb1. rewrite app_assoc. symmetry. apply firstn_app_exact. rewrite app_length, repeat_length. lia. }
      replace (skipn (d + n + total specs) lb1) with (skipn (d + (n + total specs)) lb).
      2:{ subst lb1. rewrite app_assoc. replace (d + n + total specs)%nat with (total specs + (d + n))%nat by lia. rewrite <- (skipn_skipn (total specs) (d + n)), skipn_app_exact by (rewrite app_length, repeat_length; lia). rewrite skipn_skipn. f_equal. lia. }
      rewrite repeat_app, <- !app_assoc. reflexivity.
    + intros _. destruct specs as [|x specs]; [|apply FL; discriminate]. cbn [table_at get_frames] in E. apply Ok_inj, pair_inj in E as [_ E]. now injection E.
Qed.
Definition zero_line (f : string) : dline := mk_dline [] (repeat 0 (line_size f)) [].
Lemma dataline_eof f fl lb : List.length lb = 2500%nat -> dataline false LE (frame_id f) (mk_stream [] fl) lb = Ok (repeat 0 (line_size f) ++ skipn (line_size f) lb, mk_stream [] true).
Proof.
  intros L. cbn [dataline]. unfold get_dataline, frame_id, line_size. destruct (is_a f).
  - change (112 =? 112) with true. cbv iota. rewrite a_table_at. destruct (get_frames_eof [(68, 296); (4, 360); (4, 360); (4, 360); (4, 360); (4, 360); (4, 360); (4, 44)]%nat 0 fl lb) as (fl' & E & FL); [rewrite L; cbn; lia|repeat constructor; cbn [fst snd]; lia|].
    rewrite E, FL by discriminate. reflexivity.
  - change (48 =? 112) with false. change (48 =? 48) with true. cbv iota. rewrite bx_table_at. destruct (get_frames_eof [(36, 328); (4, 360); (4, 360); (4, 202)]%nat 0 fl lb) as (fl' & E & FL); [rewrite L; cbn; lia|repeat constructor; cbn [fst snd]; lia|].
    rewrite E, FL by discriminate. reflexivity.
Qed.
Lemma feeds_eof f : forall n fl, exists s', feeds f false (mk_stream [] fl) (repeat (zero_line f) n) s'.
Proof.
  induction n as [|n IH]; intros fl; cbn [repeat feeds]; [now eexists|]. destruct (IH true) as [s' E]. exists s'. split; [cbn [zero_line dl_data]; apply repeat_length|]. exists (mk_stream [] true). split; [|exact E]. intros lb L. now apply dataline_eof.
Qed.
Lemma mod_dataline_eof f lb fl : List.length lb = 2500%nat -> dataline true LE (frame_id f) (mk_stream [] fl) lb = Terminate.
Proof.
  intros L. cbn [dataline]. unfold mod_get_dataline, frame_id. destruct (is_a f).
  - change (112 =? 112) with true. cbv iota. assert (E : mod_getbuff LE 0 (mk_stream [] fl) = Ok (repeat 0 2048, mk_stream [] true)) by (destruct fl; reflexivity). rewrite E. cbn [bind].
    rewrite bytes_at_zeros by lia. cbn [bind]. rewrite copy_to_at by (rewrite repeat_length; lia). reflexivity.
  - change (48 =? 112) with false. change (48 =? 48) with true. cbv iota. rewrite getbuff_eof. cbn [bind]. rewrite bytes_at_zeros by lia. cbn [bind]. rewrite copy_to_at by (rewrite repeat_length; lia). reflexivity.
Qed.
Lemma run_short f ops ds s lb ims : feeds f true s ds (mk_stream [] false) -> (List.length ds < List.length ops)%nat -> List.length lb = 2500%nat -> Forall wf ims -> Forall (op_fits (line_size f) ims) ops ->
  run_body true LE (frame_id f) ops (mk_state s lb ims) = Terminate.
Proof.
  intros FD L LB W FO. rewrite <- (firstn_skipn (List.length ds) ops). rewrite run_body_app.
  destruct (run_body_ok f true (firstn (List.length ds) ops) ds s _ lb ims FD) as (lb' & ims' & E & LB' & _).
  { rewrite firstn_length. lia. }
  { exact LB. }
  { exact W. }
  { rewrite <- (firstn_skipn (List.length ds) ops) in FO. apply Forall_app in FO. apply FO. }
  rewrite E. cbn [bind]. assert (LS : (0 < List.length (skipn (List.length ds) ops))%nat) by (rewrite skipn_length; lia). destruct (skipn (List.length ds) ops) as [|[[k l] p] rest]; [cbn in LS; lia|]. cbn [run_body st_stream st_buf]. now rewrite mod_dataline_eof.
Qed.
