(** Properties C76-C78: the text header of MSG native files. *)
From Verif Require Import BaseFacts NativeTextModel.
Open Scope string_scope.
Open Scope list_scope.
Open Scope Z_scope.

(** ** C76. Header text: a word, blanks, a colon, blanks, the value. *)
Definition is_blank (c : Z) : Prop := c = 32 \/ 9 <= c <= 13.
Definition word (w : list Z) : Prop := w <> [] /\ Forall (fun c => ~ is_blank c) w.
Definition blanks (w : list Z) : Prop := Forall is_blank w.
Definition stops (P : Z -> Prop) (r : list Z) : Prop := match r with [] => True | c :: _ => ~ P c end.
Definition is_digit (c : Z) : Prop := 48 <= c <= 57.
Definition dec (w : list Z) : Z := fold_left (fun a c => a * 10 + (c - 48)) w 0.
Lemma blank_iff c : blank c = true <-> is_blank c.
Proof. unfold blank, is_blank. lia. Qed.
Lemma skip_blank_app b r : blanks b -> stops is_blank r -> skip_blank (b ++ r) = r.
Proof.
  induction 1 as [|c b H _ IH]; intros St; cbn [app skip_blank].
  - destruct r as [|c r]; [reflexivity|]. cbn [skip_blank stops] in *. rewrite <- blank_iff in St. destruct (blank c); congruence.
  - apply blank_iff in H. now rewrite H, IH.
Qed.
Lemma token_app w r : Forall (fun c => ~ is_blank c) w -> match r with [] => True | c :: _ => is_blank c end -> token (w ++ r) = (w, r).
Proof.
  induction 1 as [|c w H _ IH]; intros St; cbn [app token].
  - destruct r as [|c r]; [reflexivity|]. cbn [token]. apply blank_iff in St. now rewrite St.
  - rewrite <- blank_iff in H. destruct (blank c); [congruence|]. now rewrite (IH St).
Qed.
Lemma word_stops w r : word w -> stops is_blank (w ++ r).
Proof. intros [N F]. destruct w as [|c w]; [congruence|]. now inversion F. Qed.
Lemma scan_s_app b w r : blanks b -> word w -> match r with [] => True | c :: _ => is_blank c end -> scan_s (b ++ w ++ r) = Some (w, r).
Proof.
  intros B W R. unfold scan_s. rewrite skip_blank_app; [|exact B|now apply word_stops]. rewrite token_app by (try apply W; exact R). destruct W as [N _]. destruct w; [congruence|reflexivity].
Qed.
Lemma digits_app w r : Forall is_digit w -> stops is_digit r -> forall a, digits a (w ++ r) = (fold_left (fun a c => a * 10 + (c - 48)) w a, r).
Proof.
  assert (D : forall c, digit c = true <-> is_digit c) by (intros c; unfold digit, is_digit; lia).
  induction 1 as [|c w H _ IH]; intros St a; cbn [app digits fold_left].
  - destruct r as [|c r]; [reflexivity|]. cbn [digits stops] in *. rewrite <- D in St. destruct (digit c); congruence.
  - apply D in H. now rewrite H, IH.
Qed.
(** One header line. *)
Definition entry (b0 name b1 b2 value rest : list Z) : list Z := b0 ++ name ++ b1 ++ 58 :: b2 ++ value ++ rest.
Lemma scan_name_entry b0 name b1 b2 value rest : blanks b0 -> word name -> blanks b1 -> b1 <> [] -> blanks b2 -> stops is_blank (value ++ rest) ->
  scan_name (entry b0 name b1 b2 value rest) = Some (value ++ rest).
Proof.
  intros B0 W B1 N1 B2 St. unfold scan_name, entry. rewrite scan_s_app; [|exact B0|exact W|destruct b1; [congruence|]; cbn; now inversion B1].
  rewrite skip_blank_app; [|exact B1|cbn; unfold is_blank; lia]. now rewrite skip_blank_app.
Qed.
Definition number (neg : bool) (ds : list Z) : list Z := if neg then 45 :: ds else ds.
Lemma scan_d_number neg ds rest : ds <> [] -> Forall is_digit ds -> stops is_digit rest -> scan_d (number neg ds ++ rest) = Some (if neg then - dec ds else dec ds, rest).
Proof.
  intros N F St. assert (U : unsigned_part (ds ++ rest) = Some (dec ds, rest)).
  { destruct ds as [|d ds]; [congruence|]. cbn [app unsigned_part]. assert (digit d = true) by (inversion F as [|? ? H]; unfold is_digit in H; unfold digit; lia). rewrite H.
    f_equal. exact (digits_app (d :: ds) rest F St 0). }
  destruct ds as [|d ds]; [congruence|]. assert (Hd : is_digit d) by now inversion F. unfold is_digit in Hd. unfold number, scan_d. destruct neg.
  - cbn [app]. change (skip_blank (45 :: d :: ds ++ rest)) with (45 :: d :: ds ++ rest). cbv iota beta. change (d :: ds ++ rest) with ((d :: ds) ++ rest). now rewrite U.
  - cbn [app] in *. assert (Hb : blank d = false) by (unfold blank; lia). cbn [skip_blank]. rewrite Hb. rewrite <- U.
    assert (E : (48 = d \/ 49 = d \/ 50 = d \/ 51 = d \/ 52 = d \/ 53 = d \/ 54 = d \/ 55 = d \/ 56 = d \/ 57 = d)) by lia.
    repeat (destruct E as [<-|E]; [reflexivity|]). subst. reflexivity.
Qed.
Lemma number_stops neg ds rest : ds <> [] -> Forall is_digit ds -> stops is_blank (number neg ds ++ rest).
Proof. intros N F. destruct ds as [|d ds]; [congruence|]. inversion F as [|? ? H]; unfold is_digit in H. destruct neg; cbn; unfold is_blank; lia. Qed.
Theorem C76_numbers : forall b0 name b1 b2 (neg : bool) ds rest, blanks b0 -> word name -> blanks b1 -> b1 <> [] -> blanks b2 -> ds <> [] -> Forall is_digit ds -> stops is_digit rest ->
  let v : Z := if neg then - dec ds else dec ds in
  scan_long (entry b0 name b1 b2 (number neg ds) rest) = if (- 2 ^ 63 <=? v) && (v <? 2 ^ 63) then Ok (Some v) else UB.
Proof.
  intros b0 name b1 b2 neg ds rest B0 W B1 N1 B2 N F St v. unfold scan_long. rewrite scan_name_entry by (try assumption; now apply number_stops).
  rewrite scan_d_number by assumption. reflexivity.
Qed.
Print Assumptions C76_numbers.
Theorem C76_positions : forall b0 name b1 b2 ds1 b3 ds2 rest, blanks b0 -> word name -> blanks b1 -> b1 <> [] -> blanks b2 -> blanks b3 -> b3 <> [] ->
  ds1 <> [] -> Forall is_digit ds1 -> ds2 <> [] -> Forall is_digit ds2 -> stops is_digit rest -> dec ds2 < 2 ^ 63 ->
  scan_position (entry b0 name b1 b2 ds1 (b3 ++ ds2 ++ rest)) = Ok (Some (dec ds2)).
Proof.
  intros b0 name b1 b2 ds1 b3 ds2 rest B0 W B1 N1 B2 B3 N3 D1 F1 D2 F2 St R. unfold scan_position. rewrite scan_name_entry by (try assumption; apply (number_stops false); assumption).
  assert (S3 : stops is_digit (b3 ++ ds2 ++ rest)) by (destruct b3 as [|c b3]; [congruence|]; inversion B3 as [|? ? H]; cbn; unfold is_blank, is_digit in *; lia).
  pose proof (scan_d_number false ds1 (b3 ++ ds2 ++ rest) D1 F1 S3) as E. cbn [number] in E. rewrite E.
  assert (E2 : scan_d (b3 ++ ds2 ++ rest) = scan_d (ds2 ++ rest)).
  { unfold scan_d. rewrite skip_blank_app; [|exact B3|apply (number_stops false); assumption]. pose proof (number_stops false ds2 rest D2 F2) as X. cbn [number] in X.
    pose proof (skip_blank_app [] (ds2 ++ rest) (Forall_nil _) X) as Y. cbn [app] in Y. now rewrite Y. }
  rewrite E2. pose proof (scan_d_number false ds2 rest D2 F2 St) as E3. cbn [number] in E3. rewrite E3.
  assert (P : 0 <= dec ds2).
  { assert (G : forall l a, 0 <= a -> Forall is_digit l -> 0 <= fold_left (fun a c => a * 10 + (c - 48)) l a). { induction l as [|c l IH]; intros a A L; cbn; [exact A|]. inversion L; subst. unfold is_digit in *. apply IH; [lia|assumption]. }
    apply G; [lia|exact F2]. }
  unfold long_ok. replace ((- 2 ^ 63 <=? dec ds2) && (dec ds2 <? 2 ^ 63)) with true by lia. reflexivity.
Qed.
Print Assumptions C76_positions.
Example C76_case : scan_long (codes "NumberLinesVISIR              : 3712   x") = Ok (Some 3712) /\ scan_position (codes "15Header  : 445286 005114") = Ok (Some 5114) /\ scan_long (codes "X: 12") = Ok None.
Proof. repeat split; vm_compute; reflexivity. Qed.
Example C76_case_shape : entry [] (codes "NumberLinesVISIR") (codes "   ") (codes " ") (codes "3712") (codes "   x") = codes "NumberLinesVISIR   : 3712   x".
Proof. reflexivity. Qed.

(** ** C77: the selected channels. *)
Theorem C77_selection : forall b0 name b1 b2 w rest, blanks b0 -> word name -> blanks b1 -> b1 <> [] -> blanks b2 -> word w -> match rest with [] => True | c :: _ => is_blank c end ->
  (11 <= List.length w <= 15)%nat ->
  exists sel, selection (entry b0 name b1 b2 w rest) = Ok sel /\ List.length sel = 12%nat /\
    forall ic, (ic < 12)%nat -> (nth ic sel false = true <-> nth_error w ic = Some 88).
Proof.
  intros b0 name b1 b2 w rest B0 W B1 N1 B2 Ww R L. unfold selection. rewrite scan_name_entry by (try assumption; now apply word_stops).
  pose proof (scan_s_app [] w rest (Forall_nil _) Ww R) as Es. cbn [app] in Es. rewrite Es. destruct (Nat.leb_spec 16 (List.length w)); [lia|]. destruct (Nat.ltb_spec (List.length w) 11); [lia|].
  eexists. split; [reflexivity|]. split; [now rewrite map_length, seq_length|]. intros ic H1. rewrite (nth_indep _ false (nth 0 w 0 =? 88)) by (rewrite map_length, seq_length; lia).
  rewrite (map_nth (fun i => nth i w 0 =? 88)), seq_nth by lia. cbn [Nat.add]. rewrite Z.eqb_eq. destruct (nth_error w ic) as [ch|] eqn:Ec; [apply (nth_error_nth w ic 0) in Ec; rewrite Ec; split; congruence|].
  apply nth_error_None in Ec. rewrite nth_overflow by exact Ec. split; discriminate.
Qed.
Print Assumptions C77_selection.
(** Words that are too long overflow the buffer, too short ones leave flags unset. *)
Theorem C77_refuted_lengths : forall b0 name b1 b2 w rest, blanks b0 -> word name -> blanks b1 -> b1 <> [] -> blanks b2 -> word w -> match rest with [] => True | c :: _ => is_blank c end ->
  (List.length w < 11 \/ 16 <= List.length w)%nat -> selection (entry b0 name b1 b2 w rest) = UB.
Proof.
  intros b0 name b1 b2 w rest B0 W B1 N1 B2 Ww R L. unfold selection. rewrite scan_name_entry by (try assumption; now apply word_stops).
  pose proof (scan_s_app [] w rest (Forall_nil _) Ww R) as Es. cbn [app] in Es. rewrite Es. destruct (Nat.leb_spec 16 (List.length w)); [reflexivity|]. destruct (Nat.ltb_spec (List.length w) 11); [reflexivity|lia].
Qed.
Print Assumptions C77_refuted_lengths.
Example C77_case : selection (codes "SelectedBandIDs      : XX--------X-   ") = Ok [true; true; false; false; false; false; false; false; false; false; true; false] /\ selection (codes "SelectedBandIDs : XXXXXXXXXXXXXXXX") = UB.
Proof. split; vm_compute; reflexivity. Qed.

(** ** C78: the header strings stay inside the header exactly when a NUL follows
    the start of the last one. *)
(** What precedes the first NUL. *)
Fixpoint text (b : list Z) : list Z := match b with c :: b' => if c =? 0 then [] else c :: text b' | [] => [] end.
Lemma cstr_spec b : cstr b = if existsb (Z.eqb 0) b then Ok (text b) else UB.
Proof.
  induction b as [|c b IH]; [reflexivity|]. cbn [cstr existsb text]. rewrite (Z.eqb_sym 0 c). destruct (c =? 0); [reflexivity|]. cbn [orb]. rewrite IH. destruct (existsb (Z.eqb 0) b); reflexivity.
Qed.
Lemma nul_in b : existsb (Z.eqb 0) b = true <-> In 0 b.
Proof. rewrite existsb_exists. split; [intros (x & I & E); apply Z.eqb_eq in E; now subst|intros I; exists 0; auto]. Qed.
Lemma nul_earlier b o o' : (o <= o')%nat -> In 0 (skipn o' b) -> In 0 (skipn o b).
Proof. intros L I. replace o' with ((o' - o) + o)%nat in I by lia. rewrite <- skipn_skipn in I. rewrite <- (firstn_skipn (o' - o) (skipn o b)). apply in_or_app. now right. Qed.
Lemma cat_strs_ok b os : (forall o, In o os -> In 0 (skipn o b)) -> cat_strs b os = Ok (flat_map (fun o => text (skipn o b)) os).
Proof.
  induction os as [|o os IH]; intros H; [reflexivity|]. cbn [cat_strs flat_map]. rewrite cstr_spec. assert (E : existsb (Z.eqb 0) (skipn o b) = true) by (apply nul_in, H; now left). rewrite E. cbn [bind].
  rewrite IH by (intros x I; apply H; now right). reflexivity.
Qed.
Lemma all_strs_ok b l : (forall os o, In os l -> In o os -> In 0 (skipn o b)) -> all_strs b l = Ok (map (flat_map (fun o => text (skipn o b))) l).
Proof.
  induction l as [|os l IH]; intros H; [reflexivity|]. cbn [all_strs map]. rewrite cat_strs_ok by (intros o I; apply (H os); [now left|exact I]). cbn [bind]. rewrite IH by (intros x o I J; apply (H x); [now right|exact J]). reflexivity.
Qed.
Lemma starts_le : forallb (forallb (fun o => o <=? 5034)%nat) mph_starts = true.
Proof. vm_compute. reflexivity. Qed.
Theorem C78_header_strings_partial : forall b, In 0 (skipn 5034 b) -> mphinfo b = Ok (map (flat_map (fun o => text (skipn o b))) mph_starts).
Proof.
  intros b N. apply all_strs_ok. intros os o I J. apply (nul_earlier b o 5034); [|exact N]. pose proof starts_le as S. rewrite forallb_forall in S. specialize (S os I). rewrite forallb_forall in S. specialize (S o J). now apply Nat.leb_le.
Qed.
Print Assumptions C78_header_strings_partial.
Theorem C78_refuted_no_terminator : forall b, ~ In 0 (skipn 5034 b) -> mphinfo b = UB.
Proof.
  intros b N. unfold mphinfo. assert (E : exists l, mph_starts = l ++ [[5034%nat]]) by (exists (removelast mph_starts); vm_compute; reflexivity). destruct E as [l ->].
  induction l as [|os l IH]; cbn [app all_strs].
  - cbn [cat_strs]. rewrite cstr_spec. assert (X : existsb (Z.eqb 0) (skipn 5034 b) = false) by (destruct (existsb (Z.eqb 0) (skipn 5034 b)) eqn:X; [apply nul_in in X; contradiction|reflexivity]). now rewrite X.
  - rewrite IH. assert (T : forall os, cat_strs b os = UB \/ exists s, cat_strs b os = Ok s).
    { clear. induction os as [|o os IH]; [right; eexists; reflexivity|]. cbn [cat_strs]. rewrite cstr_spec. destruct (existsb _ _); [|now left]. cbn [bind]. destruct IH as [->|[s ->]]; cbn [bind]; eauto. }
    destruct (T os) as [->|[s ->]]; reflexivity.
Qed.
Print Assumptions C78_refuted_no_terminator.
Example C78_case : ~ In 0 (skipn 5034 (repeat 32 5114)) /\ In 0 (skipn 5034 (repeat 32 5113 ++ [0])).
Proof. split; [rewrite <- nul_in; replace (existsb (Z.eqb 0) (skipn 5034 (repeat 32 5114))) with false by (vm_compute; reflexivity); discriminate|]. apply nul_in. vm_compute. reflexivity. Qed.
