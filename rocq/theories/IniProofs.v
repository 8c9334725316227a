(** The dictionary refines a finite map. *)
From Verif Require Import BaseFacts IniModel IniSpec.

Lemma str_eqb_spec a b : reflect (a = b) (str_eqb a b).
Proof. unfold str_eqb. destruct (list_eq_dec _ _ _); constructor; assumption. Qed.
Lemma same_spec a b : reflect (a = b) (same a b).
Proof. unfold same. destruct (list_eq_dec _ _ _); constructor; assumption. Qed.

Fixpoint live (l : list slot) : list str :=
  match l with
  | [] => []
  | s :: l' => match s_key s with Some k => k :: live l' | None => live l' end
  end.
Fixpoint assoc (l : list slot) (k : str) : option (option str) :=
  match l with
  | [] => None
  | s :: l' => match s_key s with
               | Some k' => if str_eqb k' k then Some (s_val s) else assoc l' k
               | None => assoc l' k
               end
  end.
Definition slot_ok (s : slot) : Prop :=
  match s_key s with
  | Some k => s_hash s = dictionary_hash k
  | None => s_hash s = 0 /\ s_val s = None
  end.
Record wf (d : dict) : Prop := mk_wf {
  wf_slots : Forall slot_ok (d_slots d);
  wf_nodup : NoDup (live (d_slots d));
  wf_count : d_n d = List.length (live (d_slots d));
  wf_size : (128 <= List.length (d_slots d))%nat }.

Lemma live_app a b : live (a ++ b) = live a ++ live b.
Proof. induction a as [|s a IH]; cbn; [reflexivity|]. destruct (s_key s); cbn; now rewrite IH. Qed.
Lemma assoc_app a b k : assoc (a ++ b) k = match assoc a k with Some v => Some v | None => assoc b k end.
Proof. induction a as [|s a IH]; cbn; [reflexivity|]. destruct (s_key s) as [k'|]; [|exact IH]. now destruct (str_eqb k' k). Qed.
Lemma assoc_live l k : assoc l k <> None <-> In k (live l).
Proof.
  induction l as [|s l IH]; cbn; [split; [congruence|tauto]|].
  destruct (s_key s) as [k'|]; [|exact IH]. cbn. destruct (str_eqb_spec k' k).
  - split; [auto|discriminate].
  - rewrite IH. split; [auto|intros [?|?]; [congruence|assumption]].
Qed.
Lemma assoc_none l k : assoc l k = None <-> ~ In k (live l).
Proof. rewrite <- assoc_live. destruct (assoc l k); split; try congruence. intros H. now exfalso; apply H. Qed.
Lemma live_length l : (List.length (live l) <= List.length l)%nat.
Proof. induction l as [|s l IH]; cbn; [lia|]. destruct (s_key s); cbn; lia. Qed.
Lemma live_empties n : live (repeat empty_slot n) = [].
Proof. induction n; auto. Qed.
Lemma set_nth_split {A} (pre : list A) s post x : set_nth (pre ++ s :: post) (List.length pre) x = pre ++ x :: post.
Proof. induction pre; cbn; [reflexivity|]. now f_equal. Qed.
Lemma nth_split_at {A} (pre : list A) s post d : nth (List.length pre) (pre ++ s :: post) d = s.
Proof. now rewrite app_nth2, Nat.sub_diag by lia. Qed.

Lemma find_slot_some key hash l i0 i : find_slot key hash l i0 = Some i ->
  exists pre s post, l = pre ++ s :: post /\ (i = i0 + List.length pre)%nat /\ s_key s = Some key.
Proof.
  revert i0. induction l as [|s l IH]; cbn; intros i0 H; [discriminate|].
  assert (Hrec : find_slot key hash l (S i0) = Some i -> exists pre s' post, s :: l = pre ++ s' :: post /\ (i = i0 + List.length pre)%nat /\ s_key s' = Some key).
  { intros H'. apply IH in H' as (pre & s' & post & -> & -> & E). exists (s :: pre), s', post. cbn. split; [reflexivity|]. split; [lia|exact E]. }
  destruct (s_key s) as [k|] eqn:E; [|auto].
  destruct ((hash =? s_hash s) && str_eqb key k) eqn:B; [|auto].
  apply Some_inj in H. subst i. apply andb_true_iff in B as [_ B]. destruct (str_eqb_spec key k); [|discriminate]. subst.
  exists [], s, l. cbn. split; [reflexivity|]. split; [lia|exact E].
Qed.
Lemma find_slot_none key l i0 : Forall slot_ok l -> find_slot key (dictionary_hash key) l i0 = None -> ~ In key (live l).
Proof.
  revert i0. induction l as [|s l IH]; cbn; intros i0 W H; [tauto|]. inversion W as [|? ? Hs W']; subst.
  unfold slot_ok in Hs. destruct (s_key s) as [k|] eqn:E; [|eauto].
  destruct (str_eqb_spec key k) as [->|N].
  - rewrite Hs, Z.eqb_refl in H. discriminate.
  - rewrite andb_false_r in H. cbn. intros [X|X]; [congruence|]. exact (IH _ W' H X).
Qed.
Lemma first_empty_spec l i0 : (List.length (live l) < List.length l)%nat ->
  exists pre s post, l = pre ++ s :: post /\ (first_empty l i0 = i0 + List.length pre)%nat /\ s_key s = None.
Proof.
  revert i0. induction l as [|s l IH]; cbn; intros i0 H; [lia|].
  destruct (s_key s) as [k|] eqn:E.
  - cbn in H. destruct (IH (S i0)) as (pre & s' & post & -> & -> & E'); [lia|].
    exists (s :: pre), s', post. cbn. split; [reflexivity|]. split; [lia|exact E'].
  - exists [], s, l. cbn. split; [reflexivity|]. split; [lia|exact E].
Qed.

(** set *)
Lemma set_spec d key val : wf d -> exists d', dictionary_set d key val = Ok d' /\ wf d' /\
  forall k, assoc (d_slots d') k = if same key k then Some val else assoc (d_slots d) k.
Proof.
  intros W. unfold dictionary_set.
  destruct (if (0 <? d_n d)%nat then _ else None) as [i|] eqn:Ef.
  - destruct (0 <? d_n d)%nat; [|discriminate].
    apply find_slot_some in Ef as (pre & s & post & El & -> & Ek). cbn [Nat.add].
    eexists. split; [reflexivity|]. rewrite El, nth_split_at, set_nth_split.
    destruct W as [W1 W2 W3 W4]. rewrite El in *. rewrite live_app in *. cbn [live] in *. rewrite Ek in *.
    split; [constructor; cbn [d_slots d_n]; rewrite ?live_app; cbn [live]; unfold with_val; cbn [s_key]; rewrite ?Ek; auto|].
    + apply Forall_app in W1 as [A B]. inversion B as [|? ? C D]; subst. apply Forall_app. split; [exact A|].
      constructor; [|exact D]. unfold slot_ok in *. cbn. rewrite Ek in *. exact C.
    + rewrite !app_length in *. cbn in *. lia.
    + intros k. cbn [d_slots]. rewrite !assoc_app. cbn [assoc with_val s_key s_val]. rewrite Ek.
      apply NoDup_remove_2 in W2. rewrite in_app_iff in W2.
      destruct (same_spec key k) as [<-|N].
      * rewrite (proj2 (assoc_none pre key)) by tauto. destruct (str_eqb_spec key key); [reflexivity|congruence].
      * destruct (str_eqb_spec key k); [congruence|reflexivity].
  - assert (Hnew : ~ In key (live (d_slots d))).
    { destruct W as [W1 W2 W3 W4]. destruct (Nat.ltb_spec 0 (d_n d)) as [P|P].
      - now apply find_slot_none in Ef.
      - assert (Hz : List.length (live (d_slots d)) = 0%nat) by lia. apply length_zero_iff_nil in Hz. rewrite Hz. tauto. }
    set (slots := if (d_n d =? _)%nat then _ else _).
    assert (HS : Forall slot_ok slots /\ live slots = live (d_slots d) /\ (forall k, assoc slots k = assoc (d_slots d) k) /\
                 (List.length (live slots) < List.length slots)%nat /\ (128 <= List.length slots)%nat).
    { destruct W as [W1 W2 W3 W4]. unfold slots. pose proof (live_length (d_slots d)).
      destruct (Nat.eqb_spec (d_n d) (List.length (d_slots d))) as [E|E].
      - rewrite live_app, live_empties, app_nil_r, app_length, repeat_length. split; [|split; [|split]]; auto; try lia.
        + apply Forall_app. split; [exact W1|]. apply Forall_forall. intros x Hx. apply repeat_spec in Hx. subst. unfold slot_ok. cbn. auto.
        + intros k. rewrite assoc_app. destruct (assoc (d_slots d) k) eqn:Ea; [reflexivity|].
          apply assoc_none. now rewrite live_empties.
      - split; [exact W1|]. split; [reflexivity|]. split; [auto|]. lia. }
    destruct HS as (S1 & S2 & S3 & S4 & S5).
    destruct (first_empty_spec slots 0 S4) as (pre & s & post & El & Ei & Ek). cbn [Nat.add] in Ei.
    rewrite Ei. assert (L : (List.length pre < List.length slots)%nat) by (rewrite El, app_length; cbn; lia).
    apply Nat.ltb_lt in L. rewrite L. eexists. split; [reflexivity|].
    rewrite El, set_nth_split. cbn [d_slots]. destruct W as [W1 W2 W3 W4].
    assert (Hl : live slots = live pre ++ live post) by (rewrite El, live_app; cbn; now rewrite Ek).
    split; [constructor; cbn [d_slots d_n]|].
    + rewrite El in S1. apply Forall_app in S1 as [A B]. inversion B; subst. apply Forall_app. split; [exact A|].
      constructor; [reflexivity|assumption].
    + rewrite live_app. cbn. rewrite Hl in S2. rewrite <- S2 in *. apply NoDup_Add with (a := key) (l := live pre ++ live post); [|auto].
      apply Add_app.
    + rewrite live_app. cbn. rewrite app_length. cbn. rewrite <- S2, Hl, app_length in W3. lia.
    + rewrite El, !app_length in S5. rewrite app_length. cbn in *. lia.
    + intros k. rewrite <- S3, El, !assoc_app. cbn [assoc s_key s_val]. rewrite Ek.
      rewrite <- S2, Hl, in_app_iff in Hnew.
      destruct (same_spec key k) as [<-|N].
      * rewrite (proj2 (assoc_none pre key)) by tauto. destruct (str_eqb_spec key key); [reflexivity|congruence].
      * destruct (str_eqb_spec key k); [congruence|reflexivity].
Qed.
(** unset *)
Lemma unset_spec d key : wf d -> wf (dictionary_unset d key) /\
  forall k, assoc (d_slots (dictionary_unset d key)) k = if same key k then None else assoc (d_slots d) k.
Proof.
  intros W. unfold dictionary_unset. destruct (find_slot _ _ _ _) as [i|] eqn:Ef.
  - apply find_slot_some in Ef as (pre & s & post & El & -> & Ek). cbn [Nat.add d_slots].
    destruct W as [W1 W2 W3 W4]. rewrite El in *. rewrite set_nth_split. rewrite live_app in *. cbn [live] in *. rewrite Ek in *.
    split; [constructor; cbn [d_slots d_n]|].
    + apply Forall_app in W1 as [A B]. inversion B; subst. apply Forall_app. split; [exact A|].
      constructor; [|assumption]. unfold slot_ok. cbn. auto.
    + rewrite live_app. cbn. now apply NoDup_remove_1 in W2.
    + rewrite live_app. cbn. rewrite app_length in *. cbn in W3. lia.
    + rewrite !app_length in *. cbn in *. lia.
    + intros k. rewrite !assoc_app. cbn [assoc empty_slot s_key]. rewrite Ek.
      apply NoDup_remove_2 in W2. rewrite in_app_iff in W2.
      destruct (same_spec key k) as [<-|N].
      * rewrite (proj2 (assoc_none pre key)), (proj2 (assoc_none post key)) by tauto. reflexivity.
      * destruct (str_eqb_spec key k); [congruence|reflexivity].
  - split; [exact W|]. intros k. destruct (same_spec key k) as [<-|]; [|reflexivity].
    apply find_slot_none in Ef; [|apply W]. now apply assoc_none.
Qed.
(** get *)
Definition answer (r : option (option str)) : lookup := match r with Some v => Found v | None => Absent end.
Lemma get_loop_spec key l : Forall slot_ok l ->
  get_loop key (dictionary_hash key) l = Ok (answer (assoc l key)) \/
  (get_loop key (dictionary_hash key) l = UB /\ dictionary_hash key = 0 /\
   exists pre s post, l = pre ++ s :: post /\ s_key s = None /\ ~ In key (live pre)).
Proof.
  induction l as [|s l IH]; intros W; [left; reflexivity|]. inversion W as [|? ? Hs W']; subst. specialize (IH W').
  cbn. unfold slot_ok in Hs. destruct (s_key s) as [k|] eqn:Ek.
  - rewrite Hs. destruct (str_eqb_spec k key) as [->|N].
    + rewrite Z.eqb_refl. destruct (str_eqb_spec key key); [left; reflexivity|congruence].
    + assert (G : (if dictionary_hash key =? dictionary_hash k then if str_eqb key k then Ok (Found (s_val s)) else get_loop key (dictionary_hash key) l else get_loop key (dictionary_hash key) l) = get_loop key (dictionary_hash key) l).
      { destruct (_ =? _); [|reflexivity]. destruct (str_eqb_spec key k); [congruence|reflexivity]. }
      rewrite G. destruct IH as [IH|(IH & Hz & pre & s' & post & -> & E & Hn)]; [left; exact IH|right].
      split; [exact IH|]. split; [exact Hz|]. exists (s :: pre), s', post. cbn. rewrite Ek. cbn. split; [reflexivity|].
      split; [exact E|]. intros [?|?]; tauto.
  - destruct Hs as [Hs _]. rewrite Hs. destruct (Z.eqb_spec (dictionary_hash key) 0) as [Z|Z].
    + right. split; [reflexivity|]. split; [exact Z|]. exists [], s, l. auto.
    + destruct IH as [IH|(_ & Hz & _)]; [left; exact IH|congruence].
Qed.
Lemma get_spec d key : wf d -> dictionary_hash key <> 0 ->
  dictionary_get d key = Ok (answer (assoc (d_slots d) key)).
Proof.
  intros W H. destruct (get_loop_spec key (d_slots d) (wf_slots d W)) as [E|(_ & Z & _)]; [exact E|congruence].
Qed.
(** For a key of hash 0 the lookup is undefined exactly when an empty slot
    precedes it. *)
Lemma get_zero_hash key l : Forall slot_ok l -> dictionary_hash key = 0 ->
  (get_loop key (dictionary_hash key) l = UB <-> exists pre s post, l = pre ++ s :: post /\ s_key s = None /\ ~ In key (live pre)).
Proof.
  intros W Hz. split.
  - intros H. destruct (get_loop_spec key l W) as [E|(_ & _ & E)]; [congruence|exact E].
  - intros (pre & s & post & -> & Ek & Hn). induction pre as [|s' pre IH]; cbn.
    + inversion W as [|? ? Hs _]; subst. unfold slot_ok in Hs. rewrite Ek in *. destruct Hs as [-> _]. now rewrite Hz.
    + inversion W as [|? ? Hs W']; subst. unfold slot_ok in Hs. cbn in Hn. destruct (s_key s') as [k|] eqn:E.
      * rewrite Hs. cbn in Hn. assert (str_eqb key k = false) by (destruct (str_eqb_spec key k); [subst; tauto|reflexivity]).
        rewrite H. destruct (_ =? _); apply IH; auto.
      * destruct Hs as [-> _]. now rewrite Hz.
Qed.

(** ** Histories *)
(** Raw operations, the form all writers of dictionaries reduce to. *)
Definition apply (d : dict) (c : change) : outcome dict :=
  match snd c with
  | Some v => dictionary_set d (fst c) v
  | None => Ok (dictionary_unset d (fst c))
  end.
Fixpoint applies (d : dict) (h : list change) : outcome dict :=
  match h with
  | [] => Ok d
  | c :: h' => let! d' := apply d c in applies d' h'
  end.
Lemma content_cons before k c h k' :
  content before ((k, c) :: h) k' = content (fun x => if same k x then c else before x) h k'.
Proof. unfold content. cbn. destruct (last_change h k'); [reflexivity|]. now destruct (same k k'). Qed.
Lemma content_ext b b' h k : (forall x, b x = b' x) -> content b h k = content b' h k.
Proof. intros H. unfold content. destruct (last_change h k); auto. Qed.
Lemma applies_spec h : forall d, wf d -> exists d', applies d h = Ok d' /\ wf d' /\
  forall k, assoc (d_slots d') k = content (assoc (d_slots d)) h k.
Proof.
  induction h as [|[k c] h IH]; intros d W; cbn [applies].
  - exists d. split; [reflexivity|]. split; [exact W|]. reflexivity.
  - unfold apply. cbn [fst snd]. destruct c as [v|].
    + destruct (set_spec d k v W) as (d1 & -> & W1 & E1). cbn [bind].
      destruct (IH d1 W1) as (d2 & -> & W2 & E2). exists d2. split; [reflexivity|]. split; [exact W2|].
      intros k'. rewrite E2, content_cons. apply content_ext. exact E1.
    + destruct (unset_spec d k W) as (W1 & E1). cbn [bind].
      destruct (IH _ W1) as (d2 & -> & W2 & E2). exists d2. split; [reflexivity|]. split; [exact W2|].
      intros k'. rewrite E2, content_cons. apply content_ext. exact E1.
Qed.
Lemma new_wf n : wf (dictionary_new n) /\ forall k, assoc (d_slots (dictionary_new n)) k = None.
Proof.
  unfold dictionary_new. cbn [d_slots]. set (m := if (n <? 128)%nat then 128%nat else n).
  assert (Hm : (128 <= m)%nat) by (unfold m; destruct (Nat.ltb_spec n 128); lia). split.
  - constructor; cbn [d_slots d_n]; rewrite ?live_empties, ?repeat_length; auto; [|constructor].
    apply Forall_forall. intros x Hx. apply repeat_spec in Hx. subst. unfold slot_ok. cbn. auto.
  - intros k. apply assoc_none. now rewrite live_empties.
Qed.
Lemma applies_app d h1 h2 : applies d (h1 ++ h2) = let! d' := applies d h1 in applies d' h2.
Proof. revert d. induction h1 as [|c h IH]; intros d; cbn; [reflexivity|]. destruct (apply d c); cbn; auto. Qed.

(** ** Sections *)
Lemma no_colon_spec k : no_colon k = true <-> ~ In 58 k.
Proof.
  unfold no_colon. rewrite negb_true_iff. destruct (existsb (Z.eqb 58) k) eqn:E.
  - split; [discriminate|]. intros H. apply existsb_exists in E as (x & Hx & E). apply Z.eqb_eq in E. subst. tauto.
  - split; [|reflexivity]. intros _ H. apply (existsb_exists (Z.eqb 58)) with (l := k) in E || idtac.
    assert (existsb (Z.eqb 58) k = true) by (apply existsb_exists; exists 58; auto). congruence.
Qed.
Definition secs (l : list slot) : list str := filter no_colon (live l).
Lemma secs_count l : List.length (filter is_section l) = List.length (secs l).
Proof.
  unfold secs. induction l as [|s l IH]; cbn; [reflexivity|]. unfold is_section at 1.
  destruct (s_key s) as [k|]; cbn; [|exact IH]. destruct (no_colon k); cbn; auto.
Qed.
Lemma secname_nth l n : secname_loop l n = nth_error (secs l) n.
Proof.
  revert n. unfold secs. induction l as [|s l IH]; cbn; intros n; [now destruct n|]. unfold is_section at 1.
  destruct (s_key s) as [k|]; cbn; [|apply IH]. destruct (no_colon k); cbn; [|apply IH]. destruct n; cbn; auto.
Qed.
Lemma folded_strlwc k : strlwc k = folded k.
Proof. unfold strlwc, folded. now rewrite firstn_map. Qed.
