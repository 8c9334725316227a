From Coq Require Import ZArith List Lia Bool String.
From Verif Require Import Base BaseFacts LayoutModel LayoutSpec LayoutProofs.
Import ListNotations.
Open Scope Z_scope.

(** * Formats *)

Fixpoint chain (f : fmt) : option (list string) :=
  match f with
  | Empty => Some []
  | Cons nm _ r => match chain r with Some l => Some (nm :: l) | None => None end
  | _ => None
  end.
Definition fresh (nm : string) (r : fmt) : bool :=
  match chain r with Some l => negb (existsb (String.eqb nm) l) | None => false end.
(* positive widths, different names in each record *)
Fixpoint wf (f : fmt) : bool :=
  match f with
  | Leaf w | Gap w => 0 <? w
  | Empty => true
  | Cons nm f r => wf f && wf r && fresh nm r
  | Arr n f => (0 <=? n) && wf f
  end.

Lemma size_nonneg f : wf f = true -> 0 <= size f.
Proof.
  induction f; cbn; intro H; try lia.
  - apply andb_prop in H as [H H3]. apply andb_prop in H as [H1 H2].
    specialize (IHf1 H1). specialize (IHf2 H2). lia.
  - apply andb_prop in H as [H1 H2]. specialize (IHf H2). nia.
Qed.

Definition hits (x : Z) (l : list acc) : nat := List.length (filter (holds x) l).
Lemma hits_app x l m : hits x (l ++ m) = (hits x l + hits x m)%nat.
Proof. unfold hits. now rewrite filter_app, app_length. Qed.

Definition within (x b s : Z) : nat := if (b <=? x) && (x <? b + s) then 1%nat else 0%nat.

Lemma slots_tile f : wf f = true -> forall p b x, hits x (slots f p b) = within x b (size f).
Proof.
  induction f; cbn [wf slots size]; intros Hw p b x.
  - unfold hits, within. cbn [filter holds]. destruct ((b <=? x) && (x <? b + w)); reflexivity.
  - unfold hits, within. cbn [filter holds]. destruct ((b <=? x) && (x <? b + w)); reflexivity.
  - unfold hits, within. cbn. destruct (Z.leb_spec b x), (Z.ltb_spec x (b + 0)); cbn; lia.
  - apply andb_prop in Hw as [Hw H3]. apply andb_prop in Hw as [H1 H2].
    rewrite hits_app, (IHf1 H1), (IHf2 H2).
    pose proof (size_nonneg _ H1). pose proof (size_nonneg _ H2).
    unfold within.
    destruct (Z.leb_spec b x), (Z.ltb_spec x (b + size f1)), (Z.leb_spec (b + size f1) x),
      (Z.ltb_spec x (b + size f1 + size f2)), (Z.ltb_spec x (b + (size f1 + size f2))); cbn; lia.
  - apply andb_prop in Hw as [H1 H2]. pose proof (size_nonneg _ H2) as Hs.
    assert (Hn : 0 <= n) by lia. clear H1.
    pattern n. apply natlike_ind; [| | exact Hn].
    + cbn. unfold within. destruct (Z.leb_spec b x), (Z.ltb_spec x (b + 0)); cbn; lia.
    + intros m Hm IH. replace (Z.succ m) with (m + 1) by lia.
      rewrite idx_S by lia. rewrite flat_map_app, hits_app, IH. cbn [flat_map].
      rewrite app_nil_r, (IHf H2). unfold within.
      assert (Hms : 0 <= m * size f) by nia.
      replace (b + (m + 1) * size f) with (b + m * size f + size f) by lia.
      destruct (Z.leb_spec b x), (Z.ltb_spec x (b + m * size f)), (Z.leb_spec (b + m * size f) x),
        (Z.ltb_spec x (b + m * size f + size f)); cbn; lia.
Qed.

Lemma slots_inside f : wf f = true -> forall p b,
  Forall (fun '(_, o, w) => b <= o /\ o + w <= b + size f /\ 0 < w) (slots f p b).
Proof.
  induction f; cbn [wf slots size]; intros Hw p b.
  - constructor; [| constructor]. lia.
  - constructor; [| constructor]. lia.
  - constructor.
  - apply andb_prop in Hw as [Hw H3]. apply andb_prop in Hw as [H1 H2].
    pose proof (size_nonneg _ H1). pose proof (size_nonneg _ H2).
    apply Forall_app; split.
    + eapply Forall_impl; [| apply (IHf1 H1)]. intros [[q o] w]. lia.
    + eapply Forall_impl; [| apply (IHf2 H2)]. intros [[q o] w]. lia.
  - apply andb_prop in Hw as [H1 H2]. pose proof (size_nonneg _ H2) as Hs.
    apply Forall_forall. intros [[q o] w] Hin. apply in_flat_map in Hin as (i & Hi & Hin).
    specialize (IHf H2 (I i :: p) (b + i * size f)).
    rewrite Forall_forall in IHf. specialize (IHf _ Hin). cbn in IHf.
    unfold idx in Hi. apply in_map_iff in Hi as (k & <- & Hk). apply in_seq in Hk. nia.
Qed.

Lemma fields_slots f : forall p b a, In a (fields f p b) -> In a (slots f p b).
Proof.
  induction f; intros p b a; cbn [fields slots]; auto.
  - intros [].
  - intro H. apply in_app_or in H as [H|H]; apply in_or_app; auto.
  - intro H. apply in_flat_map in H as (i & Hi & H). apply in_flat_map. eauto.
Qed.

(** Paths *)
Definition path_of (a : acc) : path := fst (fst a).
Lemma slots_path f : forall p b a, In a (slots f p b) -> exists q, path_of a = q ++ p.
Proof.
  induction f; intros p b a; cbn [slots].
  - intros [<-|[]]. now exists [].
  - intros [<-|[]]. now exists [].
  - intros [].
  - intro H. apply in_app_or in H as [H|H].
    + destruct (IHf1 _ _ _ H) as [q Hq]. exists (q ++ [N nm]). now rewrite <- app_assoc.
    + eauto.
  - intro H. apply in_flat_map in H as (i & Hi & H).
    destruct (IHf _ _ _ H) as [q Hq]. exists (q ++ [I i]). now rewrite <- app_assoc.
Qed.
Lemma chain_path f l : chain f = Some l -> forall p b a, In a (slots f p b) ->
  exists q nm, In nm l /\ path_of a = q ++ N nm :: p.
Proof.
  revert l. induction f; intros l Hc p b a; cbn in Hc; try discriminate.
  - intros [].
  - destruct (chain f2) as [m|] eqn:E; [| discriminate]. injection Hc as <-.
    cbn [slots]. intro H. apply in_app_or in H as [H|H].
    + destruct (slots_path _ _ _ _ H) as [q Hq]. exists q, nm. split; [now left | exact Hq].
    + destruct (IHf2 m eq_refl _ _ _ H) as (q & nm' & Hin & Hq). exists q, nm'. split; [now right | exact Hq].
Qed.

Lemma app_tail_inj {A} (q q' : list A) x y p : q ++ x :: p = q' ++ y :: p -> x = y.
Proof.
  intro H. assert (L : List.length q = List.length q').
  { apply (f_equal (@List.length A)) in H. rewrite !app_length in H. cbn in H. lia. }
  revert q' L H. induction q as [|a q IH]; intros [|a' q'] L H; cbn in *; try lia.
  - now injection H.
  - injection H as _ H. apply (IH q'); [lia | exact H].
Qed.

Lemma NoDup_app_intro {A} (l m : list A) :
  NoDup l -> NoDup m -> (forall x, In x l -> In x m -> False) -> NoDup (l ++ m).
Proof.
  induction l as [|a l IH]; cbn; intros Hl Hm H; [exact Hm|].
  inversion Hl as [|? ? Ha Hl']; subst. constructor.
  - intro Hin. apply in_app_or in Hin as [Hin|Hin]; [auto|]. apply (H a); auto.
  - apply IH; auto. intros x Hx Hy. apply (H x); auto.
Qed.

Lemma slots_paths f : wf f = true -> forall p b, NoDup (map path_of (slots f p b)).
Proof.
  induction f; cbn [wf]; intros Hw p b; cbn [slots map].
  - repeat constructor. intros [].
  - repeat constructor. intros [].
  - constructor.
  - apply andb_prop in Hw as [Hw H3]. apply andb_prop in Hw as [H1 H2].
    rewrite map_app. apply NoDup_app_intro; auto.
    intros x Hx Hy. apply in_map_iff in Hx as (a & <- & Ha). apply in_map_iff in Hy as (a' & E & Ha').
    unfold fresh in H3. destruct (chain f2) as [l|] eqn:Ec; [| discriminate].
    destruct (chain_path _ _ Ec _ _ _ Ha') as (q & nm' & Hin & Hq).
    destruct (slots_path _ _ _ _ Ha) as [q' Hq'].
    rewrite E, Hq' in Hq. apply app_tail_inj in Hq. injection Hq as <-.
    apply negb_true_iff in H3. rewrite <- not_true_iff_false in H3. apply H3.
    apply existsb_exists. exists nm. split; [exact Hin | apply String.eqb_refl].
  - apply andb_prop in Hw as [H1 H2]. unfold idx.
    assert (Hs : NoDup (seq 0 (Z.to_nat n))) by apply seq_NoDup.
    induction (seq 0 (Z.to_nat n)) as [|k s IH]; cbn [map flat_map]; [constructor|].
    inversion Hs as [|? ? Hk Hs']; subst.
    rewrite map_app. apply NoDup_app_intro; auto.
    intros x Hx Hy. apply in_map_iff in Hx as (a & <- & Ha). apply in_map_iff in Hy as (a' & E & Ha').
    apply in_flat_map in Ha' as (i & Hi & Ha').
    destruct (slots_path _ _ _ _ Ha) as [q Hq]. destruct (slots_path _ _ _ _ Ha') as [q' Hq'].
    rewrite E, Hq in Hq'. apply app_tail_inj in Hq'. injection Hq' as Hq'.
    apply in_map_iff in Hi as (k' & <- & Hk'). assert (k' = k) by lia. now subst.
Qed.

(** * Where the reads lie *)
Definition between (lo hi : Z) (l : list acc) : Prop :=
  Forall (fun '(_, o, w) => lo <= o /\ o + w <= hi) l.
Definition trigger (s : string) : bool :=
  String.eqb s "DCRValues" || String.eqb s "SpinRate" ||
  String.eqb s "ResamplingFunction" || String.eqb s "CalibrationConstants".
Fixpoint plain (f : fmt) : bool :=
  match f with
  | Leaf _ | Gap _ | Empty => true
  | Cons nm f r => negb (trigger nm) && plain f && plain r
  | Arr _ f => plain f
  end.
Definition quiet (p : path) : Prop := moved p = 0 /\ forall i, moved (I i :: p) = 0.
Lemma quiet_name s p : trigger s = false -> quiet (N s :: p).
Proof.
  unfold trigger, quiet. intro H. apply orb_false_iff in H as [H H4]. apply orb_false_iff in H as [H H3].
  apply orb_false_iff in H as [H1 H2]. cbn [moved]. rewrite H1, H2, H3, H4. auto.
Qed.
Lemma quiet_index i p : quiet p -> quiet (I i :: p).
Proof. intros [H1 H2]. split; [ apply H2 | reflexivity ]. Qed.
Lemma plain_fields f : plain f = true -> forall p b, quiet p -> mplace f p b = fields f p b.
Proof.
  induction f; cbn [plain mplace fields]; intros Hp p b Hq; try reflexivity.
  - destruct Hq as [Hq _]. rewrite Hq, Z.add_0_r. reflexivity.
  - apply andb_prop in Hp as [Hp H2]. apply andb_prop in Hp as [H0 H1].
    rewrite (IHf1 H1), (IHf2 H2); auto. apply quiet_name. now apply negb_true_iff in H0.
  - apply flat_map_ext; intro i. apply (IHf Hp). now apply quiet_index.
Qed.
Lemma plain_between f p b lo hi :
  plain f = true -> wf f = true -> quiet p -> lo <= b -> b + size f <= hi -> between lo hi (mplace f p b).
Proof.
  intros Hp Hw Hq Hl Hh. rewrite plain_fields by assumption.
  apply Forall_forall. intros [[q o] w] Hin. apply fields_slots in Hin.
  pose proof (slots_inside f Hw p b) as H. rewrite Forall_forall in H. specialize (H _ Hin). cbn in H. lia.
Qed.
Lemma between_cons nm f r p b lo hi :
  between lo hi (mplace f (N nm :: p) b) -> between lo hi (mplace r p (b + size f)) ->
  between lo hi (mplace (Cons nm f r) p b).
Proof. intros. apply Forall_app. now split. Qed.
Lemma between_arr n f p b lo hi :
  (forall i, 0 <= i < n -> between lo hi (mplace f (I i :: p) (b + i * size f))) ->
  between lo hi (mplace (Arr n f) p b).
Proof.
  intro H. apply Forall_forall. intros a Ha. cbn [mplace] in Ha. apply in_flat_map in Ha as (i & Hi & Ha).
  unfold idx in Hi. apply in_map_iff in Hi as (k & <- & Hk). apply in_seq in Hk.
  assert (0 <= Z.of_nat k < n) as Hi by lia. specialize (H _ Hi).
  unfold between in H. rewrite Forall_forall in H. now apply H.
Qed.
Lemma between_leaf w p b lo hi :
  lo <= b + moved p -> b + moved p + w <= hi -> between lo hi (mplace (Leaf w) p b).
Proof. intros. repeat constructor; lia. Qed.
Lemma between_nil lo hi p b : between lo hi (mplace Empty p b).
Proof. constructor. Qed.
Lemma between_gap lo hi p b w : between lo hi (mplace (Gap w) p b).
Proof. constructor. Qed.

(* a chain of fields, the plain ones at once *)
Ltac bchain :=
  lazymatch goal with
  | |- between _ _ (mplace Empty _ _) => apply between_nil
  | |- between _ _ (mplace (Gap _) _ _) => apply between_gap
  | |- between _ _ (mplace (Cons ?nm ?f ?r) _ _) =>
      apply between_cons;
      [ first [ apply plain_between; [ reflexivity | reflexivity | apply quiet_name; reflexivity
                                     | lia | (let v := eval compute in (size f) in change (size f) with v); lia ]
              | idtac ]
      | let v := eval compute in (size f) in change (size f) with v; bchain ]
  end.
Ltac leaf := apply between_leaf; cbn [moved String.eqb Ascii.eqb Bool.eqb]; lia.

Lemma bbd_between p b lo hi : lo <= b -> b + 967 <= hi -> between lo hi (mplace MSG_BlackBodyDataUsed_fmt p b).
Proof.
  intros H1 H2. unfold MSG_BlackBodyDataUsed_fmt, u1, u2, u4, i4, r4, r8. cbn [rec fold_right fst snd].
  bchain. leaf.
Qed.
Lemma radproc_between p b lo hi : lo <= b -> b + 20815 <= hi -> between lo hi (mplace MSG_data_RadiometricProc_fmt p b).
Proof.
  intros H1 H2. unfold MSG_data_RadiometricProc_fmt, u1, u2, u4, i4, r4, r8. cbn [rec fold_right fst snd].
  bchain. apply bbd_between; lia.
Qed.
Lemma geom_between p b lo hi : lo <= b -> b + 17642 <= hi -> between lo hi (mplace MSG_data_GeometricProc_fmt p b).
Proof.
  intros H1 H2. unfold MSG_data_GeometricProc_fmt, u1, u2, u4, i4, r4, r8. cbn [rec fold_right fst snd].
  bchain. apply between_arr. intros i Hi. apply between_leaf; cbn [moved size String.eqb Ascii.eqb Bool.eqb]; lia.
Qed.
Lemma bws_between p b lo hi : lo <= b -> b + 4480 <= hi -> between lo hi (mplace MSG_BlackBodyDataWarmStart_fmt p b).
Proof.
  intros H1 H2. unfold MSG_BlackBodyDataWarmStart_fmt, u1, u2, u4, i4, r4, r8. cbn [rec fold_right fst snd].
  bchain. apply between_arr. intros i Hi. apply between_leaf; cbn [moved size String.eqb Ascii.eqb Bool.eqb]; lia.
Qed.
Lemma impf_between p b lo hi : lo <= b -> b + 19786 <= hi -> between lo hi (mplace MSG_data_IMPFConfiguration_fmt p b).
Proof.
  intros H1 H2. unfold MSG_data_IMPFConfiguration_fmt. cbn [rec fold_right fst snd].
  bchain. unfold MSG_WarmStartParms_fmt, r8, r4. cbn [rec fold_right fst snd]. bchain.
  apply bws_between; lia.
Qed.
Lemma navig_between p b lo hi : lo <= b -> b + 5680 <= hi -> between lo hi (mplace MSG_data_NavigExtrResult_fmt p b).
Proof.
  intros H1 H2. unfold MSG_data_NavigExtrResult_fmt. cbn [rec fold_right fst snd].
  bchain.
  - apply between_arr. intros i Hi. change (size MSG_HorizonObservation_fmt) with 65.
    unfold MSG_HorizonObservation_fmt, u1, u2, r8. cbn [rec fold_right fst snd]. bchain. leaf.
  - apply between_arr. intros i Hi. change (size MSG_StarObservation_fmt) with 66.
    unfold MSG_StarObservation_fmt, u1, u2, r8. cbn [rec fold_right fst snd]. bchain. leaf.
  - apply between_arr. intros i Hi. change (size MSG_LandmarkObservation_fmt) with 82.
    unfold MSG_LandmarkObservation_fmt, u1, u2, r8. cbn [rec fold_right fst snd]. bchain. leaf.
Qed.

(** * The four readers *)
Lemma prologue_ok p b : prologue_read p b = (mplace prologue_fmt p b, 425461).
Proof. unfold prologue_fmt, prologue_records. layout prologue_fmt prologue_read. Qed.
Lemma header_ok p b : native_header_read p b = (mplace header_fmt p b, 445248).
Proof. unfold header_fmt, prologue_records; cbn [app]. layout header_fmt native_header_read. Qed.
Lemma trailer_ok p b : native_trailer_read p b = (mplace trailer_fmt p b, 380325).
Proof. unfold trailer_fmt, trailer_records. layout trailer_fmt native_trailer_read. Qed.
Lemma epilogue_ok p b : epilogue_read p b = (mplace trailer_fmt p b, 380325).
Proof. unfold trailer_fmt, trailer_records. layout trailer_fmt epilogue_read. Qed.

Lemma prologue_between p b : between b (b + 425450) (mplace prologue_fmt p b).
Proof.
  unfold prologue_fmt, prologue_records. cbn [rec fold_right fst snd]. bchain.
  - apply radproc_between; lia.
  - apply geom_between; lia.
Qed.
Lemma header_between p b : between b (b + 445248) (mplace header_fmt p b).
Proof.
  unfold header_fmt, prologue_records. cbn [app rec fold_right fst snd]. bchain.
  - apply radproc_between; lia.
  - apply geom_between; lia.
  - apply impf_between; lia.
Qed.
Lemma trailer_between p b : between b (b + 380325) (mplace trailer_fmt p b).
Proof.
  unfold trailer_fmt, trailer_records. cbn [app rec fold_right fst snd]. bchain.
  apply navig_between; lia.
Qed.
