(** C58, C99-C103: derived datasets. *)
From Verif Require Import Base BaseFacts IniModel IniProofs GeoModel GeoProps ToolModel ToolRunProps ScanModel ProxyModel.
From Coq Require Import Permutation.
Open Scope list_scope.
Open Scope Z_scope.

(** ** C58: sources agree *)
(** Sources offered one after the other, refusals caught by the caller: the
    accepted ones, oldest first, and whether the behaviour is defined. *)
Fixpoint offer (same : Z -> Z -> bool) (p : proxy) (l : list ds) : proxy * list ds * bool :=
  match l with
  | [] => (p, [], true)
  | d :: l' =>
      match add_info same p d with
      | (p', Undefined) => (p', [], false)
      | (p', Thrown) => offer same p' l'
      | (p', Done) => let '(q, acc, ok) := offer same p' l' in (q, d :: acc, ok)
      end
  end.
(** A dataset that can be a first source. *)
Definition complete (d : ds) : Prop := d_srs d <> None /\ d_gt d <> None /\ d_time d <> None /\ d_md d <> None /\ d_setmd d = true.
(** [a] lies on the grid of [d] and has its time. *)
Definition on_grid (same : Z -> Z -> bool) (d a : ds) : Prop :=
  d_gt a = d_gt d /\ d_time a = d_time d /\ d_xs a = d_xs d /\ d_ys a = d_ys d /\ exists o s, d_srs d = Some o /\ d_srs a = Some s /\ same o s = true.
(** The dataset describes the grid of [d]. *)
Definition describes (p : proxy) (d : ds) : Prop :=
  p_has p = true /\ p_osr p = d_srs d /\ d_srs d <> None /\ d_gt d = Some (p_gt p) /\ d_time d = Some (p_time p) /\ p_xs p = d_xs d /\ p_ys p = d_ys d /\ p_md p = d_md d.

Lemma add_first same d : complete d -> exists p, add_info same proxy0 d = (p, Done) /\ describes p d.
Proof.
  intros (A & B & C & D & E). unfold add_info. cbn [p_osr proxy0]. destruct (d_srs d) as [o|] eqn:S1; [|contradiction]. destruct (d_gt d) as [g|] eqn:G; [|contradiction]. destruct (d_time d) as [t|] eqn:T; [|contradiction]. cbn [p_has]. destruct (d_md d) as [m|] eqn:M; [|contradiction]. rewrite E. eexists. split; [reflexivity|]. unfold describes. cbn. rewrite S1, G, T, M. repeat split; congruence.
Qed.
Lemma add_later same p d0 d : describes p d0 ->
  match add_info same p d with
  | (p', Done) => p' = p /\ on_grid same d0 d
  | (p', Thrown) => p' = p /\ ~ on_grid same d0 d
  | (p', Undefined) => p' = p /\ d_srs d = None
  end.
Proof.
  intros (H & O & NO & G & T & X & Y & M). unfold add_info. destruct (d_srs d0) as [o|] eqn:S0; [|contradiction]. rewrite O. destruct (d_gt d) as [g|] eqn:G1; [|split; [reflexivity|intros (A & _); congruence]]. destruct (d_time d) as [t|] eqn:T1; [|split; [reflexivity|intros (_ & A & _); congruence]]. rewrite H.
  destruct (d_srs d) as [s|] eqn:S1; [|split; reflexivity]. destruct (same o s) eqn:E1; cbn [negb]; [|split; [reflexivity|intros (_ & _ & _ & _ & o' & s' & Q1 & Q2 & Q3); congruence]].
  destruct (list_eq_dec Z.eq_dec (p_gt p) g) as [EG|NG]; cbn [negb]; [|split; [reflexivity|intros (A & _); congruence]].
  destruct (str_eqb_spec (p_time p) t) as [ET|NT]; cbn [negb]; [|split; [reflexivity|intros (_ & A & _); congruence]].
  destruct (Z.eqb_spec (p_xs p) (d_xs d)) as [EX|NX]; cbn [negb]; [|split; [reflexivity|intros (_ & _ & A & _); congruence]].
  destruct (Z.eqb_spec (p_ys p) (d_ys d)) as [EY|NY]; cbn [negb]; [|split; [reflexivity|intros (_ & _ & _ & A & _); congruence]].
  split; [reflexivity|]. unfold on_grid. rewrite G1, T1, S0. repeat split; try congruence. exists o, s. auto.
Qed.
Lemma offer_later same p d0 l : describes p d0 -> let '(q, acc, ok) := offer same p l in
  q = p /\ (forall a, In a acc -> In a l /\ on_grid same d0 a) /\ (ok = true -> forall a, In a l -> on_grid same d0 a -> In a acc) /\ ((forall a, In a l -> d_srs a <> None) -> ok = true).
Proof.
  intros D. induction l as [|d l IH]; cbn [offer]; [repeat split; try contradiction; auto|]. pose proof (add_later same p d0 d D) as A. destruct (add_info same p d) as [p' [| |]]; destruct A as [-> A].
  - destruct (offer same p l) as [[q acc] ok]. destruct IH as (I1 & I2 & I3 & I4). split; [exact I1|]. split; [intros a [<-|K]; [split; [now left|exact A]|destruct (I2 a K); split; [now right|assumption]]|]. split; [intros OK a [<-|K] G; [now left|right; auto]|]. intros N. apply I4. intros a K. apply N. now right.
  - destruct (offer same p l) as [[q acc] ok]. destruct IH as (I1 & I2 & I3 & I4). split; [exact I1|]. split; [intros a K; destruct (I2 a K); split; [now right|assumption]|]. split; [intros OK a [<-|K] G; [contradiction|auto]|]. intros N. apply I4. intros a K. apply N. now right.
  - split; [reflexivity|]. split; [contradiction|]. split; [discriminate|]. intros N. now destruct (N d (or_introl eq_refl)).
Qed.
(** With a first source that can be accepted, and a projection in every other:
    exactly those on the grid of the first are accepted, and the dataset
    describes the first. *)
Theorem C58_agree_partial same d l : complete d -> (forall a, In a l -> d_srs a <> None) -> (forall o, same o o = true) ->
  exists q acc, offer same proxy0 (d :: l) = (q, acc, true) /\ describes q d /\ forall a, In a acc <-> In a (d :: l) /\ on_grid same d a.
Proof.
  intros C N R. cbn [offer]. destruct (add_first same d C) as (p & A & D). rewrite A. pose proof (offer_later same p d l D) as L. destruct (offer same p l) as [[q acc] ok]. destruct L as (-> & L2 & L3 & L4). specialize (L4 N). subst ok. exists p, (d :: acc). split; [reflexivity|]. split; [exact D|]. intros a. cbn [In]. split.
  - intros [<-|K]; [|destruct (L2 a K); auto]. split; [now left|]. unfold on_grid. destruct D as (_ & _ & NO & _). destruct (d_srs d) as [o|] eqn:S0; [|contradiction]. repeat split. exists o, o. auto.
  - intros ([<-|K] & G); [now left|right; auto].
Qed.
Print Assumptions C58_agree_partial.
(** A refused source changes nothing once there is one. *)
Theorem C58_refused same p d0 d p' : describes p d0 -> add_info same p d = (p', Thrown) -> p' = p.
Proof. intros D A. pose proof (add_later same p d0 d D) as L. rewrite A in L. apply L. Qed.
Print Assumptions C58_refused.
(** A refused first source leaves its projection behind, whatever the projection
    of the source accepted after it. *)
Theorem C58_refuted_first same d1 d2 o1 : d_srs d1 = Some o1 -> d_gt d1 = None \/ d_time d1 = None -> complete d2 ->
  exists q, offer same proxy0 [d1; d2] = (q, [d2], true) /\ p_osr q = Some o1.
Proof.
  intros O B (A1 & A2 & A3 & A4 & A5). cbn [offer].
  assert (E : add_info same proxy0 d1 = (mk_proxy (Some o1) false [] [] None 0 0 (repeat None 12) [], Thrown)) by (unfold add_info; cbn [p_osr proxy0]; rewrite O; destruct B as [->| ->]; [reflexivity|destruct (d_gt d1); reflexivity]).
  rewrite E. unfold add_info. cbn [p_osr]. destruct (d_gt d2) as [g|]; [|contradiction]. destruct (d_time d2) as [t|]; [|contradiction]. cbn [p_has]. destruct (d_md d2) as [m|]; [|contradiction]. rewrite A5. eexists. split; reflexivity.
Qed.
Print Assumptions C58_refuted_first.
(** A later source without projection is compared by dereferencing it. *)
Theorem C58_refuted_null same p d0 d : describes p d0 -> d_srs d = None -> d_gt d <> None -> d_time d <> None -> add_info same p d = (p, Undefined).
Proof.
  intros (H & O & NO & _) S1 G T. unfold add_info. destruct (d_srs d0) as [o|]; [|contradiction]. rewrite O, S1, H. destruct (d_gt d); [|contradiction]. destruct (d_time d); [|contradiction]. reflexivity.
Qed.
Print Assumptions C58_refuted_null.

(** ** C99: bands used *)
(** All the bands of the sources, in the order they are added. *)
Definition bands_of (d : ds) : list (ds * nat * band) := map (fun kb => (d, fst kb, snd kb)) (combine (seq 0 (List.length (d_bands d))) (d_bands d)).
Definition all_bands (l : list ds) : list (ds * nat * band) := flat_map bands_of l.
(** The channel in the metadata of a band. *)
Definition is_channel (id : Z) (x : ds * nat * band) : bool := match chan_of (snd x) with Some c => c =? id | None => false end.
(** The last such band. *)
Definition last_band (id : Z) (l : list (ds * nat * band)) : option (ds * nat) :=
  match find (is_channel id) (rev l) with Some x => Some (fst x) | None => None end.
Fixpoint add_sources (same : Z -> Z -> bool) (take : bool) (p : proxy) (l : list ds) : proxy * res :=
  match l with
  | [] => (p, Done)
  | d :: l' => match add_source same take p d with (p', Done) => add_sources same take p' l' | other => other end
  end.
Definition sources_are (p : proxy) (l : list (ds * nat * band)) : Prop :=
  List.length (p_src p) = 12%nat /\ forall id, 1 <= id <= 12 -> nth (Z.to_nat (id - 1)) (p_src p) None = last_band id l.
Lemma chan_range b id : chan_of b = Some id -> 1 <= id <= 12.
Proof. unfold chan_of. destruct (b_chan b); [|discriminate]. set (v := to_int _). destruct ((v <? 1) || (12 <? v)) eqn:E; [discriminate|]. intros H. injection H as <-. lia. Qed.
Lemma last_band_snoc id l x : last_band id (l ++ [x]) = if is_channel id x then Some (fst x) else last_band id l.
Proof. unfold last_band. rewrite rev_app_distr. cbn [rev app find]. destruct (is_channel id x); reflexivity. Qed.
Lemma add_info_src same p d : p_src (fst (add_info same p d)) = p_src p /\ p_own (fst (add_info same p d)) = p_own p.
Proof.
  unfold add_info. destruct (p_osr p), (d_srs d), (d_gt d), (d_time d), (p_has p); cbn; try (split; reflexivity); repeat (match goal with |- context [if ?b then _ else _] => destruct b end; cbn; try (split; reflexivity)); repeat (match goal with |- context [match d_md d with _ => _ end] => destruct (d_md d) end; cbn; try (split; reflexivity)); repeat (match goal with |- context [if ?b then _ else _] => destruct b end; cbn; try (split; reflexivity)).
Qed.
Lemma add_bands_src same take d : forall l k p p' pre, add_bands same take d k l p = (p', Done) -> sources_are p pre ->
  sources_are p' (pre ++ map (fun kb => (d, fst kb, snd kb)) (combine (seq k (List.length l)) l)).
Proof.
  induction l as [|b l IH]; intros k p p' pre A S0; cbn [add_bands] in A.
  - injection A as <-. cbn. now rewrite app_nil_r.
  - cbn [List.length seq combine map fst snd]. replace (pre ++ (d, k, b) :: map (fun kb => (d, fst kb, snd kb)) (combine (seq (S k) (List.length l)) l)) with ((pre ++ [(d, k, b)]) ++ map (fun kb => (d, fst kb, snd kb)) (combine (seq (S k) (List.length l)) l)) by (rewrite <- app_assoc; reflexivity).
    destruct (chan_of b) as [id|] eqn:C.
    + pose proof (add_info_src same p d) as [Q _]. destruct (add_info same p d) as [q [| |]]; try discriminate. cbn [fst] in Q. apply (IH _ _ _ _ A). destruct S0 as [S1 S2]. split; cbn [p_src]; [now rewrite set_nth_length, Q|]. intros i I. rewrite last_band_snoc. unfold is_channel at 1. cbn [snd fst]. rewrite C. pose proof (chan_range b id C) as R. destruct (Z.eqb_spec id i) as [->|N].
      * rewrite set_nth_same; [reflexivity|]. rewrite Q, S1. lia.
      * rewrite set_nth_other by lia. rewrite Q. now apply S2.
    + apply (IH _ _ _ _ A). destruct S0 as [S1 S2]. split; [exact S1|]. intros i I. rewrite last_band_snoc. unfold is_channel at 1. cbn [snd]. rewrite C. now apply S2.
Qed.
Lemma add_sources_src same take l : forall p p' pre, add_sources same take p l = (p', Done) -> sources_are p pre -> sources_are p' (pre ++ all_bands l).
Proof.
  induction l as [|d l IH]; intros p p' pre A S0; cbn [add_sources] in A; [injection A as <-; cbn; now rewrite app_nil_r|]. destruct (add_source same take p d) as [q [| |]] eqn:E; try discriminate. cbn [all_bands flat_map]. rewrite app_assoc. apply (IH _ _ _ A). unfold add_source in E. exact (add_bands_src _ _ _ _ _ _ _ _ E S0).
Qed.
Lemma sources0 : sources_are proxy0 [].
Proof. split; [reflexivity|]. intros id _. cbn [p_src proxy0 last_band rev find]. apply nth_repeat. Qed.
Theorem C99_sources same take l p id : add_sources same take proxy0 l = (p, Done) -> 1 <= id <= 12 -> nth (Z.to_nat (id - 1)) (p_src p) None = last_band id (all_bands l).
Proof. intros A I. pose proof (add_sources_src _ _ _ _ _ _ A sources0) as [_ H]. now apply H. Qed.
Print Assumptions C99_sources.
(** Decimal channel numbers are read as such, others are ignored. *)
Theorem C99_channel b s : b_chan b = Some s -> all_digits s -> decimal s < 2 ^ 31 -> chan_of b = if (1 <=? decimal s) && (decimal s <=? 12) then Some (decimal s) else None.
Proof.
  intros C A B. unfold chan_of. rewrite C, strtoul_digits by exact A. pose proof (decimal_nonneg _ (proj2 A)) as NN. set (v := decimal s) in *. replace (2 ^ 64 <=? v) with false by (symmetry; apply Z.leb_gt; lia). cbn [fst]. rewrite to_int_fits by (unfold int_fits; lia). destruct ((1 <=? v) && (v <=? 12)) eqn:E; destruct ((v <? 1) || (12 <? v)) eqn:F; try reflexivity; lia.
Qed.
Print Assumptions C99_channel.
(** Channel numbers above 2^32 are taken for a channel of the satellite. *)
Theorem C99_refuted_wrap b s c : b_chan b = Some s -> all_digits s -> decimal s = 2 ^ 32 + c -> 1 <= c <= 12 -> chan_of b = Some c.
Proof.
  intros C A B R. unfold chan_of. rewrite C, strtoul_digits by exact A. rewrite B. replace (2 ^ 64 <=? 2 ^ 32 + c) with false by lia. cbn [fst]. assert (E : to_int (2 ^ 32 + c) = c) by (unfold to_int; lia). rewrite E. replace ((c <? 1) || (12 <? c)) with false by lia. reflexivity.
Qed.
Print Assumptions C99_refuted_wrap.

(** ** C100: datasets handed over *)
Definition has_channel (d : ds) : bool := existsb (fun b => match chan_of b with Some _ => true | None => false end) (d_bands d).
Lemma own_in i j l : In j (own i l) <-> j = i \/ In j l.
Proof.
  unfold own. destruct (existsb (Z.eqb i) l) eqn:E; cbn [In]; [|intuition congruence]. apply existsb_exists in E. destruct E as (x & X & Y). apply Z.eqb_eq in Y. subst x. intuition congruence.
Qed.
Lemma own_nodup i l : NoDup l -> NoDup (own i l).
Proof.
  intros H. unfold own. destruct (existsb (Z.eqb i) l) eqn:E; [exact H|]. constructor; [|exact H]. intros I. assert (existsb (Z.eqb i) l = true) by (apply existsb_exists; exists i; split; [exact I|apply Z.eqb_refl]). congruence.
Qed.
Lemma add_bands_own same d : forall l k p p', add_bands same true d k l p = (p', Done) -> NoDup (p_own p) ->
  NoDup (p_own p') /\ forall i, In i (p_own p') <-> In i (p_own p) \/ (i = d_id d /\ existsb (fun b => match chan_of b with Some _ => true | None => false end) l = true).
Proof.
  induction l as [|b l IH]; intros k p p' A N; cbn [add_bands] in A.
  - injection A as <-. split; [exact N|]. intros i. cbn. intuition discriminate.
  - cbn [existsb]. destruct (chan_of b) as [id|] eqn:C.
    + pose proof (add_info_src same p d) as [_ Q]. destruct (add_info same p d) as [q [| |]]; try discriminate. cbn [fst] in Q. destruct (IH _ _ _ A) as [I1 I2]; [cbn [p_own]; rewrite Q; now apply own_nodup|]. split; [exact I1|]. intros i. rewrite I2. cbn [p_own orb]. rewrite own_in, Q. intuition.
    + destruct (IH _ _ _ A N) as [I1 I2]. split; [exact I1|]. intros i. rewrite I2. reflexivity.
Qed.
Lemma add_sources_own same l : forall p p', add_sources same true p l = (p', Done) -> NoDup (p_own p) ->
  NoDup (p_own p') /\ forall i, In i (p_own p') <-> In i (p_own p) \/ exists d, In d l /\ d_id d = i /\ has_channel d = true.
Proof.
  induction l as [|d l IH]; intros p p' A N; cbn [add_sources] in A; [injection A as <-; split; [exact N|]; intros i; split; [auto|intros [H|(d & [] & _)]; exact H]|]. destruct (add_source same true p d) as [q [| |]] eqn:E; try discriminate. unfold add_source in E. destruct (add_bands_own _ _ _ _ _ _ E N) as [B1 B2]. destruct (IH _ _ A B1) as [I1 I2]. split; [exact I1|]. intros i. rewrite I2, B2. cbn [In]. split.
  - intros [[H|[H1 H2]]|(e & H1 & H2 & H3)]; [auto|right; exists d; auto|right; exists e; auto].
  - intros [H|(e & [<-|H1] & H2 & H3)]; [auto|left; right; auto|right; exists e; auto].
Qed.
(** Destroying the dataset deletes each source handed over once, if it has a band
    of a known channel. *)
Theorem C100_deleted_once_partial same l p : add_sources same true proxy0 l = (p, Done) -> NoDup (destroy p) /\ forall i, In i (destroy p) <-> exists d, In d l /\ d_id d = i /\ has_channel d = true.
Proof. intros A. destruct (add_sources_own _ _ _ _ A) as [H1 H2]; [constructor|]. split; [exact H1|]. intros i. unfold destroy. rewrite H2. cbn. intuition. Qed.
Print Assumptions C100_deleted_once_partial.
(** The others are never deleted. *)
Theorem C100_refuted_leak same d p : has_channel d = false -> ~ In (d_id d) (p_own p) -> add_source same true p d = (p, Done) /\ ~ In (d_id d) (destroy p).
Proof.
  intros H N. split; [|exact N]. unfold add_source, has_channel in *. generalize 0%nat. induction (d_bands d) as [|b l IH]; intros k; cbn [add_bands existsb] in *; [reflexivity|]. destruct (chan_of b); [discriminate|]. apply IH. exact H.
Qed.
Print Assumptions C100_refuted_leak.
(** Nor is a first source that is refused. *)
Theorem C100_refuted_refused same d p r : add_source same true proxy0 d = (p, r) -> r <> Done -> d_srs d = None \/ d_gt d = None \/ d_time d = None \/ d_md d = None \/ d_setmd d = false -> destroy p = [].
Proof.
  intros A R B. unfold add_source in A. revert A. generalize 0%nat. induction (d_bands d) as [|b l IH]; intros k A; cbn [add_bands] in A; [injection A as <- <-; contradiction|]. destruct (chan_of b); [|now apply (IH (S k))]. pose proof (add_info_src same proxy0 d) as [_ Q].
  destruct (add_info same proxy0 d) as [q s] eqn:E. destruct s; [|injection A as <- _; exact Q|injection A as <- _; exact Q]. exfalso. unfold add_info in E. cbn [p_osr proxy0] in E. destruct (d_srs d); [|discriminate]. destruct (d_gt d); [|discriminate]. destruct (d_time d); [|discriminate]. cbn [p_has] in E. destruct (d_md d); [|discriminate]. destruct (d_setmd d); [|discriminate]. destruct B as [B|[B|[B|[B|B]]]]; discriminate.
Qed.
Print Assumptions C100_refuted_refused.
