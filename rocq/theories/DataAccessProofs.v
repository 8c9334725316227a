From Verif Require Import BaseFacts MachineModel HeaderModel HeaderSpec DataAccessModel DataAccessSpec.
From Coq Require Import Sorted.

(** * Heap *)
Lemma heap_get_in h p d : heap_get h p = Some d -> In p (map fst h).
Proof.
  induction h as [|[q e] h IH]; cbn [heap_get map fst In]; [discriminate|].
  destruct (Z.eqb_spec q p); auto.
Qed.
Lemma heap_in_get h p : In p (map fst h) -> exists d, heap_get h p = Some d.
Proof.
  induction h as [|[q e] h IH]; cbn [heap_get map fst In]; [tauto|].
  destruct (Z.eqb_spec q p); eauto. intros [|]; [congruence|auto].
Qed.
Lemma heap_remove_other h p q : p <> q -> heap_get (heap_remove h p) q = heap_get h q.
Proof.
  intros H. induction h as [|[r e] h IH]; cbn [heap_get heap_remove]; [reflexivity|].
  destruct (Z.eqb_spec r p) as [->|]; cbn [heap_get].
  - destruct (Z.eqb_spec p q); [contradiction|reflexivity].
  - rewrite IH. reflexivity.
Qed.
Lemma heap_remove_in h p q : In q (map fst (heap_remove h p)) -> In q (map fst h).
Proof.
  induction h as [|[r e] h IH]; cbn [heap_remove map fst In]; [tauto|].
  destruct (Z.eqb_spec r p); cbn [map fst In]; tauto.
Qed.
Lemma heap_remove_gone h p : NoDup (map fst h) -> ~ In p (map fst (heap_remove h p)).
Proof.
  induction h as [|[r e] h IH]; cbn [heap_remove map fst]; intros Hn; [auto|].
  inversion Hn; subst. destruct (Z.eqb_spec r p) as [->|Hr]; [assumption|].
  cbn [map fst In]. intros [|]; [contradiction|]. now apply IH.
Qed.
Lemma heap_remove_NoDup h p : NoDup (map fst h) -> NoDup (map fst (heap_remove h p)).
Proof.
  induction h as [|[r e] h IH]; cbn [heap_remove map fst]; intros Hn; [constructor|].
  inversion Hn; subst. destruct (Z.eqb_spec r p); [assumption|].
  cbn [map fst]. constructor; [|auto]. intros H. apply H1. eapply heap_remove_in; eauto.
Qed.
Lemma heap_remove_length h p d : heap_get h p = Some d ->
  S (List.length (heap_remove h p)) = List.length h.
Proof.
  induction h as [|[r e] h IH]; cbn [heap_get heap_remove List.length]; [discriminate|].
  destruct (r =? p); [reflexivity|]. intros H. cbn [List.length]. rewrite IH by exact H. reflexivity.
Qed.

(** * Invariant of the cache. [P f d]: [d] is an acceptable content of file [f]. *)
Record inv (names : list fname) (P : fname -> list Z -> Prop) (st : da) : Prop := mk_inv {
  inv_len : (List.length (da_cache st) <= 2)%nat;
  inv_keys : NoDup (map fst (da_cache st));
  inv_ptrs : NoDup (map snd (da_cache st));
  inv_heap : NoDup (map fst (da_heap st));
  inv_next : forall p, In p (map fst (da_heap st)) -> p < da_next st;
  inv_data : forall k p, In (k, p) (da_cache st) -> 0 <= k /\
    exists f d, recorded names k = Some f /\ heap_get (da_heap st) p = Some d /\ P f d }.

Lemma inv_init names P : inv names P da_init.
Proof. constructor; cbn; try constructor; try lia; tauto. Qed.

Lemma recorded_spec names idx : 0 <= idx ->
  recorded names idx =
    if Z.of_nat (List.length names) <=? idx then None
    else match nth (Z.to_nat idx) names [] with [] => None | f => Some f end.
Proof.
  intros H0. unfold recorded. replace (idx <? 0) with false by lia.
  destruct (Z.leb_spec (Z.of_nat (List.length names)) idx).
  - destruct (nth_error names (Z.to_nat idx)) eqn:E; [|reflexivity].
    apply nth_error_Some_bound_index in E || (assert (nth_error names (Z.to_nat idx) <> None) as X by congruence; apply nth_error_Some in X; lia).
  - rewrite (nth_error_nth' names []) by lia. destruct (nth (Z.to_nat idx) names []); reflexivity.
Qed.

(** Miss path with the tests replaced by [recorded]. *)
Lemma segment_miss_spec names ld st idx : 0 <= idx ->
  segment_miss names ld st idx =
  match recorded names idx with
  | None => (st, Ok None)
  | Some name =>
      let evicted :=
        if (List.length (da_cache st) =? 2)%nat then
          match rev (da_cache st) with
          | (_, p) :: rest =>
              match heap_free (da_heap st) p with
              | Some h => Some (rev rest, h)
              | None => None
              end
          | [] => None
          end
        else Some (da_cache st, da_heap st) in
      match evicted with
      | None => (st, UB)
      | Some (cache, heap) =>
          let p := da_next st in
          let reads := idx :: da_reads st in
          match ld name with
          | Ok d => (mk_da ((idx, p) :: cache) ((p, d) :: heap) (p + 1) reads, Ok (Some p))
          | Throw => (mk_da cache ((p, []) :: heap) (p + 1) reads, Throw)
          | Terminate => (mk_da cache ((p, []) :: heap) (p + 1) reads, Terminate)
          | UB => (mk_da cache ((p, []) :: heap) (p + 1) reads, UB)
          | Loop => (mk_da cache ((p, []) :: heap) (p + 1) reads, Loop)
          end
      end
  end.
Proof.
  intros H. unfold segment_miss. rewrite recorded_spec by exact H.
  destruct (_ <=? _); [reflexivity|]. destruct (nth (Z.to_nat idx) names []); reflexivity.
Qed.

(** Outcome of a load as a result of segment. *)
Definition as_result {A B} (o : outcome A) (ok : outcome B) : outcome B :=
  match o with Ok _ => ok | Throw => Throw | Terminate => Terminate | UB => UB | Loop => Loop end.

(** The three things a request can do. *)
Inductive seg_step (names : list fname) (ld : loader) (st : da) (idx : Z) : da * outcome (option Z) -> Prop :=
| st_hit p others :
    Permutation (da_cache st) ((idx, p) :: others) ->
    (forall k q, (k, q) :: nil = firstn 1 (da_cache st) -> k = idx -> da_cache st = (idx, p) :: others) ->
    seg_step names ld st idx
      (mk_da ((idx, p) :: others) (da_heap st) (da_next st) (da_reads st), Ok (Some p))
| st_none :
    ~ In idx (map fst (da_cache st)) -> recorded names idx = None ->
    seg_step names ld st idx (st, Ok None)
| st_load f cache heap :
    ~ In idx (map fst (da_cache st)) -> recorded names idx = Some f ->
    ((List.length (da_cache st) < 2)%nat /\ cache = da_cache st /\ heap = da_heap st \/
     (exists k0 p0 k1 p1, da_cache st = [(k0, p0); (k1, p1)] /\ cache = [(k0, p0)] /\
        (exists d, heap_get (da_heap st) p1 = Some d) /\ heap = heap_remove (da_heap st) p1)) ->
    seg_step names ld st idx
      (mk_da (match ld f with Ok _ => (idx, da_next st) :: cache | _ => cache end)
             ((da_next st, match ld f with Ok d => d | _ => [] end) :: heap)
             (da_next st + 1) (idx :: da_reads st),
       as_result (ld f) (Ok (Some (da_next st)))).

Lemma find_split_spec c idx :
  match find_split c idx with
  | Some (pre, e, post) => c = pre ++ e :: post /\ fst e = idx /\ ~ In idx (map fst pre)
  | None => ~ In idx (map fst c)
  end.
Proof.
  induction c as [|e c IH]; cbn [find_split map In]; [auto|].
  destruct (Z.eqb_spec (fst e) idx) as [He|He]; [cbn; auto|].
  destruct (find_split c idx) as [[[pre x] post]|].
  - destruct IH as (-> & Hx & Hn). cbn [map In]. repeat split; [exact Hx|]. intros [|]; auto.
  - intros [|]; auto.
Qed.

Lemma segment_step names P ld st idx : 0 <= idx -> inv names P st ->
  seg_step names ld st idx (segment names ld st idx).
Proof.
  intros H0 I. unfold segment.
  assert (Slow : forall (Hf : match da_cache st with (k, _) :: _ => k <> idx | [] => True end),
    seg_step names ld st idx
    match find_split (da_cache st) idx with
    | None => segment_miss names ld st idx
    | Some (pre, e, post) =>
        (mk_da (e :: pre ++ post) (da_heap st) (da_next st) (da_reads st), Ok (Some (snd e)))
    end).
  { intros Hf. assert (F := find_split_spec (da_cache st) idx).
    destruct (find_split (da_cache st) idx) as [[[pre [k p]] post]|].
    - destruct F as (Hc & Hk & Hn). cbn [fst snd] in *. subst k. apply st_hit.
      + rewrite Hc. symmetry. apply Permutation_middle.
      + intros k q Hq Hk. subst k. destruct (da_cache st) as [|[k' q'] c]; [discriminate|].
        cbn in Hq. injection Hq as <- <-. now contradict Hf.
    - rewrite segment_miss_spec by exact H0.
      destruct (recorded names idx) as [f|] eqn:Er; [|now apply st_none].
      assert (Hlen := inv_len _ _ _ I).
      destruct (da_cache st) as [|[k0 p0] [|[k1 p1] [|? ?]]] eqn:Ec; cbn [List.length] in Hlen; try lia.
      + cbn [List.length Nat.eqb].
        assert (L := st_load names ld st idx f [] (da_heap st)). rewrite Ec in L.
        specialize (L F Er (or_introl (conj Nat.lt_0_2 (conj eq_refl eq_refl)))).
        destruct (ld f); exact L.
      + cbn [List.length Nat.eqb].
        assert (L := st_load names ld st idx f [(k0, p0)] (da_heap st)). rewrite Ec in L.
        specialize (L F Er (or_introl (conj Nat.lt_1_2 (conj eq_refl eq_refl)))).
        destruct (ld f); exact L.
      + cbn [List.length Nat.eqb rev app].
        destruct (inv_data _ _ _ I k1 p1) as (_ & f1 & d1 & _ & Hd & _); [rewrite Ec; right; left; reflexivity|].
        unfold heap_free. rewrite Hd. cbn [rev app].
        assert (L := st_load names ld st idx f [(k0, p0)] (heap_remove (da_heap st) p1)). rewrite Ec in L.
        specialize (L F Er).
        assert (L' := L ltac:(right; exists k0, p0, k1, p1; repeat split; eauto)).
        destruct (ld f); exact L'. }
  destruct (da_cache st) as [|[k p] c] eqn:Ec; [apply Slow; exact Logic.I|].
  destruct (Z.eqb_spec k idx) as [->|Hk]; [|apply Slow; exact Hk].
  assert (L := st_hit names ld st idx p c). rewrite Ec in L.
  specialize (L (Permutation_refl _)).
  assert (L' := L ltac:(intros; reflexivity)). destruct st as [c0 h0 n0 r0]; cbn in Ec |- *; subst c0. exact L'.
Qed.

Lemma inv_step names (P : fname -> list Z -> Prop) ld st idx r : 0 <= idx ->
  (forall f d, recorded names idx = Some f -> ld f = Ok d -> P f d) ->
  inv names P st -> seg_step names ld st idx r -> inv names P (fst r).
Proof.
  intros H0 HP I S. destruct I as [Il Ik Ip Ih In Id]. destruct S as [p others Hperm _|Hn Hr|f cache heap Hn Hr Hc].
  - cbn [fst]. assert (Hk := Permutation_map fst Hperm). assert (Hp := Permutation_map snd Hperm).
    constructor; cbn [da_cache da_heap da_next].
    + rewrite <- (Permutation_length Hperm). exact Il.
    + eapply Permutation_NoDup; eassumption.
    + eapply Permutation_NoDup; eassumption.
    + exact Ih.
    + exact In.
    + intros k q Hin. apply Id. eapply Permutation_in; [symmetry; exact Hperm|exact Hin].
  - cbn [fst]. constructor; assumption.
  - assert (Hsub : (List.length cache <= 1)%nat /\ (forall e, List.In e cache -> List.In e (da_cache st)) /\
                   NoDup (map fst cache) /\ NoDup (map snd cache) /\ NoDup (map fst heap) /\
                   (forall p, List.In p (map fst heap) -> List.In p (map fst (da_heap st))) /\
                   (forall k p, List.In (k, p) cache -> heap_get heap p = heap_get (da_heap st) p)).
    { destruct Hc as [(Hl & -> & ->)|(k0 & p0 & k1 & p1 & Ec & -> & [d Hd] & ->)].
      - repeat split; auto. lia.
      - rewrite Ec in *. cbn [map fst snd] in *. repeat split.
        + cbn; lia.
        + intros e [<-|[]]. left; reflexivity.
        + repeat constructor; auto.
        + repeat constructor; auto.
        + apply heap_remove_NoDup, Ih.
        + intros p. apply heap_remove_in.
        + intros k p [[= <- <-]|[]]. apply heap_remove_other. intros ->. 
          inversion Ip as [|? ? Hni _]; subst. apply Hni. left; reflexivity. }
    destruct Hsub as (Sl & Ss & Sk & Sp & Sh & Si & Sg).
    assert (Hfresh : ~ List.In (da_next st) (map fst heap)).
    { intros Hin. apply Si, In in Hin. lia. }
    assert (Hdata : forall k p, List.In (k, p) cache -> p <> da_next st /\ 0 <= k /\
      exists f d, recorded names k = Some f /\ heap_get heap p = Some d /\ P f d).
    { intros k p Hin. assert (Hg := Sg k p Hin). apply Ss, Id in Hin.
      destruct Hin as (Hk & f' & d' & Hr' & Hd' & HP'). rewrite <- Hg in Hd'. split.
      - intros ->. apply Hfresh. eapply heap_get_in; eauto.
      - eauto 6. }
    cbn [fst]. constructor; cbn [da_cache da_heap da_next map fst].
    + destruct (ld f); cbn [List.length]; lia.
    + destruct (ld f); try exact Sk. cbn [map fst]. constructor; [|exact Sk].
      intros Hin. apply Hn. apply in_map_iff in Hin as ([k q] & Hkq & Hin). cbn in Hkq; subst k.
      apply in_map_iff. exists (idx, q). auto.
    + destruct (ld f); try exact Sp. cbn [map snd]. constructor; [|exact Sp].
      intros Hin. apply in_map_iff in Hin as ([k q] & Hkq & Hin). cbn in Hkq; subst q.
      now apply Hdata in Hin as [Hne _].
    + constructor; assumption.
    + intros p [<-|Hin]; [lia|]. apply Si, In in Hin. lia.
    + intros k p Hin.
      assert (Hcase : (exists d, ld f = Ok d /\ k = idx /\ p = da_next st) \/ List.In (k, p) cache).
      { destruct (ld f) as [d| | | |]; auto. destruct Hin as [[= <- <-]|Hin]; eauto. }
      destruct Hcase as [(d & Hd & -> & ->)|Hin'].
      * split; [exact H0|]. exists f, d. rewrite Hd. cbn [heap_get]. rewrite Z.eqb_refl.
        split; [exact Hr|]. split; [reflexivity|]. apply HP; assumption.
      * destruct (Hdata k p Hin') as (Hne & Hk & f' & d' & Hr' & Hd' & HP').
        split; [exact Hk|]. exists f', d'. cbn [heap_get].
        destruct (Z.eqb_spec (da_next st) p); [congruence|]. auto.
Qed.

Lemma inv_run names (P : fname -> list Z -> Prop) : forall h st, requests_ok h ->
  (forall ld idx f d, List.In (ld, idx) h -> recorded names idx = Some f -> ld f = Ok d -> P f d) ->
  inv names P st -> inv names P (run names st h).
Proof.
  induction h as [|[ld idx] h IH]; intros st Hr HP I; [exact I|].
  inversion Hr; subst. cbn [run]. apply IH; [assumption| |].
  - intros ld' idx' f d Hin. apply HP. right; exact Hin.
  - eapply inv_step; [eassumption| |exact I|eapply segment_step; eassumption].
    intros f d. apply HP. left; reflexivity.
Qed.

(** * C01 *)
Lemma observe_step names (P : fname -> list Z -> Prop) ld st idx r : inv names P st -> seg_step names ld st idx r ->
  (recorded names idx = None /\ observe r = Ok None) \/
  (exists f, recorded names idx = Some f /\
     ((exists d, P f d /\ observe r = Ok (Some d)) \/
      observe r = (let! d := ld f in Ok (Some d)))).
Proof.
  intros I S. destruct S as [p others Hperm _|Hn Hr|f cache heap Hn Hr Hc].
  - right. destruct (inv_data _ _ _ I idx p) as (_ & f & d & Hr & Hd & HP).
    { eapply Permutation_in; [symmetry; exact Hperm|left; reflexivity]. }
    exists f. split; [exact Hr|]. left. exists d. split; [exact HP|].
    unfold observe. cbn [fst snd da_heap]. rewrite Hd. reflexivity.
  - left. split; [exact Hr|reflexivity].
  - right. exists f. split; [exact Hr|]. right. unfold observe. cbn [fst snd da_heap].
    destruct (ld f); cbn [as_result bind heap_get]; rewrite ?Z.eqb_refl; reflexivity.
Qed.

Lemma cache_transparent names ld idxs idx :
  Forall (fun i => 0 <= i) idxs -> 0 <= idx ->
  observe (segment names ld (run names da_init (map (fun i => (ld, i)) idxs)) idx) = fresh names ld idx.
Proof.
  intros Hr H0. set (P := fun f d => ld f = Ok d).
  assert (I : inv names P (run names da_init (map (fun i => (ld, i)) idxs))).
  { apply inv_run.
    - apply Forall_map. exact Hr.
    - intros ld' i f d Hin. apply in_map_iff in Hin as (? & [= <- <-] & _). auto.
    - apply inv_init. }
  destruct (observe_step names P ld _ idx _ I (segment_step names P ld _ idx H0 I)) as [[Hn ->]|(f & Hf & [(d & HP & ->)| ->])];
    unfold fresh.
  - rewrite Hn. reflexivity.
  - rewrite Hf. rewrite HP. reflexivity.
  - rewrite Hf. reflexivity.
Qed.

Lemma cache_transparent_failures names content h ld idx :
  requests_ok h -> 0 <= idx -> faithful content ld ->
  (forall ld' i, List.In (ld', i) h -> faithful content ld') ->
  let r := observe (segment names ld (run names da_init h) idx) in
  match recorded names idx with
  | None => r = Ok None
  | Some f => r = Ok (Some (content f)) \/ (is_ok (ld f) = false /\ r = (let! d := ld f in Ok (Some d)))
  end.
Proof.
  intros Hr H0 Hf Hh r. set (P := fun f d => d = content f).
  assert (I : inv names P (run names da_init h)).
  { apply inv_run; [exact Hr| |apply inv_init].
    intros ld' i f d Hin _ E. exact (Hh _ _ Hin f d E). }
  destruct (observe_step names P ld _ idx _ I (segment_step names P ld _ idx H0 I)) as [[Hn Ho]|(f & Hfr & Ho)].
  - rewrite Hn. exact Ho.
  - rewrite Hfr. destruct Ho as [(d & -> & Ho)|Ho]; [left; exact Ho|].
    destruct (ld f) as [d| | | |] eqn:E.
    + left. rewrite <- (Hf f d E). exact Ho.
    + right; auto.
    + right; auto.
    + right; auto.
    + right; auto.
Qed.

(** * C02 *)
Lemma cache_bounded names content h : requests_ok h ->
  (forall ld i, List.In (ld, i) h -> faithful content ld) ->
  let st := run names da_init h in
  (List.length (da_cache st) <= 2)%nat /\ NoDup (map fst (da_cache st)) /\
  forall k p, List.In (k, p) (da_cache st) ->
    exists f, recorded names k = Some f /\ heap_get (da_heap st) p = Some (content f).
Proof.
  intros Hr Hh st. set (P := fun f d => d = content f).
  assert (I : inv names P st).
  { apply inv_run; [exact Hr| |apply inv_init].
    intros ld' i f d Hin _ E. exact (Hh _ _ Hin f d E). }
  destruct I as [Il Ik _ _ _ Id]. repeat split; [exact Il|exact Ik|].
  intros k p Hin. apply Id in Hin as (_ & f & d & Hf & Hd & ->). eauto.
Qed.

(** memory accounting: live objects are the cached ones and one per failed load *)
Lemma heap_count_step names P ld st idx r : inv names P st -> seg_step names ld st idx r ->
  (List.length (da_heap (fst r)) + List.length (da_cache st) =
   List.length (da_heap st) + List.length (da_cache (fst r)) + (if is_ok (snd r) then 0 else 1))%nat.
Proof.
  intros I S. destruct S as [p others Hperm _|Hn Hr|f cache heap Hn Hr Hc]; cbn [fst snd is_ok da_heap da_cache].
  - rewrite <- (Permutation_length Hperm). lia.
  - lia.
  - destruct Hc as [(Hl & -> & ->)|(k0 & p0 & k1 & p1 & Ec & -> & [d Hd] & ->)].
    + destruct (ld f); cbn [as_result is_ok List.length]; lia.
    + apply heap_remove_length in Hd. rewrite Ec.
      destruct (ld f); cbn [as_result is_ok List.length]; lia.
Qed.
Definition anyP (f : fname) (d : list Z) : Prop := True.
Lemma heap_count_run names : forall h st, requests_ok h -> inv names anyP st ->
  (List.length (da_heap (run names st h)) + List.length (da_cache st) =
   List.length (da_heap st) + List.length (da_cache (run names st h)) + failures_from names st h)%nat.
Proof.
  induction h as [|[ld idx] h IH]; intros st Hr I; cbn [run failures_from]; [lia|].
  inversion Hr; subst. assert (S := segment_step names anyP ld st idx ltac:(assumption) I).
  assert (I' := inv_step names anyP ld st idx _ ltac:(assumption) ltac:(intros; exact Logic.I) I S).
  specialize (IH _ ltac:(assumption) I'). apply (heap_count_step _ anyP) in S; [|exact I]. lia.
Qed.

Lemma free_all_ok : forall c h, NoDup (map snd c) -> NoDup (map fst h) ->
  (forall k p, List.In (k, p) c -> exists d, heap_get h p = Some d) ->
  exists h', free_all c h = Ok h' /\ (List.length h' + List.length c = List.length h)%nat /\
    (forall p, List.In p (map fst h') -> List.In p (map fst h) /\ ~ List.In p (map snd c)).
Proof.
  induction c as [|[k p] c IH]; intros h Hc Hh Hd; cbn [free_all].
  - exists h. repeat split; cbn; try lia; tauto.
  - destruct (Hd k p (or_introl eq_refl)) as [d Hp]. unfold heap_free. rewrite Hp.
    cbn [map snd] in Hc. inversion Hc as [|? ? Hni Hc']; subst.
    destruct (IH (heap_remove h p)) as (h' & E & Hl & Hin).
    + exact Hc'.
    + apply heap_remove_NoDup, Hh.
    + intros k' q Hin. destruct (Hd k' q (or_intror Hin)) as [d' Hq]. exists d'.
      rewrite heap_remove_other; [exact Hq|]. intros ->. apply Hni.
      apply in_map_iff. exists (k', q). auto.
    + exists h'. split; [exact E|]. apply heap_remove_length in Hp. split; [cbn [List.length]; lia|].
      intros q Hq. apply Hin in Hq as [Hq1 Hq2]. split; [eapply heap_remove_in; eauto|].
      cbn [map snd In]. intros [<-|]; [|auto]. exact (heap_remove_gone h p Hh Hq1).
Qed.

Lemma destroy_ok names h : requests_ok h ->
  exists leaked, destroy (run names da_init h) = Ok leaked /\
    List.length leaked = failures_from names da_init h.
Proof.
  intros Hr.
  assert (I : inv names anyP (run names da_init h)).
  { apply inv_run; [exact Hr|intros; exact Logic.I|apply inv_init]. }
  destruct (free_all_ok (da_cache (run names da_init h)) (da_heap (run names da_init h))) as (h' & E & Hl & _).
  - apply I.
  - apply I.
  - intros k p Hin. apply I in Hin as (_ & f & d & _ & Hd & _). eauto.
  - exists h'. split; [exact E|].
    assert (C := heap_count_run names h da_init Hr (inv_init names anyP)). cbn in C. lia.
Qed.

(** a handed out pointer survives the next request *)
Lemma pointer_survives names h ld1 idx1 p ld2 idx2 d : requests_ok h -> 0 <= idx1 -> 0 <= idx2 ->
  snd (segment names ld1 (run names da_init h) idx1) = Ok (Some p) ->
  let st1 := fst (segment names ld1 (run names da_init h) idx1) in
  heap_get (da_heap st1) p = Some d ->
  heap_get (da_heap (fst (segment names ld2 st1 idx2))) p = Some d.
Proof.
  intros Hr H1 H2 Hs st1 Hd.
  assert (I : inv names anyP (run names da_init h)).
  { apply inv_run; [exact Hr|intros; exact Logic.I|apply inv_init]. }
  assert (S1 := segment_step names anyP ld1 _ idx1 H1 I).
  assert (I1 := inv_step names anyP ld1 _ idx1 _ H1 ltac:(intros; exact Logic.I) I S1).
  fold st1 in I1.
  assert (Hfront : exists c, da_cache st1 = (idx1, p) :: c).
  { unfold st1. destruct S1 as [p' others Hperm _|Hn Hr'|f cache heap Hn Hr' Hc]; cbn [fst snd da_cache] in *.
    - injection Hs as ->. eauto.
    - discriminate.
    - destruct (ld1 f); try discriminate. cbn in Hs. injection Hs as <-. eauto. }
  destruct Hfront as [c Hc]. assert (S2 := segment_step names anyP ld2 st1 idx2 H2 I1).
  destruct S2 as [p' others Hperm _|Hn Hr'|f cache heap Hn Hr' Hch]; cbn [fst da_heap].
  - exact Hd.
  - exact Hd.
  - assert (Hp : In p (map fst (da_heap st1))) by (eapply heap_get_in; eauto).
    assert (Hlt := inv_next _ _ _ I1 p Hp). cbn [heap_get].
    destruct (Z.eqb_spec (da_next st1) p); [lia|].
    destruct Hch as [(Hl & -> & ->)|(k0 & p0 & k1 & p1 & Ec & -> & [d1 Hd1] & ->)]; [exact Hd|].
    rewrite heap_remove_other; [exact Hd|]. intros ->.
    rewrite Hc in Ec. injection Ec as -> -> ->.
    assert (Hnd := inv_ptrs _ _ _ I1). rewrite Hc in Hnd. cbn in Hnd. inversion Hnd; subst.
    apply H3. left; reflexivity.
Qed.
