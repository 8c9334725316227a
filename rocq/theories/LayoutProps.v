From Coq Require Import ZArith List Lia Bool String.
From Verif Require Import Base BaseFacts LayoutModel LayoutSpec LayoutProofs LayoutFacts.
Import ListNotations.
Open Scope Z_scope.

(** C16: prologue, native header and trailer are tiled by their records *)

Lemma prologue_size : size prologue_fmt = 425461.
Proof. reflexivity. Qed.
Lemma header_size : size header_fmt = 445248.
Proof. reflexivity. Qed.
Lemma trailer_size : size trailer_fmt = 380325.
Proof. reflexivity. Qed.

Theorem C16_every_byte_once : forall x,
  List.length (filter (holds x) (slots prologue_fmt [] 0)) = (if (0 <=? x) && (x <? 425461) then 1%nat else 0%nat) /\
  List.length (filter (holds x) (slots header_fmt [] 0)) = (if (0 <=? x) && (x <? 445248) then 1%nat else 0%nat) /\
  List.length (filter (holds x) (slots trailer_fmt [] 0)) = (if (0 <=? x) && (x <? 380325) then 1%nat else 0%nat).
Proof.
  intro x.
  pose proof (slots_tile prologue_fmt eq_refl [] 0 x) as H1.
  pose proof (slots_tile header_fmt eq_refl [] 0 x) as H2.
  pose proof (slots_tile trailer_fmt eq_refl [] 0 x) as H3.
  rewrite prologue_size in H1. rewrite header_size in H2. rewrite trailer_size in H3. auto.
Qed.
Print Assumptions C16_every_byte_once.

Theorem C16_one_slot_per_field :
  NoDup (map path_of (slots prologue_fmt [] 0)) /\ NoDup (map path_of (slots header_fmt [] 0)) /\
  NoDup (map path_of (slots trailer_fmt [] 0)).
Proof. repeat split; apply slots_paths; reflexivity. Qed.
Print Assumptions C16_one_slot_per_field.

(* the reads of a record that starts at b are those of its fields *)
Definition reads_at (nm : string) (f : fmt) (b : Z) : list acc := map displace (fields f [N nm] b).

Lemma reads_eq f p x y : x = y -> map displace (fields f p x) = map displace (fields f p y).
Proof. now intros ->. Qed.

Lemma mplace_rec_cons nm f l p b :
  mplace (rec ((nm, f) :: l)) p b = mplace f (N nm :: p) b ++ mplace (rec l) p (b + size f).
Proof. reflexivity. Qed.
Lemma mplace_rec_nil p b : mplace (rec []) p b = [].
Proof. reflexivity. Qed.
Lemma mplace_gap w p b : mplace (Gap w) p b = [].
Proof. reflexivity. Qed.
Lemma size_gap w : size (Gap w) = w.
Proof. reflexivity. Qed.
Ltac recs :=
  lazymatch goal with
  | |- _ ++ _ = _ ++ _ => apply app_eq; [ apply reads_eq; lia | recs ]
  | |- ?l ++ [] = _ => rewrite (app_nil_r l); apply reads_eq; lia
  end.

Theorem C16_header_records : forall b, native_header_read [] b =
  (reads_at "sat_status" MSG_data_SatelliteStatus_fmt (b + 1) ++
   reads_at "image_acquisition" MSG_data_ImageAcquisition_fmt (b + 60135) ++
   reads_at "celestial_events" MSG_data_CelestialEvents_fmt (b + 60835) ++
   reads_at "image_description" MSG_data_ImageDescription_fmt (b + 386893) ++
   reads_at "radiometric_proc" MSG_data_RadiometricProc_fmt (b + 386994) ++
   reads_at "geometric_proc" MSG_data_GeometricProc_fmt (b + 407809) ++
   reads_at "IMPF_config" MSG_data_IMPFConfiguration_fmt (b + 425462), 445248).
Proof.
  intro b. rewrite header_ok. apply pair_eq; [| reflexivity].
  unfold reads_at, header_fmt, prologue_records. cbn [app].
  rewrite !mplace_rec_cons, mplace_gap, app_nil_l.
  rewrite mplace_rec_nil, !mplace_fields, ?size_gap, MSG_data_SatelliteStatus_size, MSG_data_ImageAcquisition_size,
    MSG_data_CelestialEvents_size, MSG_data_ImageDescription_size, MSG_data_RadiometricProc_size,
    MSG_data_GeometricProc_size.
  recs.
Qed.
Print Assumptions C16_header_records.

Theorem C16_prologue_records : forall b, prologue_read [] b =
  (reads_at "sat_status" MSG_data_SatelliteStatus_fmt b ++
   reads_at "image_acquisition" MSG_data_ImageAcquisition_fmt (b + 60134) ++
   reads_at "celestial_events" MSG_data_CelestialEvents_fmt (b + 60834) ++
   reads_at "image_description" MSG_data_ImageDescription_fmt (b + 386892) ++
   reads_at "radiometric_proc" MSG_data_RadiometricProc_fmt (b + 386993) ++
   reads_at "geometric_proc" MSG_data_GeometricProc_fmt (b + 407808), 425461).
Proof.
  intro b. rewrite prologue_ok. apply pair_eq; [| reflexivity].
  unfold reads_at, prologue_fmt, prologue_records.
  rewrite !mplace_rec_cons.
  rewrite mplace_rec_nil, !mplace_fields, ?size_gap, MSG_data_SatelliteStatus_size, MSG_data_ImageAcquisition_size,
    MSG_data_CelestialEvents_size, MSG_data_ImageDescription_size, MSG_data_RadiometricProc_size.
  recs.
Qed.
Print Assumptions C16_prologue_records.

(* the native trailer and the epilogue file are read alike *)
Theorem C16_trailer_records : forall b,
  epilogue_read [] b = native_trailer_read [] b /\
  native_trailer_read [] b =
  (reads_at "product_stats" MSG_data_ImageProdStats_fmt (b + 1) ++
   reads_at "navig_result" MSG_data_NavigExtrResult_fmt (b + 341) ++
   reads_at "radiometric_qlty" MSG_data_RadiometricQuality_fmt (b + 6021) ++
   reads_at "geometric_qlty" MSG_data_GeometricQuality_fmt (b + 377277) ++
   reads_at "timelin_comple" MSG_data_TimelinComple_fmt (b + 380193), 380325).
Proof.
  intro b. split; [now rewrite epilogue_ok, trailer_ok |].
  rewrite trailer_ok. apply pair_eq; [| reflexivity].
  unfold reads_at, trailer_fmt, trailer_records.
  rewrite !mplace_rec_cons, mplace_gap, app_nil_l.
  rewrite mplace_rec_nil, !mplace_fields, ?size_gap, MSG_data_ImageProdStats_size, MSG_data_NavigExtrResult_size,
    MSG_data_RadiometricQuality_size, MSG_data_GeometricQuality_size.
  recs.
Qed.
Print Assumptions C16_trailer_records.

(* what the reader of a record returns is the length of its fields *)
Theorem C16_record_lengths : forall p b,
  snd (MSG_data_SatelliteStatus_read p b) = 60134 /\ size MSG_data_SatelliteStatus_fmt = 60134 /\
  snd (MSG_data_ImageAcquisition_read p b) = 700 /\ size MSG_data_ImageAcquisition_fmt = 700 /\
  snd (MSG_data_CelestialEvents_read p b) = 326058 /\ size MSG_data_CelestialEvents_fmt = 326058 /\
  snd (MSG_data_ImageDescription_read p b) = 101 /\ size MSG_data_ImageDescription_fmt = 101 /\
  snd (MSG_data_RadiometricProc_read p b) = 20815 /\ size MSG_data_RadiometricProc_fmt = 20815 /\
  snd (MSG_data_GeometricProc_read p b) = 17653 /\ size MSG_data_GeometricProc_fmt = 17653 /\
  snd (MSG_data_IMPFConfiguration_read p b) = 19786 /\ size MSG_data_IMPFConfiguration_fmt = 19786 /\
  snd (MSG_data_ImageProdStats_read p b) = 340 /\ size MSG_data_ImageProdStats_fmt = 340 /\
  snd (MSG_data_NavigExtrResult_read p b) = 5680 /\ size MSG_data_NavigExtrResult_fmt = 5680 /\
  snd (MSG_data_RadiometricQuality_read p b) = 371256 /\ size MSG_data_RadiometricQuality_fmt = 371256 /\
  snd (MSG_data_GeometricQuality_read p b) = 2916 /\ size MSG_data_GeometricQuality_fmt = 2916 /\
  snd (MSG_data_TimelinComple_read p b) = 132 /\ size MSG_data_TimelinComple_fmt = 132.
Proof.
  intros p b.
  rewrite MSG_data_SatelliteStatus_ok, MSG_data_ImageAcquisition_ok, MSG_data_CelestialEvents_ok,
    MSG_data_ImageDescription_ok, MSG_data_RadiometricProc_ok, MSG_data_GeometricProc_ok,
    MSG_data_IMPFConfiguration_ok, MSG_data_ImageProdStats_ok, MSG_data_NavigExtrResult_ok,
    MSG_data_RadiometricQuality_ok, MSG_data_GeometricQuality_ok, MSG_data_TimelinComple_ok.
  repeat split.
Qed.
Print Assumptions C16_record_lengths.

(** Reading a file *)
Lemma fetch_between buf l : between 0 (Z.of_nat (List.length buf)) l ->
  fetch buf l = Ok (map (fun '(p, o, w) => (p, bytes_of buf o w)) l).
Proof.
  intro H. unfold fetch.
  assert (forallb (inside buf) l = true) as ->; [| reflexivity].
  apply forallb_forall. intros [[p o] w] Hin. unfold between in H. rewrite Forall_forall in H.
  specialize (H _ Hin). cbn in *. lia.
Qed.
Lemma fetch_out buf l p o w : In (p, o, w) l -> Z.of_nat (List.length buf) < o + w -> fetch buf l = UB.
Proof.
  intros Hin H. unfold fetch.
  assert (forallb (inside buf) l = false) as ->; [| reflexivity].
  apply not_true_iff_false. intro E. rewrite forallb_forall in E. specialize (E _ Hin). cbn in E. lia.
Qed.
Lemma bytes_of_firstn n file o w : 0 <= o -> o + w <= n -> bytes_of (firstn (Z.to_nat n) file) o w = bytes_of file o w.
Proof.
  intros Ho Hw. unfold bytes_of. rewrite skipn_firstn_comm, firstn_firstn. f_equal. lia.
Qed.
Lemma between_weaken lo hi lo' hi' l : between lo hi l -> lo' <= lo -> hi <= hi' -> between lo' hi' l.
Proof. intros H H1 H2. eapply Forall_impl; [| exact H]. intros [[p o] w]. lia. Qed.

(* the bytes of the fields as the code reads them *)
Definition decoded (f : fmt) (file : list Z) : list (path * list Z) :=
  map (fun '(p, o, w) => (p, bytes_of file (o + moved p) w)) (fields f [] 0).

Lemma fetch_decoded f file n :
  0 <= n <= Z.of_nat (List.length file) -> between 0 n (mplace f [] 0) ->
  fetch (firstn (Z.to_nat n) file) (mplace f [] 0) = Ok (decoded f file).
Proof.
  intros Hn H. rewrite fetch_between by (rewrite firstn_length; eapply between_weaken; [exact H | lia | lia]).
  f_equal. rewrite mplace_fields in *. unfold decoded. rewrite map_map. apply map_ext_in.
  intros [[p o] w] Hin. cbn. f_equal. apply bytes_of_firstn;
  unfold between in H; rewrite Forall_forall in H; specialize (H _ (in_map displace _ _ Hin)); cbn in H; lia.
Qed.

(* the native reader: exactly the right packet length and a long enough file
   are accepted, no read leaves the buffer, the last check never fails *)
Theorem C16_native_header : forall pl file, 0 <= pl < 2 ^ 32 ->
  read_l15 native_header_read header_len pl file =
  if (pl =? 445263) && (445248 <=? Z.of_nat (List.length file))
  then Ok (decoded header_fmt file, skipn (Z.to_nat 445248) file) else Terminate.
Proof.
  intros pl file Hpl. unfold read_l15, header_len. rewrite header_ok. cbn [fst snd].
  assert (E : (445248 =? (pl - 15) mod 2 ^ 32) = (pl =? 445263)).
  { destruct (Z.eqb_spec pl 445263) as [->|N]; [reflexivity|]. apply Z.eqb_neq. lia. }
  rewrite E. destruct (pl =? 445263); cbn [negb andb]; [| reflexivity].
  destruct (Z.ltb_spec (Z.of_nat (List.length file)) 445248) as [L|L];
  destruct (Z.leb_spec 445248 (Z.of_nat (List.length file))) as [L'|L']; try lia; [reflexivity|].
  rewrite fetch_decoded; [reflexivity | lia | apply (header_between [] 0)].
Qed.
Print Assumptions C16_native_header.
Theorem C16_native_trailer : forall pl file, 0 <= pl < 2 ^ 32 ->
  read_l15 native_trailer_read trailer_len pl file =
  if (pl =? 380340) && (380325 <=? Z.of_nat (List.length file))
  then Ok (decoded trailer_fmt file, skipn (Z.to_nat 380325) file) else Terminate.
Proof.
  intros pl file Hpl. unfold read_l15, trailer_len. rewrite trailer_ok. cbn [fst snd].
  assert (E : (380325 =? (pl - 15) mod 2 ^ 32) = (pl =? 380340)).
  { destruct (Z.eqb_spec pl 380340) as [->|N]; [reflexivity|]. apply Z.eqb_neq. lia. }
  rewrite E. destruct (pl =? 380340); cbn [negb andb]; [| reflexivity].
  destruct (Z.ltb_spec (Z.of_nat (List.length file)) 380325) as [L|L];
  destruct (Z.leb_spec 380325 (Z.of_nat (List.length file))) as [L'|L']; try lia; [reflexivity|].
  rewrite fetch_decoded; [reflexivity | lia | apply (trailer_between [] 0)].
Qed.
Print Assumptions C16_native_trailer.

(** C121: every field is decoded from its own bytes *)

Lemma path_unique {A} (l : list A) (g : A -> path) a b :
  NoDup (map g l) -> In a l -> In b l -> g a = g b -> a = b.
Proof.
  induction l as [|x l IH]; cbn; [tauto|]. intros Hn. inversion Hn as [|? ? Hx Hl]; subst.
  intros [<-|Ha] [<-|Hb] E; auto.
  - exfalso. apply Hx. rewrite E. now apply in_map.
  - exfalso. apply Hx. rewrite <- E. now apply in_map.
Qed.

Lemma decoded_field f file p o w : wf f = true -> In (p, o, w) (fields f [] 0) ->
  In (p, bytes_of file (o + moved p) w) (decoded f file) /\
  forall v, In (p, v) (decoded f file) -> v = bytes_of file (o + moved p) w.
Proof.
  intros Hw Hin. unfold decoded. split.
  - apply in_map_iff. now exists (p, o, w).
  - intros v Hv. apply in_map_iff in Hv as ([[p' o'] w'] & E & Hin'). injection E as -> <-.
    assert (E : (p, o', w') = (p, o, w)).
    { apply (path_unique (slots f [] 0) path_of); auto using fields_slots. now apply slots_paths. }
    now injection E as -> ->.
Qed.

(* the fields that are not read from their slot *)
Definition misplaced (p : path) : Prop :=
  (exists i q, p = I i :: N "ResamplingFunction" :: q /\ i <> 0) \/
  (exists i q, p = I i :: N "CalibrationConstants" :: q /\ i <> 0) \/
  (exists i q, p = N "SpinRate" :: I i :: N "ExtractedLandmarks" :: q) \/
  (exists q, p = N "DCRValues" :: q).
Lemma not_misplaced p : ~ misplaced p -> moved p = 0.
Proof.
  intro H. destruct p as [|[s|i] q]; [reflexivity | |].
  - cbn [moved]. destruct (String.eqb_spec s "DCRValues") as [->|_].
    { exfalso. apply H. right. right. right. eauto. }
    destruct (String.eqb_spec s "SpinRate") as [->|_]; [| reflexivity].
    destruct q as [|[t|i] [|[t'|j] q]]; try reflexivity.
    destruct (String.eqb_spec t' "ExtractedLandmarks") as [->|_]; [| reflexivity].
    exfalso. apply H. right. right. left. eauto.
  - cbn [moved]. destruct q as [|[s|j] q]; try reflexivity.
    destruct (String.eqb_spec s "ResamplingFunction") as [->|_].
    { destruct (Z.eq_dec i 0) as [->|Hi]; [reflexivity|]. exfalso. apply H. left. eauto. }
    destruct (String.eqb_spec s "CalibrationConstants") as [->|_]; [| reflexivity].
    destruct (Z.eq_dec i 0) as [->|Hi]; [reflexivity|]. exfalso. apply H. right. left. eauto.
Qed.

Lemma ok_pair_inj {A B} (a c : A) (b d : B) : Ok (a, b) = Ok (c, d) -> a = c /\ b = d.
Proof. now intros [= -> ->]. Qed.

Theorem C121_own_bytes_partial : forall file p o w, ~ misplaced p ->
  (In (p, o, w) (fields header_fmt [] 0) -> forall pl vs rest,
     0 <= pl < 2 ^ 32 -> read_l15 native_header_read header_len pl file = Ok (vs, rest) ->
     In (p, bytes_of file o w) vs /\ forall v, In (p, v) vs -> v = bytes_of file o w) /\
  (In (p, o, w) (fields trailer_fmt [] 0) -> forall pl vs rest,
     0 <= pl < 2 ^ 32 -> read_l15 native_trailer_read trailer_len pl file = Ok (vs, rest) ->
     In (p, bytes_of file o w) vs /\ forall v, In (p, v) vs -> v = bytes_of file o w).
Proof.
  intros file p o w Hm. apply not_misplaced in Hm. split; intros Hin pl vs rest Hpl E.
  - rewrite C16_native_header in E by assumption.
    destruct ((pl =? 445263) && (445248 <=? Z.of_nat (List.length file))); [| discriminate].
    apply ok_pair_inj in E as [<- <-].
    replace (bytes_of file o w) with (bytes_of file (o + moved p) w) by (rewrite Hm; f_equal; lia).
    apply decoded_field; [reflexivity | exact Hin].
  - rewrite C16_native_trailer in E by assumption.
    destruct ((pl =? 380340) && (380325 <=? Z.of_nat (List.length file))); [| discriminate].
    apply ok_pair_inj in E as [<- <-].
    replace (bytes_of file o w) with (bytes_of file (o + moved p) w) by (rewrite Hm; f_equal; lia).
    apply decoded_field; [reflexivity | exact Hin].
Qed.
Print Assumptions C121_own_bytes_partial.

(* finding a field by its name, outermost first *)
Fixpoint lookup (f : fmt) (t : list seg) : option (Z * Z) :=
  match f, t with
  | Leaf w, [] => Some (0, w)
  | Cons nm g r, N s :: t' =>
      if String.eqb s nm then lookup g t'
      else match lookup r t with Some (o, w) => Some (size g + o, w) | None => None end
  | Arr n g, I i :: t' =>
      match lookup g t' with Some (o, w) => Some (i * size g + o, w) | None => None end
  | _, _ => None
  end.
Fixpoint in_range (f : fmt) (t : list seg) : Prop :=
  match f, t with
  | Cons nm g r, N s :: t' => if String.eqb s nm then in_range g t' else in_range r t
  | Arr n g, I i :: t' => 0 <= i < n /\ in_range g t'
  | _, _ => True
  end.
Lemma lookup_in f : forall t o w p b, lookup f t = Some (o, w) -> in_range f t ->
  In (rev t ++ p, b + o, w) (fields f p b).
Proof.
  induction f; intros t o v p b; cbn [lookup in_range fields].
  - destruct t; [| discriminate]. intros [= <- <-] _. cbn. left. f_equal. f_equal. lia.
  - discriminate.
  - discriminate.
  - destruct t as [|[s|i] t]; try discriminate.
    destruct (String.eqb_spec s nm) as [->|Hs].
    + intros H R. apply in_or_app. left. cbn [rev]. rewrite <- app_assoc. now apply IHf1.
    + destruct (lookup f2 (N s :: t)) as [[o' w']|] eqn:E; [| discriminate].
      intros [= <- <-] R. apply in_or_app. right. rewrite Z.add_assoc. now apply IHf2.
  - destruct t as [|[s|i] t]; try discriminate.
    destruct (lookup f t) as [[o' w']|] eqn:E; [| discriminate].
    intros [= <- <-] [Hi R]. apply in_flat_map. exists i. split.
    + unfold idx. apply in_map_iff. exists (Z.to_nat i). split; [lia|]. apply in_seq. lia.
    + cbn [rev]. rewrite <- app_assoc, Z.add_assoc. now apply IHf.
Qed.

(* what an accepted native header or trailer stores in a field *)
Definition header_holds (file : list Z) (t : list seg) (v : list Z) : Prop :=
  forall vs rest, read_l15 native_header_read header_len 445263 file = Ok (vs, rest) ->
  In (rev t, v) vs /\ forall v', In (rev t, v') vs -> v' = v.
Definition trailer_holds (file : list Z) (t : list seg) (v : list Z) : Prop :=
  forall vs rest, read_l15 native_trailer_read trailer_len 380340 file = Ok (vs, rest) ->
  In (rev t, v) vs /\ forall v', In (rev t, v') vs -> v' = v.
Lemma header_lookup file t o w : lookup header_fmt t = Some (o, w) -> in_range header_fmt t ->
  header_holds file t (bytes_of file (o + moved (rev t)) w).
Proof.
  intros H R vs rest E. rewrite C16_native_header in E by lia.
  destruct ((445263 =? 445263) && (445248 <=? Z.of_nat (List.length file))); [| discriminate].
  apply ok_pair_inj in E as [<- <-]. apply decoded_field; [reflexivity|].
  pose proof (lookup_in _ _ _ _ [] 0 H R) as L. now rewrite app_nil_r in L.
Qed.
Lemma trailer_lookup file t o w : lookup trailer_fmt t = Some (o, w) -> in_range trailer_fmt t ->
  trailer_holds file t (bytes_of file (o + moved (rev t)) w).
Proof.
  intros H R vs rest E. rewrite C16_native_trailer in E by lia.
  destruct ((380340 =? 380340) && (380325 <=? Z.of_nat (List.length file))); [| discriminate].
  apply ok_pair_inj in E as [<- <-]. apply decoded_field; [reflexivity|].
  pose proof (lookup_in _ _ _ _ [] 0 H R) as L. now rewrite app_nil_r in L.
Qed.

Definition resampling (i : Z) : list seg := [N "geometric_proc"; N "ResamplingFunction"; I i]%string.
Definition landmark_spin (i : Z) : list seg := [N "navig_result"; N "ExtractedLandmarks"; I i; N "SpinRate"]%string.
Definition calconst (i : Z) : list seg :=
  [N "IMPF_config"; N "WarmStartParms"; N "BlackBodyDataWarmStart"; N "CalibrationConstants"; I i]%string.
Definition corrupted : list seg := [N "timelin_comple"; N "Completeness"; I 11; N "CorruptedL15ImageLines"]%string.
Definition dcr : list seg := [N "radiometric_proc"; N "BlackBodyDataUsed"; N "DCRValues"]%string.

Lemma header_at file t o w r : lookup header_fmt t = Some (o, w) -> in_range header_fmt t ->
  o + moved (rev t) = r -> header_holds file t (bytes_of file r w).
Proof. intros H R <-. now apply header_lookup. Qed.
Lemma trailer_at file t o w r : lookup trailer_fmt t = Some (o, w) -> in_range trailer_fmt t ->
  o + moved (rev t) = r -> trailer_holds file t (bytes_of file r w).
Proof. intros H R <-. now apply trailer_lookup. Qed.

Lemma l_leaf w : lookup (Leaf w) [] = Some (0, w).
Proof. reflexivity. Qed.
Lemma l_here s g r t x : lookup g t = x -> lookup (Cons s g r) (N s :: t) = x.
Proof. intro H. cbn [lookup]. now rewrite String.eqb_refl. Qed.
Lemma l_next nm g r s t k o w : String.eqb s nm = false -> size g = k -> lookup r (N s :: t) = Some (o, w) ->
  lookup (Cons nm g r) (N s :: t) = Some (k + o, w).
Proof. intros E <- H. cbn [lookup]. now rewrite E, H. Qed.
Lemma l_arr n g i t k o w : size g = k -> lookup g t = Some (o, w) ->
  lookup (Arr n g) (I i :: t) = Some (i * k + o, w).
Proof. intros <- H. cbn [lookup]. now rewrite H. Qed.
Lemma l_eq f t o w o' w' : lookup f t = Some (o, w) -> o = o' -> w = w' -> lookup f t = Some (o', w').
Proof. now intros H <- <-. Qed.
Lemma r_here s g r t : in_range g t -> in_range (Cons s g r) (N s :: t).
Proof. intro H. cbn [in_range]. now rewrite String.eqb_refl. Qed.
Lemma r_next nm g r s t : String.eqb s nm = false -> in_range r (N s :: t) -> in_range (Cons nm g r) (N s :: t).
Proof. intros E H. cbn [in_range]. now rewrite E. Qed.
Lemma r_arr n g i t : 0 <= i < n -> in_range g t -> in_range (Arr n g) (I i :: t).
Proof. intros H R. split; assumption. Qed.
(* walk along the names *)
Ltac whf f := let v := eval hnf in f in let v := eval cbn [fst snd] in v in change f with v.
Ltac lks :=
  lazymatch goal with
  | |- lookup (Leaf _) [] = _ => apply l_leaf
  | |- lookup (Cons ?s _ _) (N ?s :: _) = _ => apply l_here; lks
  | |- lookup (Cons _ ?g _) (N _ :: _) = _ =>
      let v := eval compute in (size g) in
      apply (l_next _ _ _ _ _ v); [ reflexivity | reflexivity | lks ]
  | |- lookup (Arr _ ?g) (I _ :: _) = _ =>
      let v := eval compute in (size g) in
      apply (l_arr _ _ _ _ v); [ reflexivity | lks ]
  | |- lookup ?f _ = _ => whf f; lks
  end.
Ltac unnames := unfold resampling, landmark_spin, calconst, dcr, corrupted.
Ltac lk := unnames; eapply l_eq; [ lks | lia | reflexivity ].
Ltac lkr0 :=
  lazymatch goal with
  | |- in_range (Leaf _) [] => exact Logic.I
  | |- in_range (Cons ?s _ _) (N ?s :: _) => apply r_here; lkr0
  | |- in_range (Cons _ _ _) (N _ :: _) => apply r_next; [ reflexivity | lkr0 ]
  | |- in_range (Arr _ _) (I _ :: _) => apply r_arr; [ lia | lkr0 ]
  | |- in_range ?f _ => whf f; lkr0
  end.
Ltac lkr := unnames; lkr0.
Ltac num' := unnames; cbn [rev app moved String.eqb Ascii.eqb Bool.eqb].

(* all twelve resampling functions are the first one *)
Theorem C121_refuted_resampling : forall file i, 0 <= i < 12 ->
  lookup header_fmt (resampling i) = Some (425450 + i, 1) /\
  header_holds file (resampling i) (bytes_of file 425450 1).
Proof.
  intros file i Hi.
  assert (L : lookup header_fmt (resampling i) = Some (425450 + i, 1)).
  { lk. }
  split; [exact L|].
  eapply header_at; [exact L | lkr | num'; lia].
Qed.
Print Assumptions C121_refuted_resampling.

(* the spin rate of a landmark is taken two bytes too far *)
Theorem C121_refuted_landmark : forall file i, 0 <= i < 50 ->
  lookup trailer_fmt (landmark_spin i) = Some (341 + 260 + 1320 + 82 * i + 58, 8) /\
  trailer_holds file (landmark_spin i) (bytes_of file (341 + 260 + 1320 + 82 * i + 60) 8).
Proof.
  intros file i Hi.
  assert (L : lookup trailer_fmt (landmark_spin i) = Some (341 + 260 + 1320 + 82 * i + 58, 8)).
  { lk. }
  split; [exact L|].
  eapply trailer_at; [exact L | lkr | num'; lia].
Qed.
Print Assumptions C121_refuted_landmark.

(* the calibration constants are taken every 8 bytes instead of every 4 *)
Theorem C121_refuted_constants : forall file i, 0 <= i < 12 ->
  lookup header_fmt (calconst i) = Some (441536 + 4 * i, 4) /\
  header_holds file (calconst i) (bytes_of file (441536 + 8 * i) 4).
Proof.
  intros file i Hi.
  assert (L : lookup header_fmt (calconst i) = Some (441536 + 4 * i, 4)).
  { lk. }
  split; [exact L|].
  eapply header_at; [exact L | lkr | num'; lia].
Qed.
Print Assumptions C121_refuted_constants.

(* the DCR values are the first 63 bytes of their record, the time and gains *)
Theorem C121_refuted_dcr : forall file,
  lookup header_fmt dcr = Some (387737, 63) /\ header_holds file dcr (bytes_of file 387258 63) /\
  lookup header_fmt [N "radiometric_proc"; N "BlackBodyDataUsed"; N "BBObservationUTC"; N "day_from_epoch"]%string
  = Some (387258, 2).
Proof.
  intro file.
  assert (L : lookup header_fmt dcr = Some (387737, 63)) by reflexivity.
  split; [exact L | split; [| reflexivity]].
  eapply header_at; [exact L | lkr | reflexivity].
Qed.
Print Assumptions C121_refuted_dcr.

(* Concrete case: an accepted header whose second resampling function is 1 and
   is decoded as 0; the slope of channel 1 is decoded from its own bytes. *)
Definition sample_header : list Z := repeat 0 (Z.to_nat 425451) ++ 1 :: repeat 0 (Z.to_nat 19796).
Lemma sample_length : List.length sample_header = Z.to_nat 445248.
Proof. unfold sample_header. rewrite app_length. cbn [List.length]. rewrite !repeat_length. lia. Qed.
Lemma sample_accepted : exists vs rest, read_l15 native_header_read header_len 445263 sample_header = Ok (vs, rest).
Proof. rewrite C16_native_header by lia. rewrite sample_length, Z2Nat.id by lia.
  exists (decoded header_fmt sample_header), (skipn (Z.to_nat 445248) sample_header). reflexivity. Qed.
Lemma sample_before o : 0 <= o -> o + 1 <= 425451 -> bytes_of sample_header o 1 = [0].
Proof.
  intros H1 H2. unfold bytes_of, sample_header. change (Z.to_nat 1) with 1%nat.
  rewrite skipn_app, repeat_length.
  assert (E : skipn (Z.to_nat o) (repeat 0 (Z.to_nat 425451)) = 0 :: repeat 0 (Z.to_nat (425450 - o))).
  { replace (Z.to_nat 425451) with (Z.to_nat o + S (Z.to_nat (425450 - o)))%nat by lia.
    rewrite repeat_app, skipn_app, repeat_length, Nat.sub_diag, skipn_all2 by (rewrite repeat_length; lia).
    reflexivity. }
  rewrite E. reflexivity.
Qed.
Lemma sample_zero : bytes_of sample_header 425450 1 = [0].
Proof. apply sample_before; lia. Qed.
Lemma sample_at : bytes_of sample_header 425451 1 = [1].
Proof.
  unfold bytes_of, sample_header. change (Z.to_nat 1) with 1%nat.
  rewrite skipn_app, repeat_length, Nat.sub_diag, skipn_all2 by (rewrite repeat_length; lia). reflexivity.
Qed.
Example C121_case : exists vs rest, read_l15 native_header_read header_len 445263 sample_header = Ok (vs, rest) /\
  bytes_of sample_header 425451 1 = [1] /\ In (rev (resampling 1), [0]) vs /\ ~ In (rev (resampling 1), [1]) vs.
Proof.
  destruct sample_accepted as (vs & rest & E). exists vs, rest. split; [exact E|].
  destruct (C121_refuted_resampling sample_header 1 ltac:(lia)) as [_ H].
  destruct (H _ _ E) as [H1 H2]. clear E H. rewrite sample_zero in H1, H2.
  split; [apply sample_at | split; [exact H1|]]. intro H3. specialize (H2 _ H3). discriminate H2.
Qed.
Example C121_slope : lookup header_fmt [N "radiometric_proc"; N "ImageCalibration"; I 0; N "Cal_Slope"]%string
  = Some (387066, 8).
Proof. reflexivity. Qed.

(** C122: prologue and epilogue files whose data field is too short *)
Theorem C122_long_enough_partial : forall bits file, bits / 8 <= Z.of_nat (List.length file) ->
  (425450 <= bits / 8 -> read_hrit prologue_read bits file = Ok (decoded prologue_fmt file)) /\
  (380325 <= bits / 8 -> read_hrit epilogue_read bits file = Ok (decoded trailer_fmt file)).
Proof.
  intros bits file Hf. unfold read_hrit.
  destruct (Z.ltb_spec (Z.of_nat (List.length file)) (bits / 8)); [lia|].
  split; intro Hb.
  - rewrite prologue_ok. cbn [fst]. apply fetch_decoded; [lia|].
    eapply between_weaken; [apply (prologue_between [] 0) | lia | lia].
  - rewrite epilogue_ok. cbn [fst]. apply fetch_decoded; [lia|].
    eapply between_weaken; [apply (trailer_between [] 0) | lia | lia].
Qed.
Print Assumptions C122_long_enough_partial.

Lemma decoded_hrit f file t o w : wf f = true -> lookup f t = Some (o, w) -> in_range f t -> moved (rev t) = 0 ->
  In (rev t, bytes_of file o w) (decoded f file) /\
  forall v, In (rev t, v) (decoded f file) -> v = bytes_of file o w.
Proof.
  intros Hw H R M. pose proof (lookup_in _ _ _ _ [] 0 H R) as L. rewrite app_nil_r in L.
  replace (bytes_of file o w) with (bytes_of file (o + moved (rev t)) w) by (rewrite M; f_equal; lia).
  now apply decoded_field.
Qed.
(* e.g. the calibration of channel i in a prologue file *)
Theorem C122_calibration : forall bits file i, 0 <= i < 12 ->
  425450 <= bits / 8 <= Z.of_nat (List.length file) ->
  exists vs, read_hrit prologue_read bits file = Ok vs /\
  let slope := rev [N "radiometric_proc"; N "ImageCalibration"; I i; N "Cal_Slope"]%string in
  let offset := rev [N "radiometric_proc"; N "ImageCalibration"; I i; N "Cal_Offset"]%string in
  (forall v, In (slope, v) vs <-> v = bytes_of file (387065 + 16 * i) 8) /\
  (forall v, In (offset, v) vs <-> v = bytes_of file (387065 + 16 * i + 8) 8).
Proof.
  intros bits file i Hi Hb. exists (decoded prologue_fmt file).
  destruct (C122_long_enough_partial bits file) as [H _]; [lia|]. split; [apply H; lia|].
  intros slope offset. split; intro v.
  - destruct (decoded_hrit prologue_fmt file [N "radiometric_proc"; N "ImageCalibration"; I i; N "Cal_Slope"]%string
      (387065 + 16 * i) 8) as [H1 H2]; [reflexivity | | lkr | reflexivity |].
    { lk. }
    split; [apply H2 | intros ->; exact H1].
  - destruct (decoded_hrit prologue_fmt file [N "radiometric_proc"; N "ImageCalibration"; I i; N "Cal_Offset"]%string
      (387065 + 16 * i + 8) 8) as [H1 H2]; [reflexivity | | lkr | reflexivity |].
    { lk. }
    split; [apply H2 | intros ->; exact H1].
Qed.
Print Assumptions C122_calibration.

(* every shorter data field is read out of bounds *)
Theorem C122_refuted_prologue : forall bits file,
  0 <= bits -> bits / 8 <= Z.of_nat (List.length file) -> bits / 8 < 425450 ->
  read_hrit prologue_read bits file = UB.
Proof.
  intros bits file H0 Hf Hb. unfold read_hrit.
  destruct (Z.ltb_spec (Z.of_nat (List.length file)) (bits / 8)); [lia|].
  rewrite prologue_ok. cbn [fst]. rewrite mplace_fields.
  apply (fetch_out _ _ (rev (resampling 0)) 425449 1).
  - apply in_map_iff. exists (rev (resampling 0), 425449, 1). split; [reflexivity|].
    assert (L : lookup prologue_fmt (resampling 0) = Some (425449, 1)) by reflexivity.
    assert (R : in_range prologue_fmt (resampling 0)) by lkr.
    pose proof (lookup_in _ _ _ _ [] 0 L R) as H1. now rewrite app_nil_r in H1.
  - rewrite firstn_length. lia.
Qed.
Print Assumptions C122_refuted_prologue.
Theorem C122_refuted_epilogue : forall bits file,
  0 <= bits -> bits / 8 <= Z.of_nat (List.length file) -> bits / 8 < 380325 ->
  read_hrit epilogue_read bits file = UB.
Proof.
  intros bits file H0 Hf Hb. unfold read_hrit.
  destruct (Z.ltb_spec (Z.of_nat (List.length file)) (bits / 8)); [lia|].
  rewrite epilogue_ok. cbn [fst]. rewrite mplace_fields.
  apply (fetch_out _ _ (rev corrupted) 380323 2).
  - apply in_map_iff. exists (rev corrupted, 380323, 2). split; [reflexivity|].
    assert (L : lookup trailer_fmt corrupted = Some (380323, 2)) by reflexivity.
    assert (R : in_range trailer_fmt corrupted) by lkr.
    pose proof (lookup_in _ _ _ _ [] 0 L R) as H1. now rewrite app_nil_r in H1.
  - rewrite firstn_length. lia.
Qed.
Print Assumptions C122_refuted_epilogue.
Theorem C122_short_file : forall f bits file, Z.of_nat (List.length file) < bits / 8 ->
  read_hrit f bits file = Terminate.
Proof. intros f bits file H. unfold read_hrit. destruct (Z.ltb_spec (Z.of_nat (List.length file)) (bits / 8)); [reflexivity | lia]. Qed.
Print Assumptions C122_short_file.
Example C122_case : read_hrit prologue_read 800 (repeat 0 200) = UB.
Proof. apply C122_refuted_prologue; cbn; lia. Qed.
