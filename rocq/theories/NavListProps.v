(** C225: the listing of the navigation extraction result of the level 1.5 trailer. *)
From Verif Require Import Base BaseFacts IniModel MachineModel HeaderModel GribModel GribProps NcProps MsgModel MsgTimeProps CodeTextModel HeadListModel MachineProofs HeadListProps ProdListModel ProdListProps DescListProps NavListModel.
Open Scope string_scope.
Open Scope list_scope.
Open Scope Z_scope.

(** ** What is asked for *)
Definition quad (b : list Z) (off : nat) : Z := 2 ^ 32 * long b off + long b (off + 4).
(** A stamp of 8 bytes: a day, the milliseconds of it and the microseconds. *)
Definition in_day (b : list Z) (off : nat) : Prop := long b (off + 2) < 86400000.
Definition moment_is (b : list Z) (off : nat) (v : str) : Prop :=
  forall k y m d, word b (off + 6) <= 999 -> date k = (1958, 1, 1) -> date (k + Z.to_nat (word b off)) = (y, m, d) ->
  v = moment_text y m d (long b (off + 2)) ++ codes " +" ++ ddd (long b (off + 2) mod 1000) ++ codes "." ++ ddd (word b (off + 6)) ++ codes " msecs".
Section Real.
Variable real : Z -> str.
Definition float_at (b : list Z) (off : nat) (v : str) : Prop := v = real (quad b off).
Definition horizon_lines (b : list Z) (off : nat) : list (string * (str -> Prop)) :=
  [("Horizon Id          : ", meaning_is [(0, "South"); (1, "North"); (2, "East"); (3, "West")] (octet b off)); ("Alpha               : ", float_at b (off + 1)); ("Alpha Confidence    : ", float_at b (off + 9));
   ("Beta                : ", float_at b (off + 17)); ("Beta Confidence     : ", float_at b (off + 25)); ("Observation Time    : ", moment_is b (off + 33));
   ("Spin Rate           : ", float_at b (off + 41)); ("Alpha Deviation     : ", float_at b (off + 49)); ("Beta Deviation      : ", float_at b (off + 57))].
(** A star or landmark that has the number 0 is none. *)
Definition star_lines (b : list Z) (off : nat) : list (string * (str -> Prop)) :=
  if Z.eq_dec (word b off) 0 then [] else
  [("Star Id             : ", num_is (word b off)); ("Alpha               : ", float_at b (off + 2)); ("Alpha Confidence    : ", float_at b (off + 10));
   ("Beta                : ", float_at b (off + 18)); ("Beta Confidence     : ", float_at b (off + 26)); ("Observation Time    : ", moment_is b (off + 34));
   ("Spin Rate           : ", float_at b (off + 42)); ("Alpha Deviation     : ", float_at b (off + 50)); ("Beta Deviation      : ", float_at b (off + 58))].
Definition landmark_lines (spin : str -> Prop) (b : list Z) (off : nat) : list (string * (str -> Prop)) :=
  if Z.eq_dec (word b off) 0 then [] else
  [("Landmark Id         : ", num_is (word b off)); ("Longitude           : ", float_at b (off + 2)); ("Latitude            : ", float_at b (off + 10)); ("Alpha               : ", float_at b (off + 18));
   ("Alpha Confidence    : ", float_at b (off + 26)); ("Beta                : ", float_at b (off + 34)); ("Beta Confidence     : ", float_at b (off + 42)); ("Observation Time    : ", moment_is b (off + 50));
   ("Spin Rate           : ", spin); ("Alpha Deviation     : ", float_at b (off + 66)); ("Beta Deviation      : ", float_at b (off + 74))].
End Real.
(** The times of what is listed are moments of their days. *)
Definition times_ok (b : list Z) : Prop :=
  (forall i, (i < 4)%nat -> in_day b (65 * i + 33)) /\ (forall i, (i < 20)%nat -> word b (260 + 66 * i) <> 0 -> in_day b (260 + 66 * i + 34)) /\
  (forall i, (i < 50)%nat -> word b (1580 + 82 * i) <> 0 -> in_day b (1580 + 82 * i + 50)).

(** ** Reading *)
Lemma quad_read h b off : (off + 8 <= List.length b)%nat -> rd_ui h b off 8 = Ok (quad b off).
Proof.
  intros L. rewrite rd_ui_spec, bytes_at_ok by lia. cbn [bind]. rewrite !cut_first by lia. cbn [firstn be_val List.length]. unfold quad, long, word. rewrite <- !Nat.add_assoc. cbn [Nat.add]. f_equal.
  change (256 ^ Z.of_nat 7) with (2 ^ 56). change (256 ^ Z.of_nat 6) with (2 ^ 48). change (256 ^ Z.of_nat 5) with (2 ^ 40). change (256 ^ Z.of_nat 4) with (2 ^ 32). change (256 ^ Z.of_nat 3) with (2 ^ 24). change (256 ^ Z.of_nat 2) with (2 ^ 16). change (256 ^ Z.of_nat 1) with (2 ^ 8). change (256 ^ Z.of_nat 0) with 1. lia.
Qed.
Definition quads (b : list Z) (off n : nat) : list Z := map (fun i => quad b (off + i * 8)) (seq 0 n).
Lemma quads_read h b off n : (off + n * 8 <= List.length b)%nat -> read_r8s h b off n = Ok (quads b off n).
Proof. intros L. apply (each_ok _ (fun i => quad b (off + i * 8))). intros j J. apply quad_read. lia. Qed.
Lemma moment_read h b off : (off + 8 <= List.length b)%nat -> read_cds h b off = Ok (stamp b off, word b (off + 6)).
Proof. intros L. unfold read_cds. rewrite stamp_read by lia. cbn [bind]. rewrite word_read by lia. reflexivity. Qed.
Definition the_horizon (b : list Z) (off : nat) : observation := mk_observation (octet b off) (quads b (off + 1) 4) (stamp b (off + 33), word b (off + 33 + 6)) (quads b (off + 41) 3).
Definition the_star (b : list Z) (off : nat) : observation := mk_observation (word b off) (quads b (off + 2) 4) (stamp b (off + 34), word b (off + 34 + 6)) (quads b (off + 42) 3).
Definition the_landmark (b : list Z) (off : nat) : observation := mk_observation (word b off) (quads b (off + 2) 6) (stamp b (off + 50), word b (off + 50 + 6)) (quad b (off + 60) :: quads b (off + 66) 2).
Definition the_navigation (b : list Z) : navigation :=
  mk_navigation (map (fun i => the_horizon b (i * 65)) (seq 0 4)) (map (fun i => the_star b (260 + i * 66)) (seq 0 20)) (map (fun i => the_landmark b (1580 + i * 82)) (seq 0 50)).
Lemma navigation_read h b : 5680 <= Z.of_nat (List.length b) -> read_navigation h b = Ok (the_navigation b).
Proof.
  intros L. unfold read_navigation.
  rewrite (each_ok _ (fun i => the_horizon b (i * 65))); [|intros j J; unfold read_horizon; rewrite octet_read by lia; cbn [bind]; rewrite quads_read by lia; cbn [bind]; rewrite moment_read by lia; cbn [bind]; rewrite quads_read by lia; reflexivity].
  cbn [bind]. rewrite (each_ok _ (fun i => the_star b (260 + i * 66))); [|intros j J; unfold read_star; rewrite word_read by lia; cbn [bind]; rewrite quads_read by lia; cbn [bind]; rewrite moment_read by lia; cbn [bind]; rewrite quads_read by lia; reflexivity].
  cbn [bind]. rewrite (each_ok _ (fun i => the_landmark b (1580 + i * 82))); [reflexivity|]. intros j J. unfold read_landmark. rewrite word_read by lia. cbn [bind]. rewrite quads_read by lia. cbn [bind]. rewrite moment_read by lia. cbn [bind]. rewrite quad_read by lia. cbn [bind]. rewrite quads_read by lia. reflexivity.
Qed.

(** ** Listing *)
Lemma moment_shown b off : bytes_ok b -> in_day b off -> exists v, timestring_us (stamp b off) (word b (off + 6)) = Ok v /\ moment_is b off v.
Proof.
  intros B D. unfold in_day in D. destruct (C120_calendar 1958 1 1 ltac:(lia) ltac:(lia) ltac:(cbn; lia)) as (k0 & K0). destruct (date (k0 + Z.to_nat (word b off))) as [[y0 m0] d0] eqn:N0.
  pose proof (stamp_shown b off B k0 y0 m0 d0 D K0 N0) as T. unfold timestring_us, insert. rewrite T. eexists. split; [reflexivity|]. intros k y m d U K N.
  pose proof (stamp_shown b off B k y m d D K N) as T'. rewrite <- T, T'. pose proof (word_range b (off + 6) B). rewrite zpad3 by lia. reflexivity.
Qed.
Lemma quad_def b off : quad b off = 2 ^ 32 * long b off + long b (off + 4).
Proof. reflexivity. Qed.
#[local] Opaque print zpad timestring_us quad.
Lemma observed_shown real b off names first rest id t : bytes_ok b -> in_day b t -> forall l l', lines l (fields names real first) -> lines l' (fields ["Spin Rate           : "; "Alpha Deviation     : "; "Beta Deviation      : "] real rest) ->
  off = t -> exists s, observed real names (mk_observation id first (stamp b off, word b (off + 6)) rest) = Ok s /\ lines (l ++ [("Observation Time    : ", moment_is b t)] ++ l') s.
Proof.
  intros B D l l' L L' ->. unfold observed. cbn [ob_time ob_first ob_rest fst snd]. destruct (moment_shown b t B D) as (v & -> & V). cbn [bind]. eexists. split; [reflexivity|].
  apply lines_app; [exact L|]. apply lines_app; [now apply lines_last|exact L'].
Qed.
Lemma floats_shown real b off names : forall k, lines (map (fun p => (snd p, float_at real b (off + 8 * fst p))) (combine (seq k (List.length names)) names)) (fields names real (map (fun i => quad b (off + i * 8)) (seq k (List.length names)))).
Proof.
  induction names as [|n names IH]; intros k; [constructor|]. cbn [List.length seq map combine]. rewrite fields_cons. apply lines_field; [unfold float_at; cbn [fst]; now rewrite (Nat.mul_comm 8 k)|]. apply IH.
Qed.
Ltac near := repeat match goal with |- context [(?o + ?a + 8 * ?b)%nat] => let c := eval cbn in (a + 8 * b)%nat in replace (o + a + 8 * b)%nat with (o + c)%nat by lia end.
Lemma horizon_shown real b off : bytes_ok b -> in_day b (off + 33) -> exists s, horizon_text real (the_horizon b off) = Ok s /\ lines (horizon_lines real b off) s.
Proof.
  intros B D. unfold horizon_text, the_horizon. cbn [ob_id]. destruct (observed_shown real b (off + 33) angles (quads b (off + 1) 4) (quads b (off + 41) 3) (octet b off) (off + 33) B D _ _ (floats_shown real b (off + 1) angles 0) (floats_shown real b (off + 41) ["Spin Rate           : "; "Alpha Deviation     : "; "Beta Deviation      : "] 0) eq_refl) as (s & -> & S0).
  cbn [bind]. eexists. split; [reflexivity|]. unfold horizon_lines. apply lines_field; [now apply (meaning_shown MSG_horizon_id)|]. unfold angles in S0. cbn [List.length seq combine map fst snd app] in S0.
  revert S0. near. intros S0. exact S0.
Qed.
Lemma star_shown real b off : bytes_ok b -> (word b off <> 0 -> in_day b (off + 34)) -> exists s, star_text real (the_star b off) = Ok s /\ lines (star_lines real b off) s.
Proof.
  intros B D. unfold star_text, the_star, star_lines. cbn [ob_id]. destruct (Z.eq_dec (word b off) 0) as [->|N]; [exists []; split; [reflexivity|constructor]|]. destruct (Z.eqb_spec (word b off) 0); [contradiction|].
  destruct (observed_shown real b (off + 34) angles (quads b (off + 2) 4) (quads b (off + 42) 3) (word b off) (off + 34) B (D N) _ _ (floats_shown real b (off + 2) angles 0) (floats_shown real b (off + 42) ["Spin Rate           : "; "Alpha Deviation     : "; "Beta Deviation      : "] 0) eq_refl) as (s & -> & S0).
  cbn [bind]. eexists. split; [reflexivity|]. apply lines_field; [now apply word_shown|]. unfold angles in S0. cbn [List.length seq combine map fst snd app] in S0.
  revert S0. near. intros S0. exact S0.
Qed.
Lemma landmark_shown real b off : bytes_ok b -> (word b off <> 0 -> in_day b (off + 50)) -> exists s, landmark_text real (the_landmark b off) = Ok s /\ lines (landmark_lines real any b off) s.
Proof.
  intros B D. unfold landmark_text, the_landmark, landmark_lines. cbn [ob_id]. destruct (Z.eq_dec (word b off) 0) as [->|N]; [exists []; split; [reflexivity|constructor]|]. destruct (Z.eqb_spec (word b off) 0); [contradiction|].
  destruct (observed_shown real b (off + 50) ("Longitude           : " :: "Latitude            : " :: angles) (quads b (off + 2) 6) (quad b (off + 60) :: quads b (off + 66) 2) (word b off) (off + 50) B (D N) _ _
    (floats_shown real b (off + 2) ("Longitude           : " :: "Latitude            : " :: angles) 0) (lines_field "Spin Rate           : " any _ _ _ I (floats_shown real b (off + 66) ["Alpha Deviation     : "; "Beta Deviation      : "] 0)) eq_refl) as (s & -> & S0).
  cbn [bind]. eexists. split; [reflexivity|]. apply lines_field; [now apply word_shown|]. unfold angles in S0. cbn [List.length seq combine map fst snd app] in S0.
  revert S0. near. intros S0. exact S0.
Qed.
Lemma texts_shown f (o : nat -> observation) (L : nat -> list (string * (str -> Prop))) n : forall k, (forall i, (k <= i < k + n)%nat -> exists s, f (o i) = Ok s /\ lines (L i) s) -> exists s, texts f (map o (seq k n)) = Ok s /\ lines (flat_map L (seq k n)) s.
Proof.
  induction n as [|n IH]; intros k E; [exists []; split; [reflexivity|constructor]|]. cbn [seq map texts flat_map]. destruct (E k) as (s & -> & S0); [lia|]. destruct (IH (S k)) as (r & -> & R); [intros i I; apply E; lia|]. cbn [bind]. eexists. split; [reflexivity|]. now apply lines_app.
Qed.
(** All horizons, and the stars and landmarks that there are, each value after its name; but of
    the spin rate at a landmark only that there is a line. *)
Theorem C225_navigation_partial h real b : bytes_ok b -> 5680 <= Z.of_nat (List.length b) -> times_ok b ->
  exists n t body, read_navigation h b = Ok n /\ navigation_text real n = Ok t /\ t = title_lines "-         MSG NAVIGATION EXTRACTION RESULT           -" ++ body /\
    lines (flat_map (fun i => horizon_lines real b (65 * i)) (seq 0 4) ++ flat_map (fun i => star_lines real b (260 + 66 * i)) (seq 0 20) ++ flat_map (fun i => landmark_lines real any b (1580 + 82 * i)) (seq 0 50)) body.
Proof.
  intros B L (TH & TS & TL). exists (the_navigation b). unfold navigation_text, the_navigation. cbn [na_horizons na_stars na_landmarks].
  destruct (texts_shown (horizon_text real) (fun i => the_horizon b (i * 65)) (fun i => horizon_lines real b (65 * i)) 4 0) as (s1 & E1 & L1); [intros i I; rewrite (Nat.mul_comm i); apply horizon_shown; [exact B|apply TH; lia]|].
  destruct (texts_shown (star_text real) (fun i => the_star b (260 + i * 66)) (fun i => star_lines real b (260 + 66 * i)) 20 0) as (s2 & E2 & L2); [intros i I; rewrite (Nat.mul_comm i); apply star_shown; [exact B|apply TS; lia]|].
  destruct (texts_shown (landmark_text real) (fun i => the_landmark b (1580 + i * 82)) (fun i => landmark_lines real any b (1580 + 82 * i)) 50 0) as (s3 & E3 & L3); [intros i I; rewrite (Nat.mul_comm i); apply landmark_shown; [exact B|apply TL; lia]|].
  rewrite E1, E2, E3. cbn [bind]. eexists. eexists. split; [now apply navigation_read|]. split; [reflexivity|]. split; [change (title_lines ?x) with (title x); reflexivity|]. apply lines_app; [exact L1|]. apply lines_app; [exact L2|exact L3].
Qed.
Print Assumptions C225_navigation_partial.
(** The two bytes after the time of a landmark, where the sign and the exponent of the spin rate
    are, are not even read: files that differ there are listed the same. *)
Theorem C225_refuted_spin_rate h real b c i : (i < 50)%nat -> 5680 <= Z.of_nat (List.length b) -> 5680 <= Z.of_nat (List.length c) ->
  (forall j, j <> (1580 + 82 * i + 58)%nat -> j <> (1580 + 82 * i + 59)%nat -> nth j b 0 = nth j c 0) ->
  exists n, read_navigation h b = Ok n /\ read_navigation h c = Ok n /\ (let! x := read_navigation h b in navigation_text real x) = (let! x := read_navigation h c in navigation_text real x).
Proof.
  intros I LB LC E. exists (the_navigation b). assert (X : the_navigation b = the_navigation c).
  { assert (O : forall j, j <> (1580 + 82 * i + 58)%nat -> j <> (1580 + 82 * i + 59)%nat -> octet b j = octet c j) by exact E.
    assert (W : forall j, ~ (1580 + 82 * i + 57 <= j <= 1580 + 82 * i + 59)%nat -> word b j = word c j) by (intros j J; unfold word; rewrite !O by lia; reflexivity).
    assert (G : forall j, ~ (1580 + 82 * i + 55 <= j <= 1580 + 82 * i + 59)%nat -> long b j = long c j) by (intros j J; unfold long; rewrite !W by lia; reflexivity).
    assert (Q : forall j, ~ (1580 + 82 * i + 51 <= j <= 1580 + 82 * i + 59)%nat -> quad b j = quad c j) by (intros j J; rewrite !quad_def, !G by lia; reflexivity).
    assert (QS : forall j n, (j + 8 * n <= 1580 + 82 * i + 58)%nat \/ (1580 + 82 * i + 60 <= j)%nat -> quads b j n = quads c j n) by (intros j n J; apply map_ext_in; intros k K; apply in_seq in K; apply Q; lia).
    assert (T : forall j, (j + 8 <= 1580 + 82 * i + 58)%nat \/ (1580 + 82 * i + 60 <= j)%nat -> (stamp b j, word b (j + 6)) = (stamp c j, word c (j + 6))) by (intros j J; unfold stamp; rewrite !W, G by lia; reflexivity).
    unfold the_navigation. f_equal; apply map_ext_in; intros k K; apply in_seq in K.
    - unfold the_horizon. rewrite O, !QS, T by lia. reflexivity.
    - unfold the_star. rewrite W, !QS, T by lia. reflexivity.
    - unfold the_landmark. rewrite W by lia. rewrite (QS (1580 + k * 82 + 2)%nat), T, Q, (QS (1580 + k * 82 + 66)%nat) by lia. reflexivity. }
  rewrite !navigation_read by assumption. rewrite X. auto.
Qed.
Print Assumptions C225_refuted_spin_rate.
(** Files with a star and a landmark, of which the spin rates have different exponents. *)
Definition a_navigation (e : Z) : list Z := repeat 0 260 ++ [0; 7] ++ repeat 0 1318 ++ [0; 3] ++ repeat 0 56 ++ [e; 89] ++ repeat 0 4040.
Example C225_case : bytes_ok (a_navigation 64) /\ 5680 <= Z.of_nat (List.length (a_navigation 64)) /\ times_ok (a_navigation 64) /\ word (a_navigation 64) 260 = 7 /\ word (a_navigation 64) 1580 = 3 /\
  5680 <= Z.of_nat (List.length (a_navigation 63)) /\ nth 1638 (a_navigation 64) 0 <> nth 1638 (a_navigation 63) 0 /\
  (forall j, j <> (1580 + 82 * 0 + 58)%nat -> j <> (1580 + 82 * 0 + 59)%nat -> nth j (a_navigation 64) 0 = nth j (a_navigation 63) 0).
Proof.
  assert (Z0 : forall n, bytes_ok (repeat 0 n)) by (intros n; apply Forall_forall; intros x X; apply repeat_spec in X; subst x; unfold is_byte; lia).
  assert (L : forall e, Z.of_nat (List.length (a_navigation e)) = 5680) by (intros e; unfold a_navigation; rewrite !app_length, !repeat_length; cbn [List.length]; lia).
  assert (N : forall e j, j <> 261%nat -> j <> 1581%nat -> j <> 1638%nat -> j <> 1639%nat -> octet (a_navigation e) j = 0).
    { intros e j J1 J2 J3 J4. unfold octet, a_navigation. assert (R : forall n k, nth k (repeat 0 n) 0 = 0) by (intros n k; destruct (nth_in_or_default k (repeat 0 n) 0) as [X|X]; [now apply repeat_spec in X|exact X]).
      destruct (Nat.lt_ge_cases j 260); [rewrite app_nth1 by (rewrite repeat_length; lia); apply R|]. rewrite app_nth2, repeat_length by (rewrite repeat_length; lia).
      destruct (Nat.lt_ge_cases (j - 260) 2); [replace (j - 260)%nat with 0%nat by lia; reflexivity|]. rewrite app_nth2 by (cbn [List.length]; lia). cbn [List.length].
      destruct (Nat.lt_ge_cases (j - 260 - 2) 1318); [rewrite app_nth1 by (rewrite repeat_length; lia); apply R|]. rewrite app_nth2, repeat_length by (rewrite repeat_length; lia).
      destruct (Nat.lt_ge_cases (j - 260 - 2 - 1318) 2); [replace (j - 260 - 2 - 1318)%nat with 0%nat by lia; reflexivity|]. rewrite app_nth2 by (cbn [List.length]; lia). cbn [List.length].
      destruct (Nat.lt_ge_cases (j - 260 - 2 - 1318 - 2) 56); [rewrite app_nth1 by (rewrite repeat_length; lia); apply R|]. rewrite app_nth2, repeat_length by (rewrite repeat_length; lia).
      rewrite app_nth2 by (cbn [List.length]; lia). apply R. }
  split; [unfold a_navigation, bytes_ok; repeat (apply Forall_app; split); try apply Z0; repeat constructor; unfold is_byte; lia|]. split; [rewrite L; lia|]. split.
  { unfold times_ok, in_day, long, word. split; [|split]; intros i I; try intros _; rewrite !N by lia; lia. }
  do 2 (split; [reflexivity|]). split; [rewrite L; lia|]. split.
  - assert (V : forall e, nth 1638 (a_navigation e) 0 = e) by reflexivity. rewrite !V. discriminate.
  - intros j J1 J2. change (octet (a_navigation 64) j = octet (a_navigation 63) j). destruct (Nat.eq_dec j 261) as [->|K1]; [reflexivity|]. destruct (Nat.eq_dec j 1581) as [->|K2]; [reflexivity|]. rewrite !N by lia. reflexivity.
Qed.
