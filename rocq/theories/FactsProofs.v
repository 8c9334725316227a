From Verif Require Import BaseFacts FactsModel FactsSpec.
From Coq Require Import QArith Qabs SpecFloat Lqa.
Open Scope Z_scope.

Ltac eqbs := repeat match goal with
  | |- context [?a =? ?b] => destruct (Z.eqb_spec a b)
  | H : context [?a =? ?b] |- _ => destruct (Z.eqb_spec a b)
  end.

(** * C17 *)
Lemma leap_yearb_spec y : leap_yearb y = true <-> leap_year y.
Proof.
  unfold leap_yearb, leap_year.
  destruct (Z.eqb_spec (y mod 4) 0), (Z.eqb_spec (y mod 100) 0), (Z.eqb_spec (y mod 400) 0); cbn [andb orb negb]; intuition congruence.
Qed.
Lemma rem_mod0 a b : 0 < b -> (Z.rem a b =? 0) = (a mod b =? 0).
Proof.
  intros Hb. destruct (Z.eqb_spec (Z.rem a b) 0) as [H|H], (Z.eqb_spec (a mod b) 0) as [H'|H']; try reflexivity; exfalso.
  - apply Z.rem_divide in H; [|lia]. apply Z.mod_divide in H; lia.
  - apply Z.mod_divide in H'; [|lia]. apply Z.rem_divide in H'; lia.
Qed.
Lemma months_cases m : 1 <= m <= 12 -> m = 1 \/ m = 2 \/ m = 3 \/ m = 4 \/ m = 5 \/ m = 6 \/ m = 7 \/ m = 8 \/ m = 9 \/ m = 10 \/ m = 11 \/ m = 12.
Proof. lia. Qed.
Ltac each_month H := apply months_cases in H;
  destruct H as [->|[->|[->|[->|[->|[->|[->|[->|[->|[->|[->| ->]]]]]]]]]]].
Ltac calc := repeat match goal with
  | |- context [zsum ?l] => let v := eval vm_compute in (zsum l) in change (zsum l) with v
  | H : context [zsum ?l] |- _ => let v := eval vm_compute in (zsum l) in change (zsum l) with v in H
  | |- context [nth (Z.to_nat ?i) ?l 0] => let v := eval vm_compute in (nth (Z.to_nat i) l 0) in change (nth (Z.to_nat i) l 0) with v
  | H : context [nth (Z.to_nat ?i) ?l 0] |- _ => let v := eval vm_compute in (nth (Z.to_nat i) l 0) in change (nth (Z.to_nat i) l 0) with v in H
  end.
Lemma jday_ordinal y m d : 1 <= m <= 12 -> jday y m d = ordinal y m d.
Proof.
  intros H. unfold jday. rewrite !rem_mod0 by lia. fold (leap_yearb y). unfold ordinal, months.
  destruct (leap_yearb y); each_month H; calc; cbn; lia.
Qed.
Lemma jday_range y m d : valid_date y m d -> 1 <= jday y m d <= year_length y.
Proof.
  intros [H Hd]. rewrite jday_ordinal by exact H. unfold ordinal, year_length, months in *.
  destruct (leap_yearb y); each_month H; calc; lia.
Qed.
Lemma jday_next y m d : valid_date y m d ->
  match next_day y m d with
  | (y', m', d') => valid_date y' m' d' /\ jday y' m' d' = (if y' =? y then jday y m d + 1 else 1) /\
                    (y' <> y -> jday y m d = year_length y)
  end.
Proof.
  intros [H Hd]. unfold next_day. destruct (Z.ltb_spec d (nth (Z.to_nat (m - 1)) (months y) 0)) as [Hl|Hl].
  - rewrite Z.eqb_refl, !jday_ordinal by exact H. unfold ordinal. split; [split; [exact H|lia]|]. split; lia.
  - destruct (Z.ltb_spec m 12) as [Hm|Hm].
    + rewrite Z.eqb_refl, !jday_ordinal by lia. split; [split; [lia|]|split; [|lia]].
      * unfold months. clear Hl Hd. destruct (leap_yearb y); each_month H; try lia; calc; lia.
      * unfold ordinal, months in *. clear Hm. destruct (leap_yearb y); each_month H; calc; lia.
    + assert (m = 12) as -> by lia. replace (y + 1 =? y) with false by lia.
      rewrite !jday_ordinal by lia. unfold valid_date, ordinal, year_length, months in *.
      destruct (leap_yearb y); calc; repeat split; lia.
Qed.
Lemma jday_order y m d m' d' : valid_date y m d -> valid_date y m' d' ->
  (jday y m d < jday y m' d' <-> m < m' \/ (m = m' /\ d < d')).
Proof.
  intros [H Hd] [H' Hd']. rewrite !jday_ordinal by assumption. unfold ordinal, months in *.
  destruct (leap_yearb y); each_month H; each_month H'; calc; lia.
Qed.
Lemma jday_onto y j : 1 <= j <= year_length y -> exists m d, valid_date y m d /\ jday y m d = j.
Proof.
  intros H.
  assert (G : forall n, (Z.of_nat n < year_length y) -> exists m d, valid_date y m d /\ jday y m d = Z.of_nat n + 1).
  { induction n as [|n IH]; intros Hn.
    - exists 1, 1. rewrite jday_ordinal by lia. unfold valid_date, ordinal, months. cbn. lia.
    - destruct IH as (m & d & V & E); [lia|]. assert (N := jday_next y m d V).
      destruct (next_day y m d) as [[y' m'] d']. destruct N as (V' & E' & L).
      destruct (Z.eqb_spec y' y) as [->|Hne]; [|specialize (L Hne); lia].
      exists m', d'. split; [exact V'|]. lia. }
  destruct (G (Z.to_nat (j - 1))) as (m & d & V & E); [lia|]. exists m, d. split; [exact V|lia].
Qed.

(** * C18, C19 *)
Lemma hrit_round_trip name h w : In (name, h, w) satellites ->
  spacecraftIDFromHRIT h = w /\ spacecraftIDToHRIT w = h /\ spacecraftName w = name /\ spacecraftID name = w.
Proof.
  intros H. unfold satellites in H. cbn [In] in H.
  repeat (destruct H as [H|H]; [injection H as <- <- <-; repeat split; reflexivity|]). destruct H.
Qed.
Lemma from_hrit_known id : spacecraftIDFromHRIT id = 1023 \/ exists n, In (n, id, spacecraftIDFromHRIT id) satellites.
Proof.
  unfold spacecraftIDFromHRIT.
  repeat match goal with |- context [if ?a =? ?b then _ else _] =>
    destruct (Z.eqb_spec a b) as [->|];
    [try (left; reflexivity); right; eexists; unfold satellites; cbn [In]; tauto|] end.
  left; reflexivity.
Qed.
Lemma to_hrit_known id : spacecraftIDToHRIT id = 0 \/ exists n, In (n, spacecraftIDToHRIT id, id) satellites.
Proof.
  unfold spacecraftIDToHRIT.
  repeat match goal with |- context [if ?a =? ?b then _ else _] =>
    destruct (Z.eqb_spec a b) as [->|];
    [try (left; reflexivity); right; eexists; unfold satellites; cbn [In]; tauto|] end.
  left; reflexivity.
Qed.
Lemma hrit_unknown id : ~ (exists n w, In (n, id, w) satellites) -> spacecraftIDFromHRIT id = 1023.
Proof. intros H. destruct (from_hrit_known id) as [E|[n E]]; [exact E|]. exfalso. apply H. eauto. Qed.
Lemma wmo_unknown id : ~ (exists n h, In (n, h, id) satellites) -> spacecraftIDToHRIT id = 0.
Proof. intros H. destruct (to_hrit_known id) as [E|[n E]]; [exact E|]. exfalso. apply H. eauto. Qed.
Lemma hrit_injective id id' : spacecraftIDFromHRIT id = spacecraftIDFromHRIT id' ->
  spacecraftIDFromHRIT id <> 1023 -> id = id'.
Proof.
  intros E Hn. destruct (from_hrit_known id) as [H|[n H]]; [contradiction|].
  destruct (from_hrit_known id') as [H'|[n' H']]; [congruence|].
  apply hrit_round_trip in H as (_ & H & _). apply hrit_round_trip in H' as (_ & H' & _). congruence.
Qed.
Lemma names_round_trip name w : In (name, w) named -> spacecraftName w = name /\ spacecraftID name = w.
Proof.
  intros H. unfold named in H. cbn in H.
  repeat (destruct H as [H|H]; [injection H as <- <-; split; reflexivity|]). destruct H.
Qed.
Lemma name_known name : spacecraftID name = -1 \/ In (name, spacecraftID name) named.
Proof.
  unfold spacecraftID.
  repeat match goal with |- context [if (?a =? ?b)%string then _ else _] =>
    destruct (String.eqb_spec a b) as [->|]; [right; unfold named; cbn; tauto|] end.
  left; reflexivity.
Qed.
Lemma id_known id : In (spacecraftName id, id) named \/
  spacecraftName id = "unknown"%string \/ (spacecraftName id = "Non Spacecraft"%string /\ (id = 999 \/ id = 1023)).
Proof.
  unfold spacecraftName.
  repeat match goal with |- context [if ?a =? ?b then _ else _] =>
    destruct (Z.eqb_spec a b) as [->|]; [try (right; right; split; [reflexivity|lia]); left; unfold named; cbn; tauto|] end.
  right; left; reflexivity.
Qed.
Lemma name_of_id id : spacecraftID (spacecraftName id) = if existsb (fun p => snd p =? id) named then id else -1.
Proof.
  destruct (existsb _ named) eqn:E.
  - apply existsb_exists in E as ([n w] & Hin & Hw). cbn in Hw. apply Z.eqb_eq in Hw. subst w.
    apply names_round_trip in Hin as [-> Hs]. exact Hs.
  - assert (N : forall n, ~ In (n, id) named).
    { intros n Hin. assert (existsb (fun p => snd p =? id) named = true); [|congruence].
      apply existsb_exists. exists (n, id). split; [exact Hin|apply Z.eqb_refl]. }
    destruct (id_known id) as [H|[->|[-> _]]]; [exfalso; exact (N _ H)|reflexivity|reflexivity].
Qed.
Lemma name_unknown name : ~ (exists w, In (name, w) named) -> spacecraftID name = -1.
Proof. intros H. destruct (name_known name) as [E|E]; [exact E|]. exfalso. apply H. eauto. Qed.

(** * C20 *)
Lemma seviri_spec id : seviri id = true <-> msg_satellite id.
Proof. unfold seviri, msg_satellite. lia. Qed.
Lemma Qround_unique q z : ((z # 1) - (1 # 2) < q -> q < (z # 1) + (1 # 2) -> Qround q = z)%Q.
Proof.
  destruct q as [n d]. unfold Qlt, Qround, Qminus, Qplus, Qopp. cbn [Qnum Qden]. rewrite ?Pos2Z.inj_mul.
  assert (Hd : 0 < Z.pos d) by lia. revert Hd. generalize (Z.pos d). intros D Hd H1 H2.
  destruct (Z.ltb_spec n 0).
  - rewrite <- (Z.div_unique (2 * - n + D) (2 * D) (- z) (2 * - n + D - (2 * D) * (- z))); nia.
  - symmetry. apply Z.div_unique with (2 * n + D - (2 * D) * z); nia.
Qed.
Lemma Qround_inv q z : (0 <= z)%Z -> Qround q = z -> ((z # 1) - (1 # 2) <= q /\ q <= (z # 1) + (1 # 2))%Q.
Proof.
  destruct q as [n d]. unfold Qle, Qround, Qminus, Qplus, Qopp. cbn [Qnum Qden]. rewrite ?Pos2Z.inj_mul.
  assert (Hd : 0 < Z.pos d) by lia. revert Hd. generalize (Z.pos d). intros D Hd Hz H.
  destruct (Z.ltb_spec n 0).
  - assert (B := Z.div_mod (2 * - n + D) (2 * D) ltac:(lia)).
    assert (M := Z.mod_pos_bound (2 * - n + D) (2 * D) ltac:(lia)).
    revert B M H. generalize ((2 * - n + D) / (2 * D)) ((2 * - n + D) mod (2 * D)). intros k r B M <-. split; nia.
  - assert (B := Z.div_mod (2 * n + D) (2 * D) ltac:(lia)).
    assert (M := Z.mod_pos_bound (2 * n + D) (2 * D) ltac:(lia)).
    revert B M H. generalize ((2 * n + D) / (2 * D)) ((2 * n + D) mod (2 * D)). intros k r B M <-. split; nia.
Qed.
Lemma wavelength_table id ch n w : msg_satellite id -> In (ch, n, w) channels ->
  exists t, channel_central_wavelength id ch = Ok (t # 10)%Q /\ (t # 10 == w)%Q /\ channelName id ch = n /\
    channel_of_tenths t = Ok ch /\ (0 < t < 1000)%Z.
Proof.
  intros Hid H. apply seviri_spec in Hid. unfold channel_central_wavelength, wavelength_tenths, channelName. rewrite Hid.
  unfold channels in H. cbn [In] in H.
  repeat (destruct H as [H|H]; [injection H as <- <- <-; cbn; eexists; split; [reflexivity|]; split; [reflexivity|]; split; [reflexivity|]; split; [reflexivity|lia]|]).
  destruct H.
Qed.
Lemma wavelength_other id ch : msg_satellite id -> (ch < 1 \/ 12 < ch) -> channel_central_wavelength id ch = Throw.
Proof.
  intros Hid H. apply seviri_spec in Hid. unfold channel_central_wavelength, wavelength_tenths. rewrite Hid. cbn [negb].
  repeat match goal with |- context [if ?a =? ?b then _ else _] => replace (a =? b) with false by lia end. reflexivity.
Qed.
Lemma near_wavelength id ch n w x : msg_satellite id -> In (ch, n, w) channels ->
  (Qabs (x - w) < 5 # 100)%Q -> channel_from_central_wavelength id x = Ok ch.
Proof.
  intros Hid H Hx. destruct (wavelength_table id ch n w Hid H) as (t & _ & Ht & _ & Hc & Hb).
  apply seviri_spec in Hid. unfold channel_from_central_wavelength. rewrite Hid. cbn [negb].
  apply Qabs_Qlt_condition in Hx as [H1 H2]. rewrite <- Ht in H1, H2.
  assert (E : Qround (x * 10) = t).
  { assert (Et : (t # 1 == 10 * (t # 10))%Q) by (unfold Qeq, Qmult; cbn [Qnum Qden]; lia).
    apply Qround_unique; rewrite Et; lra. }
  rewrite E. unfold fits_int. replace ((- 2 ^ 31 <=? t) && (t <? 2 ^ 31)) with true by lia. exact Hc.
Qed.
Lemma far_wavelength id x : msg_satellite id -> (Qabs x < 100000000)%Q ->
  (forall ch n w, In (ch, n, w) channels -> 5 # 100 < Qabs (x - w))%Q ->
  channel_from_central_wavelength id x = Throw.
Proof.
  intros Hid Hb Hx. apply seviri_spec in Hid. unfold channel_from_central_wavelength. rewrite Hid. cbn [negb].
  assert (Hin : fits_int (Qround (x * 10)) = true).
  { apply Qabs_Qlt_condition in Hb as [B1 B2]. revert B1 B2. destruct x as [n d].
    unfold Qlt, Qround, fits_int, Qmult, Qopp. cbn [Qnum Qden]. rewrite ?Pos2Z.inj_mul.
    assert (Hd : 0 < Z.pos d) by lia. revert Hd. generalize (Z.pos d). intros D Hd B1 B2.
    rewrite !Z.mul_1_r in *. destruct (Z.ltb_spec (n * 10) 0).
    - assert (0 <= (2 * - (n * 10) + D) / (2 * D)) by (apply Z.div_pos; lia).
      assert ((2 * - (n * 10) + D) / (2 * D) < 2 ^ 31) by (apply Z.div_lt_upper_bound; lia).
      generalize dependent ((2 * - (n * 10) + D) / (2 * D)). intros k K1 K2. lia.
    - assert (0 <= (2 * (n * 10) + D) / (2 * D)) by (apply Z.div_pos; lia).
      assert ((2 * (n * 10) + D) / (2 * D) < 2 ^ 31) by (apply Z.div_lt_upper_bound; lia).
      generalize dependent ((2 * (n * 10) + D) / (2 * D)). intros k K1 K2. lia. }
  rewrite Hin.
  assert (K : forall t ch, channel_of_tenths t = Ok ch -> (0 <= t)%Z /\ ((exists n, In (ch, n, (t # 10)%Q) channels) \/ t = 120)).
  { intros t ch. unfold channel_of_tenths.
    repeat match goal with |- context [if ?a =? ?b then _ else _] =>
      destruct (Z.eqb_spec a b) as [->|]; [intros [= <-]; split; [lia|first [right; reflexivity|left; eexists; unfold channels; cbn [In]; tauto]]|] end.
    discriminate. }
  destruct (channel_of_tenths (Qround (x * 10))) as [ch| | | |] eqn:E; try reflexivity.
  - exfalso. destruct (K _ _ E) as [Hp Hn].
    destruct (Qround_inv _ _ Hp eq_refl) as [L U].
    set (t := Qround (x * 10)) in *.
    assert (Et : (t # 1 == 10 * (t # 10))%Q) by (unfold Qeq, Qmult; cbn [Qnum Qden]; lia). rewrite Et in L, U.
    assert (Hclose : (Qabs (x - (t # 10)) <= 5 # 100)%Q) by (apply Qabs_Qle_condition; split; lra).
    destruct Hn as [[n Hn]|Hn].
    + specialize (Hx _ _ _ Hn). lra.
    + specialize (Hx 10 "IR_120"%string (12 # 1)%Q ltac:(unfold channels; cbn [In]; tauto)).
      rewrite Hn in Hclose. assert (E12 : (120 # 10 == 12 # 1)%Q) by reflexivity. rewrite E12 in Hclose. lra.
  - revert E. unfold channel_of_tenths. repeat match goal with |- context [if ?a then _ else _] => destruct a; [discriminate|] end. discriminate.
  - revert E. unfold channel_of_tenths. repeat match goal with |- context [if ?a then _ else _] => destruct a; [discriminate|] end. discriminate.
  - revert E. unfold channel_of_tenths. repeat match goal with |- context [if ?a then _ else _] => destruct a; [discriminate|] end. discriminate.
Qed.
Lemma channel_cases ch : 1 <= ch <= 12 -> In ch (map (fun t => fst (fst t)) channels).
Proof. intros H. unfold channels. cbn. lia. Qed.
Lemma f_round_trip id ch : msg_satellite id -> 1 <= ch <= 12 ->
  (let! w := f_central_wavelength id ch in f_channel_from_wavelength id w) = Ok ch /\
  (let! n := f_central_wave_number id ch in f_channel_from_wave_number id n) = Ok ch.
Proof.
  intros Hid H. each_month H; destruct Hid as [->|[->|[->| ->]]]; split; vm_compute; reflexivity.
Qed.
Lemma q_round_trip id ch : msg_satellite id -> 1 <= ch <= 12 ->
  (let! w := channel_central_wavelength id ch in channel_from_central_wavelength id w) = Ok ch /\
  (let! n := channel_central_wave_number id ch in channel_from_central_wave_number id n) = Ok ch.
Proof.
  intros Hid H. each_month H; destruct Hid as [->|[->|[->| ->]]]; split; vm_compute; reflexivity.
Qed.
