(** Properties C17 to C20 and C64. *)
From Verif Require Import BaseFacts FactsModel FactsSpec FactsProofs.
From Coq Require Import QArith Qabs SpecFloat.
Open Scope string_scope.
Open Scope Z_scope.

(** C17 *)
Theorem C17_day_of_year : forall y m d : Z, valid_date y m d ->
  jday y m d = ordinal y m d /\ 1 <= jday y m d <= year_length y.
Proof. intros y m d H. split; [apply jday_ordinal, H|apply jday_range, H]. Qed.
Print Assumptions C17_day_of_year.
Theorem C17_calendar_order : forall y m d m' d' : Z, valid_date y m d -> valid_date y m' d' ->
  (jday y m d < jday y m' d' <-> m < m' \/ (m = m' /\ d < d')).
Proof. exact jday_order. Qed.
Print Assumptions C17_calendar_order.
(** Every day number of the year is some date's, and the next day has the next
    number, or 1 when the year ends. *)
Theorem C17_onto : forall y j : Z, 1 <= j <= year_length y -> exists m d, valid_date y m d /\ jday y m d = j.
Proof. exact jday_onto. Qed.
Print Assumptions C17_onto.
Theorem C17_next_day : forall y m d : Z, valid_date y m d ->
  match next_day y m d with
  | (y', m', d') => valid_date y' m' d' /\ jday y' m' d' = (if y' =? y then jday y m d + 1 else 1) /\
                    (y' <> y -> jday y m d = year_length y)
  end.
Proof. exact jday_next. Qed.
Print Assumptions C17_next_day.
Theorem C17_leap_years : forall y : Z, year_length y = 366 <-> leap_year y.
Proof. intros y. rewrite <- leap_yearb_spec. unfold year_length. destruct (leap_yearb y); split; congruence. Qed.
Print Assumptions C17_leap_years.
Example C17_case : valid_date 2000 12 31 /\ jday 2000 12 31 = 366 /\ jday 1900 3 1 = 60 /\ jday 2006 11 13 = 317.
Proof. repeat split; try lia; vm_compute; congruence. Qed.

(** C18 *)
Theorem C18_round_trip : forall (name : string) (hrit wmo : Z), In (name, hrit, wmo) satellites ->
  spacecraftIDFromHRIT hrit = wmo /\ spacecraftIDToHRIT wmo = hrit.
Proof. intros n h w H. destruct (hrit_round_trip n h w H) as (A & B & _). auto. Qed.
Print Assumptions C18_round_trip.
Theorem C18_no_sharing : forall id id' : Z,
  spacecraftIDFromHRIT id = spacecraftIDFromHRIT id' -> spacecraftIDFromHRIT id <> 1023 -> id = id'.
Proof. exact hrit_injective. Qed.
Print Assumptions C18_no_sharing.
Theorem C18_defaults : forall id : Z,
  (~ (exists n w, In (n, id, w) satellites) -> spacecraftIDFromHRIT id = 1023) /\
  (~ (exists n h, In (n, h, id) satellites) -> spacecraftIDToHRIT id = 0).
Proof. intros id. split; [apply hrit_unknown|apply wmo_unknown]. Qed.
Print Assumptions C18_defaults.
Example C18_case : spacecraftIDFromHRIT 321 = 55 /\ spacecraftIDFromHRIT 17013 = 1023 /\ spacecraftIDToHRIT 999 = 0.
Proof. repeat split. Qed.

(** C19 *)
Theorem C19_names : forall (name : string) (id : Z), In (name, id) named ->
  spacecraftName id = name /\ spacecraftID name = id.
Proof. exact names_round_trip. Qed.
Print Assumptions C19_names.
Theorem C19_name_of_any_id : forall id : Z,
  spacecraftID (spacecraftName id) = if existsb (fun p => snd p =? id) named then id else -1.
Proof. exact name_of_id. Qed.
Print Assumptions C19_name_of_any_id.
Theorem C19_other_names : forall name : string, ~ (exists id, In (name, id) named) -> spacecraftID name = -1.
Proof. exact name_unknown. Qed.
Print Assumptions C19_other_names.
Example C19_case : In ("MSG4", 70) named /\ spacecraftID "msg4" = -1 /\ spacecraftID (spacecraftName 1023) = -1.
Proof. repeat split. cbn. tauto. Qed.

(** C20, exact arithmetic. *)
Theorem C20_channel_table : forall (id ch : Z) (n : string) (w : Q), msg_satellite id -> In (ch, n, w) channels ->
  exists q, channel_central_wavelength id ch = Ok q /\ (q == w)%Q /\ channelName id ch = n.
Proof. intros id ch n w Hid H. destruct (wavelength_table id ch n w Hid H) as (t & A & B & C & _). eauto. Qed.
Print Assumptions C20_channel_table.
Theorem C20_other_channels : forall id ch : Z, msg_satellite id -> (ch < 1 \/ 12 < ch) ->
  channel_central_wavelength id ch = Throw.
Proof. exact wavelength_other. Qed.
Print Assumptions C20_other_channels.
Theorem C20_near_wavelength_selects : forall (id ch : Z) (n : string) (w x : Q),
  msg_satellite id -> In (ch, n, w) channels -> (Qabs (x - w) < 5 # 100)%Q ->
  channel_from_central_wavelength id x = Ok ch.
Proof. exact near_wavelength. Qed.
Print Assumptions C20_near_wavelength_selects.
(** Bound on x: beyond the range of int the conversion is undefined. *)
Theorem C20_far_wavelength_rejected : forall (id : Z) (x : Q), msg_satellite id -> (Qabs x < 100000000)%Q ->
  (forall ch n w, In (ch, n, w) channels -> 5 # 100 < Qabs (x - w))%Q ->
  channel_from_central_wavelength id x = Throw.
Proof. exact far_wavelength. Qed.
Print Assumptions C20_far_wavelength_rejected.
(** C20 in IEEE double arithmetic: each channel is recovered from the double the
    library itself reports for it. *)
Theorem C20_double_round_trip : forall id ch : Z, msg_satellite id -> 1 <= ch <= 12 ->
  (let! w := f_central_wavelength id ch in f_channel_from_wavelength id w) = Ok ch.
Proof. intros id ch Hid H. exact (proj1 (f_round_trip id ch Hid H)). Qed.
Print Assumptions C20_double_round_trip.
Example C20_case : msg_satellite 57 /\ (Qabs ((1076 # 100) - (108 # 10)) < 5 # 100)%Q /\
  channel_from_central_wavelength 57 (1076 # 100) = Ok 9 /\ channel_from_central_wavelength 57 (5 # 1) = Throw.
Proof. repeat split; vm_compute; auto. Qed.

(** C64: the same through wave numbers (1/m), exactly and in doubles. *)
Theorem C64_wave_number_round_trip : forall id ch : Z, msg_satellite id -> 1 <= ch <= 12 ->
  (let! n := channel_central_wave_number id ch in channel_from_central_wave_number id n) = Ok ch /\
  (let! n := f_central_wave_number id ch in f_channel_from_wave_number id n) = Ok ch.
Proof. intros id ch Hid H. split; [exact (proj2 (q_round_trip id ch Hid H))|exact (proj2 (f_round_trip id ch Hid H))]. Qed.
Print Assumptions C64_wave_number_round_trip.
Example C64_case : f_central_wave_number 55 9 = Ok (f_div (f_of_Z 1) (f_mul (f_lit 108 10) (f_lit 1 1000000))) /\
  f_round (f_div (f_of_Z 1) (f_mul (f_lit 108 10) (f_lit 1 1000000))) = Some 92593.
Proof. split; vm_compute; reflexivity. Qed.
