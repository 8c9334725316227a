(** C136, C137: the texts and values of times in HRIT files. *)
From Coq Require Import ZArith Reals String List Lia Lra.
From Flocq Require Import Core.
From Verif Require Import Base BaseFacts IniModel MachineModel MachineProofs ScanModel GribModel GribProps NcModel NcProps MsgModel.
Import ListNotations.
Open Scope string_scope.
Open Scope list_scope.
Open Scope Z_scope.

(** ** The calendar of gmtime *)
Lemma year_start y : days_before y 1 = 365 * (y - 1970) + ((y - 1) / 4 - (y - 1) / 100 + (y - 1) / 400) - 477.
Proof. unfold days_before. change ((1 - 1) / 12) with 0. change ((1 - 1) mod 12) with 0. rewrite Z.add_0_r. change (Z.to_nat 0) with 0%nat. cbn [nth]. change (2 <=? 0) with false. rewrite Bool.andb_false_r. lia. Qed.
Lemma year_at_ok n : days_before (year_at n) 1 <= n < days_before (year_at n + 1) 1.
Proof.
  unfold year_at. set (y := 400 * n / 146097 + 1970). assert (Y : y = 400 * n / 146097 + 1970) by reflexivity. clearbody y. rewrite !year_start.
  destruct (n <? _) eqn:E1; [rewrite ?year_start; lia|]. destruct (_ <=? n) eqn:E2; rewrite ?year_start; lia.
Qed.
Lemma month_13 y : days_before y 13 = days_before (y + 1) 1.
Proof. unfold days_before. change ((13 - 1) / 12) with 1. change ((1 - 1) / 12) with 0. now rewrite Z.add_0_r. Qed.
Lemma month_step y m : 1 <= y -> 1 <= m <= 12 -> days_before y (m + 1) = days_before y m + month_days y m.
Proof.
  intros Y M. pose proof (month_days_pos y m) as P. pose proof (day_after_number (y, m, month_days y m)) as D. cbn [valid_date] in D. specialize (D ltac:(lia)). unfold day_after in D. rewrite Z.ltb_irrefl in D.
  destruct (m <? 12) eqn:E; unfold day_number in D; [lia|]. assert (m = 12) by lia. subst m. change (12 + 1) with 13. rewrite month_13. lia.
Qed.
Lemma month_at_ok fuel y m n : 1 <= y -> 1 <= m -> m + Z.of_nat fuel = 12 -> days_before y m <= n < days_before y 13 ->
  let m' := month_at fuel y m n in 1 <= m' <= 12 /\ days_before y m' <= n < days_before y (m' + 1).
Proof.
  revert m. induction fuel as [|fuel IH]; intros m Y M F B; cbn [month_at].
  - assert (m = 12) by lia. subst m. cbn zeta. change (12 + 1) with 13. lia.
  - destruct (days_before y (m + 1) <=? n) eqn:E; [apply IH; lia|]. cbn zeta. lia.
Qed.
(** The date [n] days after the first of the year 1, which is 719162 days before 1970. *)
Lemma civil_date n : 0 <= n -> civil (n - 719162) = date (Z.to_nat n).
Proof.
  intros N. assert (V : valid_date (civil (n - 719162)) /\ day_number (civil (n - 719162)) = n - 719162).
  { unfold civil. pose proof (year_at_ok (n - 719162)) as Y. set (y := year_at (n - 719162)) in *. assert (Y1 : 1 <= y).
    { destruct (Z_lt_le_dec y 1) as [L|L]; [|exact L]. exfalso. assert (D : days_before (y + 1) 1 <= -719162). { unfold days_before. change ((1 - 1) / 12) with 0. change ((1 - 1) mod 12) with 0. rewrite Z.add_0_r. change (Z.to_nat 0) with 0%nat. cbn [nth]. change (2 <=? 0) with false. rewrite Bool.andb_false_r. lia. } lia. }
    clearbody y. assert (B : days_before y 1 <= n - 719162 < days_before y 13) by (rewrite month_13; exact Y).
    destruct (month_at_ok 11 y 1 (n - 719162) Y1 ltac:(lia) ltac:(lia) B) as (M1 & M2). set (m := month_at 11 y 1 (n - 719162)) in *. clearbody m. pose proof (month_step y m Y1 M1). cbn [valid_date day_number]. lia. }
  destruct V as (V & D). destruct (civil (n - 719162)) as [[y m] d] eqn:E. cbn [valid_date] in V. destruct (C120_calendar y m d) as (k & K); try tauto. destruct (date_number k) as [_ DK]. rewrite K in DK. rewrite D in DK. change (day_number (1, 1, 1)) with (-719162) in DK. replace (Z.to_nat n) with k by lia. now rewrite K.
Qed.
Lemma date_inj a b : date a = date b -> a = b.
Proof. intros E. destruct (date_number a) as [_ A]. destruct (date_number b) as [_ B]. rewrite E in A. lia. Qed.
Lemma date_1958 k : date k = (1958, 1, 1) -> Z.of_nat k = 714779.
Proof. intros E. destruct (date_number k) as [_ D]. rewrite E in D. change (day_number (1958, 1, 1)) with (-4383) in D. change (day_number (1, 1, 1)) with (-719162) in D. lia. Qed.
Lemma year_range n y m d : date n = (y, m, d) -> 714779 <= Z.of_nat n < 3000000 -> 1000 <= y <= 9999.
Proof.
  intros E N. pose proof (civil_date (Z.of_nat n) ltac:(lia)) as C. rewrite Nat2Z.id, E in C. unfold civil in C. apply (f_equal (fun x => fst (fst x))) in C. cbn [fst] in C. pose proof (year_at_ok (Z.of_nat n - 719162)) as Y. rewrite C in Y. rewrite !year_start in Y. lia.
Qed.

(** ** C136 *)
Definition ddd (n : Z) : str := [48 + n / 100; 48 + n / 10 mod 10; 48 + n mod 10].
Lemma zpad3 n : 0 <= n <= 999 -> zpad 3 n = ddd n.
Proof.
  intros H. unfold zpad, ddd, print. replace (n <? 0) with false by lia. assert (n < 10 \/ 10 <= n < 100 \/ 100 <= n) as [C|[C|C]] by lia; small_print n; cbn [List.length Nat.sub repeat app]; repeat (apply f_equal2; [lia|]); reflexivity.
Qed.
Lemma print4 y : 1000 <= y <= 9999 -> print y = dddd y.
Proof. intros H. unfold print, dddd, dd. small_print y. cbn [app]. repeat (apply f_equal2; [lia|]). reflexivity. Qed.
Lemma date_text_iso y m d h mi s : 1000 <= y <= 9999 -> two m -> two d -> two h -> two mi -> two s -> date_text y m d h mi s = iso_text y m d h mi s.
Proof. intros Y M D H MI S0. unfold date_text. rewrite print4, !zpad2 by assumption. reflexivity. Qed.
(** The text of a moment: a date of the calendar, the time of the day and the
    milliseconds. *)
Definition moment_text (y m d ms : Z) : str := iso_text y m d (ms / 3600000) (ms / 60000 mod 60) (ms / 1000 mod 60).
Lemma gm_text_ok k n y m d ms : date k = (1958, 1, 1) -> date (k + n) = (y, m, d) -> Z.of_nat n < 65536 -> 0 <= ms < 86400000 ->
  gm_text (86400 * (Z.of_nat n - 4383) + ms / 1000) = moment_text y m d ms.
Proof.
  intros K N LN MS. apply date_1958 in K. unfold gm_text. replace ((86400 * (Z.of_nat n - 4383) + ms / 1000) / 86400) with (Z.of_nat (k + n) - 719162) by lia. rewrite civil_date by lia. rewrite Nat2Z.id, N.
  replace ((86400 * (Z.of_nat n - 4383) + ms / 1000) mod 86400) with (ms / 1000) by lia. destruct (date_two _ _ _ _ N) as (Y1 & M1 & D1). pose proof (year_range _ _ _ _ N ltac:(lia)) as Y2. unfold moment_text.
  rewrite date_text_iso by (unfold two; lia). replace (ms / 1000 / 3600) with (ms / 3600000) by lia. replace (ms / 1000 / 60) with (ms / 60000) by lia. reflexivity.
Qed.
Lemma cds_text h pre bs post k y m d : List.length bs = 6%nat -> bytes_ok bs -> be_val (skipn 2 bs) < 86400000 -> date k = (1958, 1, 1) -> date (k + Z.to_nat (be_val (firstn 2 bs))) = (y, m, d) ->
  exists t, read_cds_short h (pre ++ bs ++ post) (List.length pre) = Ok t /\ timestring t = moment_text y m d (be_val (skipn 2 bs)) ++ codes " +" ++ ddd (be_val (skipn 2 bs) mod 1000) ++ codes " msecs".
Proof.
  intros L B MS K N. destruct (cds_decode h pre bs post L) as (t & E & _ & _ & U & US). exists t. split; [exact E|]. unfold timestring. rewrite U, US.
  pose proof (be_val_range (firstn 2 bs) ltac:(now apply bytes_ok_firstn)) as R1. rewrite firstn_length, L in R1. change (256 ^ Z.of_nat (Nat.min 2 6)) with 65536 in R1.
  pose proof (be_val_range (skipn 2 bs) ltac:(now apply bytes_ok_skipn)) as R2.
  rewrite zpad3 by lia. pose proof (gm_text_ok k (Z.to_nat (be_val (firstn 2 bs))) y m d (be_val (skipn 2 bs)) K N ltac:(lia) ltac:(lia)) as G. rewrite Z2Nat.id in G by lia. now rewrite G.
Qed.
(** The stamp of any moment from 1958 to 2137 prints as its date in the calendar,
    and the longer stamps have the microseconds and nanoseconds after the
    milliseconds. *)
Theorem C136_texts_partial h pre bs us ns post k y m d : List.length bs = 6%nat -> bytes_ok bs -> be_val (skipn 2 bs) < 86400000 -> date k = (1958, 1, 1) -> date (k + Z.to_nat (be_val (firstn 2 bs))) = (y, m, d) ->
  0 <= us <= 999 -> 0 <= ns <= 999 ->
  let ms := be_val (skipn 2 bs) in
  exists t, read_cds_short h (pre ++ bs ++ post) (List.length pre) = Ok t /\
    timestring t = moment_text y m d ms ++ codes " +" ++ ddd (ms mod 1000) ++ codes " msecs" /\
    timestring_us t us = Ok (moment_text y m d ms ++ codes " +" ++ ddd (ms mod 1000) ++ codes "." ++ ddd us ++ codes " msecs") /\
    timestring_expanded t us ns = Ok (moment_text y m d ms ++ codes " +" ++ ddd (ms mod 1000) ++ codes "." ++ ddd us ++ ddd ns ++ codes " msecs").
Proof.
  intros L B MS K N U S0 ms. destruct (cds_text h pre bs post k y m d L B MS K N) as (t & E & T). exists t. split; [exact E|]. split; [exact T|]. unfold timestring_us, timestring_expanded, insert. rewrite T. rewrite !zpad3 by assumption. split; reflexivity.
Qed.
Print Assumptions C136_texts_partial.
(** Different moments have different texts. *)
Lemma dd_inj a b : two a -> two b -> dd a = dd b -> a = b.
Proof. unfold dd, two. intros A B E. pose proof (f_equal (fun l => nth 0 l 0) E) as E1. pose proof (f_equal (fun l => nth 1 l 0) E) as E2. cbn [nth] in E1, E2. lia. Qed.
Lemma ddd_inj a b : 0 <= a <= 999 -> 0 <= b <= 999 -> ddd a = ddd b -> a = b.
Proof. unfold ddd. intros A B E. pose proof (f_equal (fun l => nth 0 l 0) E) as E1. pose proof (f_equal (fun l => nth 1 l 0) E) as E2. pose proof (f_equal (fun l => nth 2 l 0) E) as E3. cbn [nth] in E1, E2, E3. lia. Qed.
Lemma app_inj_len {A} (a b c d : list A) : List.length a = List.length c -> a ++ b = c ++ d -> a = c /\ b = d.
Proof. revert c. induction a as [|x a IH]; intros [|y c] L E; cbn in L; try discriminate; [now split|]. injection E as -> E. destruct (IH c ltac:(lia) E) as [-> ->]. now split. Qed.
Theorem C136_distinct h p1 b1 q1 p2 b2 q2 t1 t2 : List.length b1 = 6%nat -> List.length b2 = 6%nat -> bytes_ok b1 -> bytes_ok b2 -> be_val (skipn 2 b1) < 86400000 -> be_val (skipn 2 b2) < 86400000 ->
  read_cds_short h (p1 ++ b1 ++ q1) (List.length p1) = Ok t1 -> read_cds_short h (p2 ++ b2 ++ q2) (List.length p2) = Ok t2 -> timestring t1 = timestring t2 -> b1 = b2.
Proof.
  intros L1 L2 B1 B2 M1 M2 E1 E2 T. destruct (C120_calendar 1958 1 1 ltac:(lia) ltac:(lia) ltac:(cbn; lia)) as (k & K).
  destruct (date (k + Z.to_nat (be_val (firstn 2 b1)))) as [[y m] d] eqn:N1. destruct (date (k + Z.to_nat (be_val (firstn 2 b2)))) as [[y' m'] d'] eqn:N2.
  destruct (cds_text h p1 b1 q1 k y m d L1 B1 M1 K N1) as (x1 & X1 & T1). rewrite E1 in X1. injection X1 as <-. destruct (cds_text h p2 b2 q2 k y' m' d' L2 B2 M2 K N2) as (x2 & X2 & T2). rewrite E2 in X2. injection X2 as <-.
  rewrite T1, T2 in T. clear T1 T2 E1 E2.
  pose proof (be_val_range (skipn 2 b1) ltac:(now apply bytes_ok_skipn)) as R1. pose proof (be_val_range (skipn 2 b2) ltac:(now apply bytes_ok_skipn)) as R2.
  pose proof (be_val_range (firstn 2 b1) ltac:(now apply bytes_ok_firstn)) as R3. pose proof (be_val_range (firstn 2 b2) ltac:(now apply bytes_ok_firstn)) as R4. rewrite firstn_length, L1 in R3. rewrite firstn_length, L2 in R4. change (256 ^ Z.of_nat (Nat.min 2 6)) with 65536 in R3, R4.
  pose proof (date_1958 k K) as K'. pose proof (year_range _ _ _ _ N1 ltac:(lia)) as Y1. pose proof (year_range _ _ _ _ N2 ltac:(lia)) as Y2. destruct (date_two _ _ _ _ N1) as (_ & MM1 & D1). destruct (date_two _ _ _ _ N2) as (_ & MM2 & D2).
  set (s1 := be_val (skipn 2 b1)) in *. set (s2 := be_val (skipn 2 b2)) in *. unfold moment_text, iso_text in T. rewrite <- !app_assoc in T. unfold dddd in T. rewrite <- !app_assoc in T.
  apply app_inj_len in T; [|reflexivity]. destruct T as [A1 T]. apply app_inj_len in T; [|reflexivity]. destruct T as [A2 T]. apply dd_inj in A1; [|unfold two; lia|unfold two; lia]. apply dd_inj in A2; [|unfold two; lia|unfold two; lia]. assert (y = y') by lia. subst y'. clear A1 A2.
  apply app_inj_len in T; [|reflexivity]. destruct T as [_ T]. apply app_inj_len in T; [|reflexivity]. destruct T as [A T]. apply dd_inj in A; [|unfold two; lia|unfold two; lia]. subst m'.
  apply app_inj_len in T; [|reflexivity]. destruct T as [_ T]. apply app_inj_len in T; [|reflexivity]. destruct T as [A T]. apply dd_inj in A; [|unfold two; lia|unfold two; lia]. subst d'.
  apply app_inj_len in T; [|reflexivity]. destruct T as [_ T]. apply app_inj_len in T; [|reflexivity]. destruct T as [A1 T]. apply dd_inj in A1; [|unfold two; lia|unfold two; lia].
  apply app_inj_len in T; [|reflexivity]. destruct T as [_ T]. apply app_inj_len in T; [|reflexivity]. destruct T as [A2 T]. apply dd_inj in A2; [|unfold two; lia|unfold two; lia].
  apply app_inj_len in T; [|reflexivity]. destruct T as [_ T]. apply app_inj_len in T; [|reflexivity]. destruct T as [A3 T]. apply dd_inj in A3; [|unfold two; lia|unfold two; lia].
  apply app_inj_len in T; [|reflexivity]. destruct T as [_ T]. apply app_inj_len in T; [|reflexivity]. destruct T as [A4 _]. apply ddd_inj in A4; [|lia|lia].
  assert (SS : s1 = s2) by lia. assert (DD : be_val (firstn 2 b1) = be_val (firstn 2 b2)) by (rewrite <- N1 in N2; apply date_inj in N2; lia).
  rewrite <- (firstn_skipn 2 b1), <- (firstn_skipn 2 b2). f_equal; apply be_val_inj; try (now apply bytes_ok_firstn); try (now apply bytes_ok_skipn); rewrite ?firstn_length, ?skipn_length; rewrite ?L1, ?L2; first [reflexivity | exact DD | exact SS].
Qed.
Print Assumptions C136_distinct.
(** The texts of stamps with fractions of more than 999 are ambiguous: nothing is
    refused and nothing separates the two numbers. *)
Theorem C136_refuted_fractions t s : timestring_expanded t 123 4567 = Ok s -> timestring_expanded t 1234 567 = Ok s.
Proof. exact (fun E => E). Qed.
Print Assumptions C136_refuted_fractions.
Example C136_case : let bs := be 2 17848 ++ be 4 28800123 in List.length bs = 6%nat /\ bytes_ok bs /\ be_val (skipn 2 bs) < 86400000 /\
  civil (17848 - 4383) = (2006, 11, 13) /\ moment_text 2006 11 13 28800123 = codes "2006-11-13 08:00:00" /\ (let! t := read_cds_short LE bs 0 in timestring_expanded t 123 4567) = Ok (codes "2006-11-13 08:00:00 +123.1234567 msecs").
Proof. cbv zeta. split; [reflexivity|]. split; [repeat constructor; cbn; lia|]. split; [vm_compute; reflexivity|]. split; [vm_compute; reflexivity|]. split; [vm_compute; reflexivity|]. vm_compute; reflexivity. Qed.

(** ** C137 *)
Lemma take_digits_exact ds rest : Forall (fun c => 48 <= c <= 57) ds -> take_digits (List.length ds) (ds ++ rest) = ds.
Proof. induction 1 as [|c ds C F IH]; cbn [List.length app take_digits]; [now destruct rest|]. replace ((48 <=? c) && (c <=? 57))%bool with true by lia. now rewrite IH. Qed.
Lemma scan_int_exact ds rest : ds <> [] -> Forall (fun c => 48 <= c <= 57) ds -> scan_int (List.length ds) (ds ++ rest) = Some (digits 0 ds, rest).
Proof.
  intros N F. destruct ds as [|c ds]; [contradiction|]. inversion F as [|? ? Hc F']; subst. unfold scan_int. assert (K : strskp ((c :: ds) ++ rest) = (c :: ds) ++ rest). { cbn [app strskp]. unfold isspace. now replace (((9 <=? c) && (c <=? 13)) || (c =? 32))%bool with false by lia. }
  rewrite K. cbn [app List.length]. replace (c =? 45) with false by lia. replace (c =? 43) with false by lia. change (c :: ds ++ rest) with ((c :: ds) ++ rest). change (S (List.length ds)) with (List.length (c :: ds)). rewrite take_digits_exact by assumption. cbn [app]. change (c :: ds ++ rest) with ((c :: ds) ++ rest). now rewrite skipn_app_exact.
Qed.
(** Generalized times are 15 characters: YYYYMMDDhhmmssZ. *)
Definition generalized (y m d h mi s : Z) : str := dddd y ++ dd m ++ dd d ++ dd h ++ dd mi ++ dd s ++ codes "Z".
Lemma generalized_read y m d h mi s rest : 0 <= y <= 9999 -> two m -> two d -> two h -> two mi -> two s -> read_generalized (generalized y m d h mi s ++ rest) = mk_tm (y - 1900) (m - 1) d h mi s.
Proof.
  intros Y M D H MI S0. unfold read_generalized, generalized, generalized_format. rewrite <- !app_assoc. cbn [scan_fields].
  rewrite (scan_int_exact (dddd y)); [|discriminate|now apply dddd_digits].
  rewrite (scan_int_exact (dd m)); [|discriminate|now apply dd_digits]. rewrite (scan_int_exact (dd d)); [|discriminate|now apply dd_digits]. rewrite (scan_int_exact (dd h)); [|discriminate|now apply dd_digits]. rewrite (scan_int_exact (dd mi)); [|discriminate|now apply dd_digits]. rewrite (scan_int_exact (dd s)); [|discriminate|now apply dd_digits].
  rewrite (proj2 (dddd_digits y Y)), (proj2 (dd_digits m M)), (proj2 (dd_digits d D)), (proj2 (dd_digits h H)), (proj2 (dd_digits mi MI)), (proj2 (dd_digits s S0)). reflexivity.
Qed.
(** They print as the date and time they are, and on hosts that keep UTC their
    seconds are those from the start of 1970. *)
Theorem C137_generalized_partial k n y m d h mi s rest : date k = (1970, 1, 1) -> date n = (y, m, d) -> 1000 <= y <= 9999 -> two h -> two mi -> two s ->
  generalized_text (read_generalized (generalized y m d h mi s ++ rest)) = iso_text y m d h mi s /\
  generalized_unixtime 0 (read_generalized (generalized y m d h mi s ++ rest)) = seconds_between k n h mi s.
Proof.
  intros K N Y H MI S0. destruct (date_two _ _ _ _ N) as (Y1 & M1 & D1). rewrite generalized_read by (unfold two in *; lia). unfold generalized_text, generalized_unixtime. cbn [tm_year tm_mon tm_mday tm_hour tm_min tm_sec].
  replace (y - 1900 + 1900) with y by lia. replace (m - 1 + 1) with m by lia. split; [apply date_text_iso; try assumption; unfold two; lia|].
  destruct (date_number k) as [_ DK]. destruct (date_number n) as [_ DN]. rewrite K in DK. rewrite N in DN. change (day_number (1970, 1, 1)) with 0 in DK. change (day_number (1, 1, 1)) with (-719162) in DK, DN. unfold day_number in DN. unfold seconds_between. lia.
Qed.
Print Assumptions C137_generalized_partial.
(** Elsewhere the seconds are those of another moment: [zone] seconds earlier. *)
Theorem C137_refuted_zone zone k n y m d h mi s rest : zone <> 0 -> date k = (1970, 1, 1) -> date n = (y, m, d) -> 1000 <= y <= 9999 -> two h -> two mi -> two s ->
  generalized_unixtime zone (read_generalized (generalized y m d h mi s ++ rest)) <> seconds_between k n h mi s /\
  generalized_unixtime zone (read_generalized (generalized y m d h mi s ++ rest)) = seconds_between k n h mi s - zone.
Proof.
  intros NZ K N Y H MI S0. rewrite <- (proj2 (C137_generalized_partial k n y m d h mi s rest K N Y H MI S0)). unfold generalized_unixtime. lia.
Qed.
Print Assumptions C137_refuted_zone.
Example C137_case : (exists k, date k = (1970, 1, 1)) /\ (exists n, date n = (2006, 11, 13)) /\ generalized 2006 11 13 8 0 30 = codes "20061113080030Z" /\ generalized_unixtime 0 (read_generalized (codes "20061113080030Z")) = 1163404830.
Proof. split; [apply C120_calendar; cbn; lia|]. split; [apply C120_calendar; cbn; lia|]. split; vm_compute; reflexivity. Qed.
