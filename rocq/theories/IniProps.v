(** Properties C26-C29, C67 and C68: configuration dictionaries and files. *)
From Verif Require Import BaseFacts IniModel IniSpec IniProofs IniFile.
Open Scope string_scope.
Open Scope list_scope.
Open Scope Z_scope.

(** A history of calls: [Some v] is iniparser_setstr, [None] is iniparser_unset. *)
Fixpoint calls (d : dict) (h : list change) : outcome dict :=
  match h with
  | [] => Ok d
  | (e, Some v) :: h' => let! d' := iniparser_setstr d e v in calls d' h'
  | (e, None) :: h' => calls (iniparser_unset d e) h'
  end.
(** The same history with keys as the dictionary distinguishes them. *)
Definition history (h : list change) : list change := map (fun c => (folded (fst c), snd c)) h.
Definition as_lookup (r : option (option text)) : lookup := match r with Some v => Found v | None => Absent end.

Lemma calls_applies h : forall d, calls d h = applies d (history h).
Proof.
  induction h as [|[e c] h IH]; intros d; [reflexivity|]. cbn [calls history map applies fst snd]. unfold apply. cbn [fst snd]. fold (history h). destruct c as [v|]; cbn [bind].
  - unfold iniparser_setstr. rewrite folded_strlwc. destruct (dictionary_set d (folded e) v); cbn [bind]; auto.
  - unfold iniparser_unset. rewrite folded_strlwc. apply IH.
Qed.
Lemma calls_ok d h : wf d -> exists d', calls d h = Ok d' /\ wf d' /\
  forall k, assoc (d_slots d') k = content (assoc (d_slots d)) (history h) k.
Proof. rewrite calls_applies. apply applies_spec. Qed.
Lemma getstring_assoc d key : wf d -> dictionary_hash (folded key) <> 0 ->
  iniparser_getstring d key = Ok (as_lookup (assoc (d_slots d) (folded key))).
Proof. intros W H. unfold iniparser_getstring. rewrite folded_strlwc. now apply get_spec. Qed.

(** ** C26 *)
Lemma map_holds f h : exists d0 d, iniparser_new f = Ok d0 /\ calls d0 h = Ok d /\
  forall key, dictionary_hash (folded key) <> 0 -> exists before,
    iniparser_getstring d0 key = Ok (as_lookup before) /\
    iniparser_getstring d key = Ok (as_lookup (content (fun _ => before) (history h) (folded key))).
Proof.
  destruct (new_file_ok f) as (d0 & E0 & W0). destruct (calls_ok d0 h W0) as (d & E & W & A).
  exists d0, d. split; [exact E0|]. split; [exact E|]. intros key H. exists (assoc (d_slots d0) (folded key)).
  rewrite !getstring_assoc by assumption. split; [reflexivity|]. rewrite A. reflexivity.
Qed.
(** For every configuration file and history of calls the last call on a key
    decides what is found. Missing: keys whose hash is 0, see C27. *)
Theorem C26_last_call_decides_partial f h : exists d0 d, iniparser_new f = Ok d0 /\ calls d0 h = Ok d /\
  forall key, dictionary_hash (folded key) <> 0 -> exists before,
    iniparser_getstring d0 key = Ok (as_lookup before) /\
    iniparser_getstring d key = Ok (as_lookup (content (fun _ => before) (history h) (folded key))).
Proof. exact (map_holds f h). Qed.
Print Assumptions C26_last_call_decides_partial.
Lemma count_holds n h : exists d L, calls (dictionary_new n) h = Ok d /\ NoDup L /\ d_n d = List.length L /\
  forall k, In k L <-> content nothing (history h) k <> None.
Proof.
  destruct (new_wf n) as [W0 E0]. destruct (calls_ok _ h W0) as (d & E & W & A). exists d, (live (d_slots d)).
  split; [exact E|]. split; [apply W|]. split; [apply W|]. intros k. rewrite <- assoc_live, A.
  rewrite (content_ext _ nothing) by exact E0. reflexivity.
Qed.
Theorem C26_count_distinct_keys n h : exists d L, calls (dictionary_new n) h = Ok d /\ NoDup L /\ d_n d = List.length L /\
  forall k, In k L <-> content nothing (history h) k <> None.
Proof. exact (count_holds n h). Qed.
Print Assumptions C26_count_distinct_keys.

(** No lookup ever gives a wrong value: it is that of the last call on the key, or the
    lookup is undefined, for a key whose hash is 0. *)
Theorem C26_never_wrong n h : exists d, calls (dictionary_new n) h = Ok d /\ forall key,
  iniparser_getstring d key = Ok (as_lookup (content nothing (history h) (folded key))) \/
  (iniparser_getstring d key = UB /\ dictionary_hash (folded key) = 0).
Proof.
  destruct (new_wf n) as [W0 E0]. destruct (calls_ok _ h W0) as (d & E & W & A). exists d. split; [exact E|]. intros key.
  unfold iniparser_getstring, dictionary_get. rewrite folded_strlwc. destruct (get_loop_spec (folded key) (d_slots d)) as [G|(G & H & _)]; [apply W| |right; auto].
  left. rewrite G, A, (content_ext _ nothing) by exact E0. reflexivity.
Qed.
Print Assumptions C26_never_wrong.
Lemma find_in_empty key hash m : forall i, find_slot key hash (repeat empty_slot m) i = None.
Proof. induction m as [|m IH]; intros i; [reflexivity|]. cbn [repeat find_slot empty_slot s_key]. apply IH. Qed.
Lemma three_calls a z v w m : a <> z -> applies (mk_dict 0 (empty_slot :: empty_slot :: repeat empty_slot m)) [(a, Some v); (z, Some w); (a, None)] =
  Ok (mk_dict 1 (empty_slot :: mk_slot (Some z) w (dictionary_hash z) :: repeat empty_slot m)).
Proof.
  intros N. set (rest := repeat empty_slot m). cbn [applies]. unfold apply. cbn [fst snd].
  assert (S1 : dictionary_set (mk_dict 0 (empty_slot :: empty_slot :: rest)) a v = Ok (mk_dict 1 (mk_slot (Some a) v (dictionary_hash a) :: empty_slot :: rest))) by reflexivity.
  rewrite S1. cbn [bind].
  assert (S2 : dictionary_set (mk_dict 1 (mk_slot (Some a) v (dictionary_hash a) :: empty_slot :: rest)) z w = Ok (mk_dict 2 (mk_slot (Some a) v (dictionary_hash a) :: mk_slot (Some z) w (dictionary_hash z) :: rest))).
  { unfold dictionary_set. cbn [d_n d_slots]. replace (0 <? 1)%nat with true by reflexivity. unfold find_slot at 1. cbn [s_key s_hash empty_slot]. fold find_slot. destruct (str_eqb_spec z a); [congruence|]. rewrite andb_false_r. unfold rest at 1. rewrite find_in_empty. reflexivity. }
  rewrite S2. cbn [bind]. unfold dictionary_unset. cbn [d_slots find_slot s_key s_hash]. rewrite Z.eqb_refl. destruct (str_eqb_spec a a); [|congruence]. reflexivity.
Qed.
(** The full claim fails for such keys even when they are there: once an entry made before
    is removed, the value that was set is not found. *)
Theorem C26_refuted_zero_hash n k z v w : dictionary_hash (folded z) = 0 -> folded k <> folded z ->
  let h := [(k, Some v); (z, Some w); (k, None)] in
  content nothing (history h) (folded z) = Some w /\ exists d, calls (dictionary_new n) h = Ok d /\ iniparser_getstring d z = UB.
Proof.
  intros Z N h. split.
  - unfold h, history. cbn [map fst snd]. rewrite !content_cons. unfold content. cbn [last_change]. unfold same. repeat (destruct (list_eq_dec _ _ _)); try congruence.
  - rewrite calls_applies. unfold h, history. cbn [map fst snd]. unfold dictionary_new. set (m := if (n <? 128)%nat then 128%nat else n).
    assert (Hm : (128 <= m)%nat) by (unfold m; destruct (Nat.ltb_spec n 128); lia). destruct m as [|[|m]]; [lia|lia|].
    change (repeat empty_slot (S (S m))) with (empty_slot :: empty_slot :: repeat empty_slot m). rewrite three_calls by exact N. eexists. split; [reflexivity|].
    unfold iniparser_getstring, dictionary_get. rewrite folded_strlwc, Z. reflexivity.
Qed.
Print Assumptions C26_refuted_zero_hash.
Example zero_hash_case : dictionary_hash (folded (codes "Sat:auhvqwo")) = 0 /\ folded (codes "a") <> folded (codes "Sat:auhvqwo").
Proof. split; [vm_compute; reflexivity|discriminate]. Qed.

(** A history growing past the initial 128 slots, with removals. *)
Definition key_of (n : nat) : text := codes "Sec:k" ++ [48 + Z.of_nat n / 100; 48 + (Z.of_nat n / 10) mod 10; 48 + Z.of_nat n mod 10].
Definition long_history : list change :=
  map (fun n => (key_of n, Some (Some [Z.of_nat n]))) (seq 0 200) ++ [(key_of 7, None); (codes "SEC:K150", Some (Some (codes "new")))].
Definition look (o : outcome dict) (k : string) : outcome lookup := let! d := o in iniparser_getstring d (codes k).
Example long_history_read :
  look (calls (dictionary_new 0) long_history) "sec:k150" = Ok (Found (Some (codes "new"))) /\
  look (calls (dictionary_new 0) long_history) "sec:K007" = Ok Absent /\
  look (calls (dictionary_new 0) long_history) "sec:k199" = Ok (Found (Some [199])) /\
  (let! d := calls (dictionary_new 0) long_history in Ok (d_n d, List.length (d_slots d))) = Ok (199%nat, 256%nat) /\
  dictionary_hash (folded (codes "SEC:K150")) <> 0.
Proof. vm_compute. repeat split; discriminate. Qed.

(** ** C27 *)
(** Lookup is undefined exactly for the keys of hash 0 that meet an empty slot
    before their own entry; every other lookup is defined. *)
Lemma safe_exact n h : exists d, calls (dictionary_new n) h = Ok d /\ forall key,
  (dictionary_hash (folded key) <> 0 -> exists r, iniparser_getstring d key = Ok r) /\
  (dictionary_hash (folded key) = 0 -> content nothing (history h) (folded key) = None ->
   iniparser_getstring d key <> UB -> d_n d = List.length (d_slots d)).
Proof.
  destruct (new_wf n) as [W0 E0]. destruct (calls_ok _ h W0) as (d & E & W & A). exists d. split; [exact E|].
  intros key. split.
  - intros H. rewrite getstring_assoc by assumption. eauto.
  - intros H C NU. rewrite <- (content_ext _ nothing _ _ E0), <- A in C.
    unfold iniparser_getstring, dictionary_get in NU. rewrite folded_strlwc in NU.
    rewrite (wf_count d W). pose proof (live_length (d_slots d)).
    destruct (Nat.eq_dec (List.length (live (d_slots d))) (List.length (d_slots d))) as [Q|Q]; [exact Q|].
    exfalso. apply NU. apply get_zero_hash; [apply W|exact H|].
    destruct (first_empty_spec (d_slots d) 0 ltac:(lia)) as (pre & s & post & El & _ & Ek).
    exists pre, s, post. split; [exact El|]. split; [exact Ek|]. apply assoc_none in C. rewrite El, live_app, in_app_iff in C. tauto.
Qed.
Theorem C27_lookup_defined_partial n h : exists d, calls (dictionary_new n) h = Ok d /\ forall key,
  (dictionary_hash (folded key) <> 0 -> exists r, iniparser_getstring d key = Ok r) /\
  (dictionary_hash (folded key) = 0 -> content nothing (history h) (folded key) = None ->
   iniparser_getstring d key <> UB -> d_n d = List.length (d_slots d)).
Proof. exact (safe_exact n h). Qed.
Print Assumptions C27_lookup_defined_partial.
(** The full claim fails: looking up the empty key, or a key such as
    sat:auhvqwo whose hash is 0, in any dictionary with free room reads through
    a null pointer. *)
Lemma zero_hash_ub : forall n, iniparser_getstring (dictionary_new n) (codes "sat:auhvqwo") = UB /\
  iniparser_getstring (dictionary_new n) [] = UB.
Proof.
  intros n. unfold dictionary_new. set (m := if (n <? 128)%nat then 128%nat else n).
  assert (Hm : (128 <= m)%nat) by (unfold m; destruct (Nat.ltb_spec n 128); lia).
  destruct m as [|m]; [lia|]. split; unfold iniparser_getstring, dictionary_get; cbn [d_slots repeat]; set (rest := repeat empty_slot m);
    unfold get_loop; [set (hsh := dictionary_hash (strlwc (codes "sat:auhvqwo")))|set (hsh := dictionary_hash (strlwc []))];
    assert (Hh : hsh = 0) by (vm_compute; reflexivity); rewrite Hh; reflexivity.
Qed.
Theorem C27_refuted : forall n, iniparser_getstring (dictionary_new n) (codes "sat:auhvqwo") = UB /\
  iniparser_getstring (dictionary_new n) [] = UB.
Proof. exact zero_hash_ub. Qed.
Print Assumptions C27_refuted.

(** ** C28 *)
Lemma sections_hold f h : exists d0 d L, iniparser_new f = Ok d0 /\ calls d0 h = Ok d /\ NoDup L /\
  (forall k, ~ In 58 k -> dictionary_hash k <> 0 -> folded k = k -> (In k L <-> iniparser_getstring d k <> Ok Absent)) /\
  (forall k, In k L -> ~ In 58 k) /\
  iniparser_getnsec d = List.length L /\
  (forall n, 0 <= n -> iniparser_getsecname d n = nth_error L (Z.to_nat n)) /\
  (forall n, n < 0 -> iniparser_getsecname d n = None).
Proof.
  destruct (new_file_ok f) as (d0 & E0 & W0). destruct (calls_ok d0 h W0) as (d & E & W & A).
  exists d0, d, (secs (d_slots d)). split; [exact E0|]. split; [exact E|].
  split; [apply NoDup_filter, W|]. split; [|split; [|split; [|split]]].
  - intros k N H F. rewrite getstring_assoc by (rewrite ?F; assumption). rewrite F.
    unfold secs. rewrite filter_In, no_colon_spec, <- assoc_live. destruct (assoc (d_slots d) k); cbn; split; try tauto; try congruence.
    intros _. split; [discriminate|exact N].
  - intros k I. apply secs_in in I. tauto.
  - apply secs_count.
  - intros n H. unfold iniparser_getsecname. destruct (Z.ltb_spec n 0); [lia|]. apply secname_nth.
  - intros n H. unfold iniparser_getsecname. destruct (Z.ltb_spec n 0); [reflexivity|lia].
Qed.
Theorem C28_sections_enumerate f h : exists d0 d L, iniparser_new f = Ok d0 /\ calls d0 h = Ok d /\ NoDup L /\
  (forall k, ~ In 58 k -> dictionary_hash k <> 0 -> folded k = k -> (In k L <-> iniparser_getstring d k <> Ok Absent)) /\
  (forall k, In k L -> ~ In 58 k) /\
  iniparser_getnsec d = List.length L /\
  (forall n, 0 <= n -> iniparser_getsecname d n = nth_error L (Z.to_nat n)) /\
  (forall n, n < 0 -> iniparser_getsecname d n = None).
Proof. exact (sections_hold f h). Qed.
Print Assumptions C28_sections_enumerate.

Definition sample : text := codes "# sites
[Rome]
  lat = 41.9   ; degrees
Name = ""  Roma #1""
[milan]
lat=45.5
open = Yes
".
Example sample_sections :
  match iniparser_new sample with
  | Ok d => iniparser_getnsec d = 2%nat /\ iniparser_getsecname d 0 = Some (codes "rome") /\
            iniparser_getsecname d 1 = Some (codes "milan") /\ iniparser_getsecname d 2 = None /\ iniparser_getsecname d (-1) = None
  | _ => False
  end.
Proof. vm_compute. repeat split; reflexivity. Qed.

(** ** C29 *)
Lemma case_holds f h : exists d0 d, iniparser_new f = Ok d0 /\ calls d0 h = Ok d /\
  (forall a b, map lower a = map lower b -> iniparser_getstring d a = iniparser_getstring d b) /\
  (forall key dflt, iniparser_getstring d key = Ok Absent -> iniparser_getboolean d key dflt = Ok dflt) /\
  (forall key dflt v, iniparser_getstring d key = Ok (Found (Some v)) ->
     (forall c r, v = c :: r -> In c (codes "yYtT1") -> iniparser_getboolean d key dflt = Ok 1) /\
     (forall c r, v = c :: r -> In c (codes "nNfF0") -> iniparser_getboolean d key dflt = Ok 0) /\
     ((forall c r, v = c :: r -> 0 < c /\ ~ In c (codes "yYtT1nNfF0")) -> iniparser_getboolean d key dflt = Ok dflt)).
Proof.
  destruct (new_file_ok f) as (d0 & E0 & W0). destruct (calls_ok d0 h W0) as (d & E & W & A).
  exists d0, d. split; [exact E0|]. split; [exact E|]. split; [|split].
  - intros a b H. unfold iniparser_getstring. rewrite !folded_strlwc. unfold folded. now rewrite H.
  - intros key dflt H. unfold iniparser_getboolean. rewrite H. reflexivity.
  - intros key dflt v H. unfold iniparser_getboolean. rewrite H. cbn [bind].
    split; [|split].
    + intros c r -> I. cbn in I. cbn [nth]. repeat (destruct I as [<-|I]; [reflexivity|]). destruct I.
    + intros c r -> I. cbn in I. cbn [nth]. repeat (destruct I as [<-|I]; [reflexivity|]). destruct I.
    + intros N. destruct v as [|c r]; [reflexivity|]. destruct (N c r eq_refl) as [_ NI]. cbn in NI. cbn [nth].
      repeat (match goal with |- context [c =? ?n] => destruct (Z.eqb_spec c n); [exfalso; subst; tauto|] end). reflexivity.
Qed.
(** Lookups ignore case; booleans are decoded as documented whenever the entry
    has a value. Missing: keys stored without a value (section names). *)
Theorem C29_case_and_booleans_partial f h : exists d0 d, iniparser_new f = Ok d0 /\ calls d0 h = Ok d /\
  (forall a b, map lower a = map lower b -> iniparser_getstring d a = iniparser_getstring d b) /\
  (forall key dflt, iniparser_getstring d key = Ok Absent -> iniparser_getboolean d key dflt = Ok dflt) /\
  (forall key dflt v, iniparser_getstring d key = Ok (Found (Some v)) ->
     (forall c r, v = c :: r -> In c (codes "yYtT1") -> iniparser_getboolean d key dflt = Ok 1) /\
     (forall c r, v = c :: r -> In c (codes "nNfF0") -> iniparser_getboolean d key dflt = Ok 0) /\
     ((forall c r, v = c :: r -> 0 < c /\ ~ In c (codes "yYtT1nNfF0")) -> iniparser_getboolean d key dflt = Ok dflt)).
Proof. exact (case_holds f h). Qed.
Print Assumptions C29_case_and_booleans_partial.
(** Asking for a section name as a boolean or integer dereferences null. *)
Lemma section_boolean : (let! d := iniparser_new (codes "[Rome]
") in iniparser_getboolean d (codes "rome") 0) = UB /\ (let! d := iniparser_new (codes "[Rome]
") in iniparser_getint d (codes "rome") 0) = UB /\ (let! d := iniparser_new (codes "[Rome]
") in Ok (d_n d)) = Ok 1%nat.
Proof. vm_compute. repeat split; reflexivity. Qed.
Theorem C29_refuted : (let! d := iniparser_new (codes "[Rome]
") in iniparser_getboolean d (codes "rome") 0) = UB /\ (let! d := iniparser_new (codes "[Rome]
") in iniparser_getint d (codes "rome") 0) = UB /\ (let! d := iniparser_new (codes "[Rome]
") in Ok (d_n d)) = Ok 1%nat.
Proof. exact section_boolean. Qed.
Print Assumptions C29_refuted.
Example sample_boolean :
  match iniparser_new sample with
  | Ok d => iniparser_getboolean d (codes "MILAN:Open") 0 = Ok 1 /\ iniparser_getboolean d (codes "rome:lat") 7 = Ok 7 /\
            iniparser_getboolean d (codes "milan:x") 9 = Ok 9
  | _ => False
  end.
Proof. vm_compute. repeat split; reflexivity. Qed.

(** Value of a decimal numeral. *)
Fixpoint numeral (l : text) : Z :=
  match l with
  | [] => 0
  | c :: r => (c - 48) * 10 ^ Z.of_nat (List.length r) + numeral r
  end.
Definition is_digit (c : Z) : Prop := 48 <= c <= 57.
Lemma digits_value ds : Forall is_digit ds -> forall acc rest, (rest = [] \/ exists c r, rest = c :: r /\ ~ is_digit c) ->
  digits acc (ds ++ rest) = acc * 10 ^ Z.of_nat (List.length ds) + numeral ds.
Proof.
  induction 1 as [|c ds H _ IH]; intros acc rest R.
  - cbn [app numeral List.length Z.of_nat]. rewrite Z.pow_0_r. destruct R as [->|(c & r & -> & N)]; cbn [digits]; [lia|].
    destruct (Z.leb_spec 48 c), (Z.leb_spec c 57); cbn; try lia. exfalso. apply N. unfold is_digit. lia.
  - cbn [app digits numeral List.length]. unfold is_digit in H.
    destruct (Z.leb_spec 48 c); [|lia]. destruct (Z.leb_spec c 57); [|lia]. cbn [andb].
    rewrite IH by exact R. rewrite Nat2Z.inj_succ, Z.pow_succ_r by lia. ring.
Qed.
Lemma int_holds f h : exists d0 d, iniparser_new f = Ok d0 /\ calls d0 h = Ok d /\
  forall key dflt,
  (iniparser_getstring d key = Ok Absent -> iniparser_getint d key dflt = Ok dflt) /\
  (forall ws sign ds rest, iniparser_getstring d key = Ok (Found (Some (ws ++ sign ++ ds ++ rest))) ->
     Forall (fun c => white c = true) ws -> (sign = [] \/ sign = [43] \/ sign = [45]) -> ds <> [] -> Forall is_digit ds ->
     (rest = [] \/ exists c r, rest = c :: r /\ ~ is_digit c) -> numeral ds < 2 ^ 31 ->
     iniparser_getint d key dflt = Ok (if list_eq_dec Z.eq_dec sign [45] then - numeral ds else numeral ds)).
Proof.
  destruct (new_file_ok f) as (d0 & E0 & W0). destruct (calls_ok d0 h W0) as (d & E & W & A).
  exists d0, d. split; [exact E0|]. split; [exact E|]. intros key dflt. split.
  - intros H. unfold iniparser_getint. rewrite H. reflexivity.
  - intros ws sign ds rest H Hw Hs Hn Hd Hr Hv. unfold iniparser_getint. rewrite H. cbn [bind]. unfold atoi.
    assert (P : 0 <= numeral ds).
    { clear -Hd. induction Hd as [|c ds Hc _ IH]; cbn [numeral]; [lia|]. unfold is_digit in Hc. nia. }
    rewrite (strskp_whites ws) by exact Hw.
    destruct ds as [|c ds]; [congruence|]. assert (Hc : is_digit c) by now inversion Hd. unfold is_digit in Hc.
    assert (NW : white c = false).
    { unfold white, blank. repeat (match goal with |- context [c =? ?n] => destruct (Z.eqb_spec c n); [lia|] end). reflexivity. }
    pose proof (digits_value (c :: ds) Hd 0 rest Hr) as D. rewrite Z.mul_0_l, Z.add_0_l in D.
    destruct Hs as [-> | [-> | ->]].
    + cbn [app] in *. rewrite strskp_char by exact NW.
      destruct (Z.eqb_spec c 45); [lia|]. destruct (Z.eqb_spec c 43); [lia|]. rewrite D.
      destruct (list_eq_dec Z.eq_dec [] [45]); [discriminate|].
      destruct (Z.leb_spec (- 2 ^ 31) (numeral (c :: ds))); [|lia]. destruct (Z.ltb_spec (numeral (c :: ds)) (2 ^ 31)); [reflexivity|lia].
    + cbn [app] in *. rewrite strskp_char by reflexivity. cbn [Z.eqb Pos.eqb]. rewrite D.
      destruct (list_eq_dec Z.eq_dec [43] [45]); [discriminate|].
      destruct (Z.leb_spec (- 2 ^ 31) (numeral (c :: ds))); [|lia]. destruct (Z.ltb_spec (numeral (c :: ds)) (2 ^ 31)); [reflexivity|lia].
    + cbn [app] in *. rewrite strskp_char by reflexivity. cbn [Z.eqb Pos.eqb]. rewrite D.
      destruct (list_eq_dec Z.eq_dec [45] [45]); [|congruence].
      destruct (Z.leb_spec (- 2 ^ 31) (- numeral (c :: ds))); [|lia]. destruct (Z.ltb_spec (- numeral (c :: ds)) (2 ^ 31)); [reflexivity|lia].
Qed.
Theorem C29_integers f h : exists d0 d, iniparser_new f = Ok d0 /\ calls d0 h = Ok d /\
  forall key dflt,
  (iniparser_getstring d key = Ok Absent -> iniparser_getint d key dflt = Ok dflt) /\
  (forall ws sign ds rest, iniparser_getstring d key = Ok (Found (Some (ws ++ sign ++ ds ++ rest))) ->
     Forall (fun c => white c = true) ws -> (sign = [] \/ sign = [43] \/ sign = [45]) -> ds <> [] -> Forall is_digit ds ->
     (rest = [] \/ exists c r, rest = c :: r /\ ~ is_digit c) -> numeral ds < 2 ^ 31 ->
     iniparser_getint d key dflt = Ok (if list_eq_dec Z.eq_dec sign [45] then - numeral ds else numeral ds)).
Proof. exact (int_holds f h). Qed.
Print Assumptions C29_integers.
Example integer_read : (let! d := iniparser_new (codes "[a]
b = -1042 m
") in iniparser_getint d (codes "A:B") 5) = Ok (-1042).
Proof. vm_compute. reflexivity. Qed.

(** ** C67 *)
Lemma file_holds doc : Forall good_item doc ->
  exists d, iniparser_new (render doc) = Ok d /\
  (forall key, dictionary_hash (folded key) <> 0 ->
     iniparser_getstring d key = Ok (as_lookup (content nothing (assigns [] doc) (folded key)))) /\
  exists L, NoDup L /\ d_n d = List.length L /\ forall k, In k L <-> content nothing (assigns [] doc) k <> None.
Proof.
  intros G. rewrite new_render by exact G. destruct (new_wf 0) as [W0 E0].
  destruct (applies_spec (assigns [] doc) _ W0) as (d & E & W & A). exists d. split; [exact E|]. split.
  - intros key H. rewrite getstring_assoc by assumption. rewrite A, (content_ext _ nothing) by exact E0. reflexivity.
  - exists (live (d_slots d)). split; [apply W|]. split; [apply W|]. intros k. rewrite <- assoc_live, A.
    rewrite (content_ext _ nothing) by exact E0. reflexivity.
Qed.
(** Reading any well formed file gives exactly what the file says, in file
    order, whatever the layout. Missing: empty values (below), keys of hash 0,
    quoted values ending in blanks. *)
Theorem C67_file_contents_partial doc : Forall good_item doc ->
  exists d, iniparser_new (render doc) = Ok d /\
  (forall key, dictionary_hash (folded key) <> 0 ->
     iniparser_getstring d key = Ok (as_lookup (content nothing (assigns [] doc) (folded key)))) /\
  exists L, NoDup L /\ d_n d = List.length L /\ forall k, In k L <-> content nothing (assigns [] doc) k <> None.
Proof. exact (file_holds doc). Qed.
Print Assumptions C67_file_contents_partial.
(** No file whatsoever makes the reader misbehave. *)
Theorem C67_any_file_is_read f : exists d, iniparser_new f = Ok d.
Proof. destruct (new_file_ok f) as (d & E & _). eauto. Qed.
Print Assumptions C67_any_file_is_read.
(** The source says that empty quoted values are stored as empty strings; they
    are stored as the two quotes, because the newline is still there. *)
Lemma empty_quoted : (let! d := iniparser_new (codes "[a]
b = """"
") in iniparser_getstring d (codes "a:b")) = Ok (Found (Some (codes """"""))).
Proof. vm_compute. reflexivity. Qed.
Theorem C67_refuted_empty_quoted_value : (let! d := iniparser_new (codes "[a]
b = """"
") in iniparser_getstring d (codes "a:b")) = Ok (Found (Some (codes """"""))).
Proof. exact empty_quoted. Qed.
Print Assumptions C67_refuted_empty_quoted_value.

Definition sample_doc : list item :=
  [ Remark [] 35 (codes " sites"); Section_ [] (codes "Rome") [];
    Plain (codes "  ") (codes "lat") (codes " ") (codes " ") (codes "41.9") (codes "   ") (codes "; degrees");
    Quoted [] (codes "Name") (codes " ") (codes " ") 34 (codes "  Roma #1") [];
    Section_ [] (codes "milan") []; Plain [] (codes "lat") [] [] (codes "45.5") [] [];
    Plain [] (codes "open") (codes " ") (codes " ") (codes "Yes") [] [] ].
Ltac fall := cbn; repeat (first [apply Forall_nil | apply Forall_cons; [first [lia|reflexivity]|]]).
Example sample_doc_good : render sample_doc = sample /\ Forall good_item sample_doc.
Proof.
  split; [reflexivity|]. unfold sample_doc, good_item, good_key, blanks, clean_text, starts_with, starts_black, ends_black.
  repeat (apply Forall_cons || apply Forall_nil); cbn -[firstn];
    repeat match goal with
           | |- _ /\ _ => split
           | |- (_ <= _)%nat => lia
           | |- Forall _ _ => fall
           | |- ~ _ => intro
           | H : exists r, _ = _ |- _ => destruct H; discriminate
           end;
    try (now (eexists; eexists; split; reflexivity)); try tauto; try discriminate; try lia;
    try match goal with H : _ \/ _ |- False => repeat (destruct H as [H|H]; [discriminate|]); destruct H end;
    try (right; left; eexists; reflexivity); try (left; reflexivity).
  - exists (codes "la"), 116. split; reflexivity.
  - exists (codes "41."), 57. split; reflexivity.
  - exists (codes "Nam"), 101. split; reflexivity.
  - exists (codes "  Roma #"), 49. split; reflexivity.
  - exists (codes "la"), 116. split; reflexivity.
  - exists (codes "45."), 53. split; reflexivity.
  - exists (codes "ope"), 110. split; reflexivity.
  - exists (codes "Ye"), 115. split; reflexivity.
Qed.
Example sample_read :
  (let! d := iniparser_new sample in iniparser_getstring d (codes "ROME:name")) = Ok (Found (Some (codes "  Roma #1"))) /\
  (let! d := iniparser_new sample in iniparser_getstring d (codes "milan:LAT")) = Ok (Found (Some (codes "45.5"))).
Proof. vm_compute. split; reflexivity. Qed.

(** ** C68 *)
Lemma dump_holds h : storable (content nothing (history h)) -> (exists k, content nothing (history h) k <> None) ->
  exists d t d', calls (dictionary_new 0) h = Ok d /\ iniparser_dump_ini d = Ok t /\ iniparser_new t = Ok d' /\
  d_n d' = d_n d /\
  forall key, dictionary_hash (folded key) <> 0 -> iniparser_getstring d' key = iniparser_getstring d key.
Proof.
  intros ST [k0 H0]. destruct (new_wf 0) as [W0 E0]. destruct (calls_ok _ h W0) as (d & E & W & A).
  assert (M : forall k, assoc (d_slots d) k = content nothing (history h) k).
  { intros k. rewrite A. now apply content_ext. }
  assert (ST' : storable (assoc (d_slots d))).
  { intros k v. rewrite M. intros Ek. destruct (ST k v Ek) as [L|(s & kk & vv & R1 & R2 & R3 & R4)]; [now left|].
    right. exists s, kk, vv. rewrite M. auto. }
  destruct (dump_reload d W ST' ltac:(exists k0; rewrite M; exact H0)) as (t & d' & D1 & D2 & W' & D3).
  exists d, t, d'. split; [exact E|]. split; [exact D1|]. split; [exact D2|]. split.
  - rewrite (wf_count d W), (wf_count d' W'). apply Nat.le_antisymm; apply NoDup_incl_length; try apply W; try apply W'; intros k;
      rewrite <- !assoc_live, D3; auto.
  - intros key H. rewrite !getstring_assoc by assumption. now rewrite D3.
Qed.
(** Writing a dictionary as a configuration file and reading it back preserves
    every entry. Missing: what the format cannot carry (hypothesis storable);
    files without sections are refuted below. *)
Theorem C68_dump_then_read_partial h : storable (content nothing (history h)) -> (exists k, content nothing (history h) k <> None) ->
  exists d t d', calls (dictionary_new 0) h = Ok d /\ iniparser_dump_ini d = Ok t /\ iniparser_new t = Ok d' /\
  d_n d' = d_n d /\
  forall key, dictionary_hash (folded key) <> 0 -> iniparser_getstring d' key = iniparser_getstring d key.
Proof. exact (dump_holds h). Qed.
Print Assumptions C68_dump_then_read_partial.

Definition sample_history : list change :=
  [(codes "Rome", Some None); (codes "gone", Some None); (codes "rome:Lat", Some (Some (codes "41.9"))); (codes "Gone", None)].
Lemma sample_content k : content nothing (history sample_history) k =
  if same (codes "rome") k then Some None else if same (codes "rome:lat") k then Some (Some (codes "41.9")) else None.
Proof.
  unfold content, history, sample_history. cbn [map fst snd].
  set (a := folded (codes "Rome")). vm_compute in a. set (b := folded (codes "gone")). vm_compute in b.
  set (c := folded (codes "rome:Lat")). vm_compute in c. set (e := folded (codes "Gone")). vm_compute in e.
  subst a b c e. cbn [last_change]. unfold nothing.
  change [114; 111; 109; 101] with (codes "rome"). change [103; 111; 110; 101] with (codes "gone").
  change [114; 111; 109; 101; 58; 108; 97; 116] with (codes "rome:lat").
  destruct (same_spec (codes "gone") k) as [<-|N]; [reflexivity|].
  destruct (same_spec (codes "rome:lat") k) as [<-|]; [reflexivity|]. destruct (same_spec (codes "rome") k); reflexivity.
Qed.
Example sample_storable : storable (content nothing (history sample_history)) /\
  (exists k, content nothing (history sample_history) k <> None).
Proof.
  split; [|exists (codes "rome"); rewrite sample_content; vm_compute; discriminate].
  intros k v. rewrite sample_content. destruct (same_spec (codes "rome") k) as [<-|].
  - intros E. apply Some_inj in E. left. subst v. unfold clean_text. cbn. repeat split; try discriminate; try lia; try reflexivity; fall.
  - destruct (same_spec (codes "rome:lat") k) as [<-|]; [|discriminate]. intros E. apply Some_inj in E. right.
    exists (codes "rome"), (codes "lat"), (codes "41.9"). rewrite sample_content. subst v.
    split; [reflexivity|]. split; [cbn; lia|]. split; [vm_compute; discriminate|]. split; [reflexivity|].
    split; [|split; [unfold clean_text; fall|split; [reflexivity|split; [|cbn; lia]]]].
    + unfold good_key, starts_with. split; [exists 108, (codes "at"); split; reflexivity|]. split; [exists (codes "la"), 116; split; reflexivity|].
      repeat split; try (intros [r X]; discriminate). cbn. lia.
    + unfold good_value, clean_text, starts_with. split; [fall|]. split; [exists 52, (codes "1.9"); split; reflexivity|].
      split; [exists (codes "41."), 57; split; reflexivity|]. repeat split; try (intros [r X]; discriminate); cbn; lia.
Qed.
Example sample_dump : (let! d := calls (dictionary_new 0) sample_history in iniparser_dump_ini d) = Ok (codes "
[rome]
lat                            = 41.9

").
Proof. vm_compute. reflexivity. Qed.
(** A file with entries before any section: its keys start with a colon, and
    after dump and reload they start with two. *)
Lemma sectionless : (let! d := iniparser_new (codes "a = 1
") in let! t := iniparser_dump_ini d in let! d' := iniparser_new t in
  let! x := iniparser_getstring d (codes ":a") in let! y := iniparser_getstring d' (codes ":a") in
  let! z := iniparser_getstring d' (codes "::a") in Ok (x, y, z)) = Ok (Found (Some (codes "1")), Absent, Found (Some (codes "1"))).
Proof. vm_compute. reflexivity. Qed.
Theorem C68_refuted_without_sections : (let! d := iniparser_new (codes "a = 1
") in let! t := iniparser_dump_ini d in let! d' := iniparser_new t in
  let! x := iniparser_getstring d (codes ":a") in let! y := iniparser_getstring d' (codes ":a") in
  let! z := iniparser_getstring d' (codes "::a") in Ok (x, y, z)) = Ok (Found (Some (codes "1")), Absent, Found (Some (codes "1"))).
Proof. exact sectionless. Qed.
Print Assumptions C68_refuted_without_sections.
