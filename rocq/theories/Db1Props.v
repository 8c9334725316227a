(** Properties C140 and C141: channels of ThornSDS DB1 directories and their
    calibration tables. *)
From Verif Require Import BaseFacts IniModel IniSpec IniProofs IniFile IniProps MachineModel GeoModel GribModel GribProps Db1Model Db1Spec.
Open Scope string_scope.
Open Scope list_scope.
Open Scope Z_scope.

(** ** Numbers *)
Lemma digits_val ds : Forall digit ds -> forall a, digits a ds = fold_left (fun a c => 10 * a + (c - 48)) ds a.
Proof. induction 1 as [|c l H _ IH]; intros a; [reflexivity|]. cbn [digits fold_left]. unfold digit in H. replace ((48 <=? c) && (c <=? 57)) with true by lia. rewrite IH. f_equal. lia. Qed.
Lemma strskp_black c l : isspace c = false -> strskp (c :: l) = c :: l.
Proof. intros H. cbn [strskp]. now rewrite H. Qed.
Lemma atoi_number t n : is_number t n -> - 2 ^ 31 <= n < 2 ^ 31 -> atoi t = Ok n.
Proof.
  intros (ds & N & F & H) R. unfold atoi. destruct ds as [|c l]; [contradiction|]. pose proof (Forall_inv F) as C. unfold digit in C.
  destruct H as [[-> ->]|[-> ->]].
  - rewrite strskp_black by (unfold isspace; lia). replace (c =? 45) with false by lia. replace (c =? 43) with false by lia. rewrite digits_val by exact F. unfold dec_val in R. replace ((- 2 ^ 31 <=? _) && _) with true by lia. reflexivity.
  - rewrite strskp_black by reflexivity. cbn [Z.eqb Pos.eqb]. rewrite digits_val by exact F. unfold dec_val in R. replace ((- 2 ^ 31 <=? _) && _) with true by lia. reflexivity.
Qed.
Lemma is_number_inj t n m : is_number t n -> is_number t m -> n = m.
Proof.
  intros (d & N & F & H) (e & M & G & K). destruct H as [[-> ->]|[-> ->]], K as [[E ->]|[E ->]]; subst; try reflexivity.
  - pose proof (Forall_inv F) as C. unfold digit in C. lia.
  - pose proof (Forall_inv G) as C. unfold digit in C. lia.
  - injection E as ->. reflexivity.
Qed.
Lemma plain_is_number t n : plain_number t n -> is_number t n.
Proof. intros (N & F & E & _). exists t. auto. Qed.
(** printf writes plain numbers. *)
Lemma print_from_val fuel : forall z acc, 0 <= z < 10 ^ Z.of_nat fuel -> (0 < fuel)%nat -> Forall digit acc ->
  exists p, print_from fuel z acc = p ++ acc /\ p <> [] /\ Forall digit p /\ dec_val p = z /\ (z = 0 -> p = [48]) /\ (0 < z -> ~ starts_with 48 p).
Proof.
  induction fuel as [|f IH]; intros z acc R P A; [lia|]. rewrite print_step. destruct (z <? 10) eqn:L.
  - exists [48 + z mod 10]. split; [reflexivity|]. split; [discriminate|]. split; [repeat constructor; unfold digit; lia|]. split; [unfold dec_val; cbn [fold_left]; lia|]. split; [intros ->; reflexivity|]. intros Q (r & E). apply (f_equal (fun l => nth 0 l 0)) in E. cbn [nth] in E. lia.
  - assert (f <> 0%nat) by (intros ->; change (10 ^ Z.of_nat 1) with 10 in R; lia).
    destruct (IH (z / 10) ((48 + z mod 10) :: acc)) as (p & E & N & F & V & _ & Q).
    { rewrite Nat2Z.inj_succ, Z.pow_succ_r in R by lia. lia. } { lia. } { constructor; [unfold digit; lia|exact A]. }
    exists (p ++ [48 + z mod 10]). rewrite E, <- app_assoc. split; [reflexivity|]. split; [now destruct p|]. split; [apply Forall_app; split; [exact F|repeat constructor; unfold digit; lia]|].
    split; [unfold dec_val in *; rewrite fold_left_app, V; cbn [fold_left]; lia|]. split; [lia|]. intros _ (r & X). apply Q; [lia|]. destruct p as [|c p]; [contradiction|]. injection X as -> _. exists p. reflexivity.
Qed.
Lemma print_plain z : 0 <= z < 10 ^ 19 -> plain_number (print z) z.
Proof.
  intros H. unfold print. destruct (print_from_val 19 z []) as (p & E & N & F & V & Z0 & Q); [exact H|lia|constructor|]. rewrite app_nil_r in E. rewrite E. split; [exact N|]. split; [exact F|]. split; [now rewrite V|].
  destruct (Z.eq_dec z 0) as [->|]; [left; auto|right; apply Q; lia].
Qed.
Lemma dec_val_app a b : dec_val (a ++ b) = dec_val a * 10 ^ Z.of_nat (List.length b) + dec_val b.
Proof.
  unfold dec_val. rewrite fold_left_app. generalize (fold_left (fun a c => 10 * a + (c - 48)) a 0). induction b as [|c b IH] using rev_ind; intros x.
  - cbn. lia.
  - rewrite !fold_left_app. cbn [fold_left]. rewrite IH, app_length. cbn [List.length]. rewrite Nat.add_1_r, Nat2Z.inj_succ, Z.pow_succ_r by lia. lia.
Qed.
Lemma dec_one c : dec_val [c] = c - 48.
Proof. unfold dec_val. cbn [fold_left]. lia. Qed.
Lemma dec_val_bound t : Forall digit t -> 0 <= dec_val t < 10 ^ Z.of_nat (List.length t).
Proof.
  induction t as [|c t IH] using rev_ind; intros F; [cbn; lia|]. apply Forall_app in F. destruct F as [F G]. pose proof (Forall_inv G) as C. unfold digit in C. specialize (IH F). rewrite dec_val_app, app_length. cbn [List.length]. rewrite dec_one. change (10 ^ Z.of_nat 1) with 10. replace (Z.of_nat (List.length t + 1)) with (Z.succ (Z.of_nat (List.length t))) by lia. rewrite Z.pow_succ_r by lia. lia.
Qed.
Lemma dec_val_inj a : forall b, List.length a = List.length b -> Forall digit a -> Forall digit b -> dec_val a = dec_val b -> a = b.
Proof.
  induction a as [|x a IH] using rev_ind; intros b L F G E.
  - destruct b; [reflexivity|discriminate].
  - destruct b as [|y b _] using rev_ind; [rewrite app_length in L; cbn in L; lia|]. rewrite !app_length in L. cbn [List.length] in L. apply Forall_app in F, G. destruct F as [F Fx], G as [G Gy]. apply Forall_inv in Fx, Gy. unfold digit in Fx, Gy.
    rewrite !dec_val_app in E. cbn [List.length] in E. change (10 ^ Z.of_nat 1) with 10 in E. rewrite !dec_one in E. assert (dec_val a = dec_val b /\ x = y) as [D ->] by lia. f_equal. apply IH; [lia|exact F|exact G|exact D].
Qed.
Lemma plain_lower t n : plain_number t n -> 0 < n -> 10 ^ (Z.of_nat (List.length t) - 1) <= n.
Proof.
  intros (N & F & E & [->|S0]) P; [subst; cbn in P; lia|]. destruct t as [|c t]; [contradiction|]. change (c :: t) with ([c] ++ t) in E. rewrite dec_val_app in E. pose proof (Forall_inv F) as C. unfold digit in C. assert (c <> 48) by (intros ->; apply S0; eexists; reflexivity).
  pose proof (dec_val_bound t (Forall_inv_tail F)) as B. rewrite dec_one in E. cbn [List.length]. replace (Z.of_nat (S (List.length t)) - 1) with (Z.of_nat (List.length t)) by lia. assert (0 < 10 ^ Z.of_nat (List.length t)) by (apply Z.pow_pos_nonneg; lia). nia.
Qed.
Lemma plain_unique s t n : plain_number s n -> plain_number t n -> s = t.
Proof.
  intros P Q. destruct (Z.eq_dec n 0) as [->|NZ].
  - assert (K : forall u, plain_number u 0 -> u = [48]). { intros u (N & F & E & [->|S0]); [reflexivity|]. exfalso. destruct u as [|c u]; [contradiction|]. change (c :: u) with ([c] ++ u) in E. rewrite dec_val_app in E. pose proof (Forall_inv F) as C. unfold digit in C. pose proof (dec_val_bound u (Forall_inv_tail F)). rewrite dec_one in E. assert (c <> 48) by (intros ->; apply S0; eexists; reflexivity). assert (0 < 10 ^ Z.of_nat (List.length u)) by (apply Z.pow_pos_nonneg; lia). nia. }
    rewrite (K _ P), (K _ Q). reflexivity.
  - assert (G : 0 < n). { destruct P as (_ & F & E & _). pose proof (dec_val_bound s F). lia. }
    pose proof (plain_lower _ _ P G) as Ps. pose proof (plain_lower _ _ Q G) as Qs. pose proof P as (Np & Fp & Ep & _). pose proof Q as (Nq & Fq & Eq & _). pose proof (dec_val_bound s Fp). pose proof (dec_val_bound t Fq).
    apply dec_val_inj; [|exact Fp|exact Fq|congruence].
    assert (List.length s <> 0%nat) by now destruct s. assert (List.length t <> 0%nat) by now destruct t.
    destruct (Nat.lt_trichotomy (List.length s) (List.length t)) as [L|[L|L]]; [exfalso|exact L|exfalso].
    + assert (10 ^ Z.of_nat (List.length s) <= 10 ^ (Z.of_nat (List.length t) - 1)) by (apply Z.pow_le_mono_r; lia). lia.
    + assert (10 ^ Z.of_nat (List.length t) <= 10 ^ (Z.of_nat (List.length s) - 1)) by (apply Z.pow_le_mono_r; lia). lia.
Qed.
Lemma plain_print t n : plain_number t n -> 0 <= n < 10 ^ 19 -> t = print n.
Proof. intros P H. eapply plain_unique; [exact P|now apply print_plain]. Qed.

(** ** Reading the files *)
Lemma says_not_null doc key : Forall (fun i => match i with Section_ _ n _ => ~ In 58 n | _ => True end) doc -> In 58 key ->
  content nothing (assigns [] doc) key <> Some None.
Proof.
  intros F K. unfold content. enough (E : forall sec, last_change (assigns sec doc) key <> Some (Some None) /\ last_change (assigns sec doc) key <> Some None).
  { destruct (E []) as [A B]. destruct (last_change _ key) as [[[v|]|]|]; congruence || now cbn. }
  induction F as [|i doc Hi _ IH]; intros sec; [cbn; split; discriminate|]. destruct i; cbn [assigns last_change]; try apply IH.
  - destruct (last_change (assigns _ doc) key) eqn:L; [rewrite <- L; apply IH|]. unfold same. destruct (list_eq_dec _ _ _) as [E|]; [|split; discriminate]. exfalso. subst key. apply in_map_iff in K. destruct K as (c & E & I). apply Hi. unfold lower in E. destruct (_ && _) eqn:C in E; [lia|]. now subst.
  - destruct (last_change (assigns _ doc) key) eqn:L; [rewrite <- L; apply IH|]. destruct (same _ _); split; discriminate.
  - destruct (last_change (assigns _ doc) key) eqn:L; [rewrite <- L; apply IH|]. destruct (same _ _); split; discriminate.
Qed.
(** A dictionary that holds what a file says. *)
Definition reads (d : dict) (doc : list item) : Prop := forall key, dictionary_hash (folded key) <> 0 ->
  iniparser_getstring d key = Ok (as_lookup (content nothing (assigns [] doc) (folded key))).
Lemma reads_doc doc : tidy_doc doc -> exists d, iniparser_new (render doc) = Ok d /\ reads d doc.
Proof. intros [G _]. destruct (C67_file_contents_partial doc G) as (d & E & H & _). exists d. auto. Qed.
Lemma getstring_doc d doc key def : tidy_doc doc -> reads d doc -> dictionary_hash (folded key) <> 0 -> In 58 (folded key) ->
  getstring (Some d) key def = Ok (Some (text_in doc (folded key) def)).
Proof.
  intros [_ T] R H C. unfold getstring. rewrite R by exact H. cbn [bind]. pose proof (says_not_null doc (folded key) T C) as N. unfold text_in. destruct (content nothing (assigns [] doc) (folded key)) as [[v|]|]; [reflexivity|contradiction|reflexivity].
Qed.
(** A number under a key. The default is written in the text of the default. *)
Lemma getint_doc d doc key def n t : tidy_doc doc -> reads d doc -> dictionary_hash (folded key) <> 0 -> In 58 (folded key) ->
  is_number t def -> is_number (text_in doc (folded key) t) n -> - 2 ^ 31 <= n < 2 ^ 31 -> getint (Some d) key def = Ok n.
Proof.
  intros [_ T] R H C TD TN B. unfold getint, iniparser_getint. rewrite R by exact H. cbn [bind]. pose proof (says_not_null doc (folded key) T C) as N. unfold text_in in TN. destruct (content nothing (assigns [] doc) (folded key)) as [[v|]|]; [now apply atoi_number|contradiction|]. cbn [as_lookup]. f_equal. eapply is_number_inj; eassumption.
Qed.

(** ** Directories *)
Definition in_dir (dir : text) (name : text) : text := dir ++ [47] ++ name.
Record directory (fs : fsys) (dir ch : text) (info aoi : list item) (cal : option (list item)) (raw : list Z) : Prop := {
  dr_short : (List.length dir + List.length ch <= 4000)%nat;
  dr_info : tidy_doc info /\ fs (in_dir dir (codes "INFO.DBI")) = Some (File (render info));
  dr_aoi : tidy_doc aoi /\ fs (in_dir dir (codes "AoI")) = Some (File (render aoi));
  dr_raw : fs (in_dir dir (ch ++ codes ".RAW")) = Some (File raw) /\ raw <> [] /\ Z.of_nat (List.length raw) < 2 ^ 31;
  dr_cal : match cal with
           | Some c => tidy_doc c /\ fs (in_dir dir (ch ++ codes ".Calibration")) = Some (File (render c))
           | None => fs (in_dir dir (ch ++ codes ".Calibration")) = None
           end }.
(** The text of a calibration entry, if there is one. *)
Definition cal_text (cal : option (list item)) (key : text) : option text :=
  match cal with
  | None => None
  | Some c => match content nothing (assigns [] c) key with Some (Some v) => Some v | _ => None end
  end.
(** The channel in the file: number [k], written [tk]; the counts have [b] bits; the
    calibrations are of [variable] and have [letter]. *)
Record channel (info : list item) (ch : text) (k : Z) (tk : text) (b : Z) (name variable : text) (letter : string) : Prop := {
  cn_number : channel_number info k ch;
  cn_tk : plain_number tk k;
  cn_name : name = text_in info (channel_key tk "name") (codes "Undefined");
  cn_var : variable = text_in info (channel_key tk "variable") (codes "Undefined");
  cn_letter : letter_of variable name letter;
  cn_bits : is_number (text_in info (codes "image:bitsperpixel") (codes "10")) b /\ 0 <= b <= 30 }.
(** No key of the calibrations is too long or has the hash 0, see C27. *)
Definition keys_fit (variable : text) (letter : string) (n : Z) : Prop := forall i t, 0 <= i < n -> plain_number t i ->
  (List.length (cal_key variable letter t) <= 31)%nat /\ dictionary_hash (cal_key variable letter t) <> 0.

Lemma twelve (P : Z -> bool) : forallb P [1; 2; 3; 4; 5; 6; 7; 8; 9; 10; 11; 12] = true -> forall k, 1 <= k <= 12 -> P k = true.
Proof. intros F k H. rewrite forallb_forall in F. apply F. cbn [In]. lia. Qed.
Definition chkey_ok (n m : string) (k : Z) : bool :=
  str_eqb (folded (chkey k (codes n))) (channel_key (print k) m) && negb (dictionary_hash (channel_key (print k) m) =? 0) && existsb (Z.eqb 58) (channel_key (print k) m).
Lemma chkey_facts n m k : chkey_ok n m k = true -> folded (chkey k (codes n)) = channel_key (print k) m /\ dictionary_hash (channel_key (print k) m) <> 0 /\ In 58 (channel_key (print k) m).
Proof.
  unfold chkey_ok, str_eqb. intros H. destruct (list_eq_dec _ _ _) as [E|]; [|discriminate]. cbn [andb] in H. apply andb_prop in H. destruct H as [H1 H2]. split; [exact E|]. split; [lia|]. apply existsb_exists in H2. destruct H2 as (c & I & C). apply Z.eqb_eq in C. now subst.
Qed.
Lemma chkey_name k : 1 <= k <= 12 -> chkey_ok "Name" "name" k = true.
Proof. apply (twelve (chkey_ok "Name" "name")). vm_compute. reflexivity. Qed.
Lemma chkey_variable k : 1 <= k <= 12 -> chkey_ok "Variable" "variable" k = true.
Proof. apply (twelve (chkey_ok "Variable" "variable")). vm_compute. reflexivity. Qed.
Lemma chkey_units k : 1 <= k <= 12 -> chkey_ok "Units" "units" k = true.
Proof. apply (twelve (chkey_ok "Units" "units")). vm_compute. reflexivity. Qed.
Lemma getstring_channel d info n m k def : tidy_doc info -> reads d info -> chkey_ok n m k = true ->
  getstring (Some d) (chkey k (codes n)) def = Ok (Some (text_in info (channel_key (print k) m) def)).
Proof. intros T R C. apply chkey_facts in C. destruct C as (E & H & I). rewrite (getstring_doc d info) by (try rewrite E; assumption). now rewrite E. Qed.
Lemma same6_eq a b : same6 a b = true <-> firstn 6 a = firstn 6 b.
Proof. unfold same6, str_eqb. destruct (list_eq_dec _ _ _); intuition congruence. Qed.
Lemma channel_is_print info k ch : 1 <= k <= 12 -> (channel_is info k ch <-> firstn 6 (text_in info (channel_key (print k) "name") (codes "Undefined")) = firstn 6 ch).
Proof.
  intros K. unfold channel_is. split.
  - intros H. apply H. split; [exact K|]. apply print_plain. lia.
  - intros H t [_ P]. rewrite (plain_print t k P) by lia. exact H.
Qed.
Lemma find_channel_ok d info ch k left : tidy_doc info -> reads d info -> channel_number info k ch -> forall i, 1 <= i <= k -> 12 < i + Z.of_nat left ->
  find_channel (Some d) ch left i = Ok k.
Proof.
  intros T R (K & Y & N). induction left as [|l IH]; intros i I L; [lia|]. cbn [find_channel]. rewrite (getstring_channel d info "Name" "name") by (try assumption; apply chkey_name; lia). cbn [bind].
  destruct (same6 ch _) eqn:E.
  - apply same6_eq in E. destruct (Z.eq_dec i k) as [->|]; [reflexivity|]. exfalso. apply (N i); [lia|]. apply channel_is_print; [lia|]. now rewrite E.
  - destruct (Z.eq_dec i k) as [->|]; [|apply IH; lia]. exfalso. apply channel_is_print in Y; [|lia]. rewrite (proj2 (same6_eq _ _)) in E; [discriminate|now symmetry].
Qed.
Lemma all_of_ok A B (f : A -> outcome B) g l : (forall a, In a l -> f a = Ok (g a)) -> all_of f l = Ok (map g l).
Proof. induction l as [|a l IH]; intros H; [reflexivity|]. cbn [all_of map]. rewrite H by now left. cbn [bind]. rewrite IH by (intros; apply H; now right). reflexivity. Qed.
Lemma code_letter v n l : letter_of v n l -> (if nth 0 v 0 =? 84 then "T" else if nth 0 v 0 =? 82 then if chname_to_chnum n <=? 3 then "V" else "N" else "U") = l.
Proof.
  assert (SP : forall m, firstn 6 (codes m) = codes m -> forall a b, firstn 6 n = codes m -> (if same6 n (codes m) then a else b : Z) = a).
  { intros m M a b E. rewrite (proj2 (same6_eq _ _)); [reflexivity|]. now rewrite M. }
  intros [[(r & ->) ->]|[[(r & ->) [S0 ->]]|[[(r & ->) [I0 ->]]|(A & B & ->)]]]; cbn [nth Z.eqb Pos.eqb].
  - reflexivity.
  - assert (C : chname_to_chnum n <= 3); [|replace (chname_to_chnum n <=? 3) with true by lia; reflexivity].
    unfold solar, infrared in *. unfold chname_to_chnum, ch_names. cbn [index6]. repeat match goal with H : Exists _ (_ :: _) |- _ => apply Exists_cons in H; destruct H as [E|H] | H : Exists _ [] |- _ => inversion H end; unfold same6; rewrite E; vm_compute; discriminate.
  - assert (C : 3 < chname_to_chnum n); [|replace (chname_to_chnum n <=? 3) with false by lia; reflexivity].
    unfold solar, infrared in *. unfold chname_to_chnum, ch_names. cbn [index6]. repeat match goal with H : Exists _ (_ :: _) |- _ => apply Exists_cons in H; destruct H as [E|H] | H : Exists _ [] |- _ => inversion H end; unfold same6; rewrite E; vm_compute; reflexivity.
  - destruct v as [|c v]; [reflexivity|]. cbn [nth]. destruct (c =? 84) eqn:C; [exfalso; apply A; apply Z.eqb_eq in C; subst; eexists; reflexivity|]. destruct (c =? 82) eqn:D; [exfalso; apply B; apply Z.eqb_eq in D; subst; eexists; reflexivity|]. reflexivity.
Qed.
Lemma folded_short k : (List.length k <= 1024)%nat -> folded k = map lower k.
Proof. intros H. unfold folded. apply firstn_all2. now rewrite map_length. Qed.
Lemma path_ok dir ch ext : (List.length dir + List.length ch <= 4000)%nat -> (List.length ext <= 20)%nat -> path_of dir ch ext = Ok (in_dir dir (ch ++ ext)).
Proof. intros H E. unfold path_of, in_dir. replace (_ <=? 4095)%nat with true; [reflexivity|]. symmetry. apply Nat.leb_le. rewrite !app_length. cbn [List.length]. lia. Qed.
Lemma path_cut_ok dir n : (List.length dir <= 4000)%nat -> (List.length n <= 20)%nat -> path_cut dir n = in_dir dir n.
Proof. intros H E. unfold path_cut, in_dir. apply firstn_all2. rewrite !app_length. cbn [List.length]. lia. Qed.

Section Channels.
Variable flt : Type.
Variable zero : flt.
Variable atof : text -> flt.
Notation db := (db1 flt).
(** The value of a calibration entry. *)
Definition cal_value (cal : option (list item)) (key : text) : flt := match cal_text cal key with Some v => atof v | None => zero end.

Definition cal_reads (c : option dict) (cal : option (list item)) : Prop :=
  match c, cal with Some d, Some doc => tidy_doc doc /\ reads d doc | None, None => True | _, _ => False end.
Lemma value_at (s : db) di info ch k tk b name variable letter cal count t : x_info _ s = Some di -> tidy_doc info -> reads di info -> x_chnum _ s = k ->
  channel info ch k tk b name variable letter -> cal_reads (x_cal _ s) cal -> printd count = t -> 0 <= x_ncal _ s ->
  (List.length (cal_key variable letter t) <= 31)%nat -> dictionary_hash (cal_key variable letter t) <> 0 ->
  value_calibrated flt zero atof s count = Ok (cal_value cal (cal_key variable letter t)).
Proof.
  intros EI T R EK C CR PD NC KL KH. destruct C as [(K & _) TK EN EV L _]. assert (tk = print k) by (apply plain_print; [exact TK|lia]). subst tk.
  unfold value_calibrated, is_data_ok. rewrite EK. replace (0 <? k) with true by lia. cbn [negb]. replace ((count <? 0) && _) with false by lia.
  unfold get_channel_INFO_variable_code, get_channel_INFO_variable, get_channel_INFO_name, str_of, is_data_ok. rewrite EK, EI. replace (0 <? k) with true by lia.
  rewrite (getstring_channel di info "Variable" "variable"), (getstring_channel di info "Name" "name") by (try assumption; (apply chkey_variable || apply chkey_name); lia). cbn [bind]. rewrite <- EN, <- EV. cbv zeta. rewrite (code_letter _ _ _ L). rewrite PD.
  assert (SH : cut (variable ++ [58] ++ codes letter ++ [40] ++ t ++ [41]) = variable ++ [58] ++ codes letter ++ [40] ++ t ++ [41]).
  { unfold cut. apply firstn_all2. unfold cal_key in KL. rewrite map_length in KL. exact KL. }
  rewrite SH. assert (FO : folded (variable ++ [58] ++ codes letter ++ [40] ++ t ++ [41]) = cal_key variable letter t).
  { apply folded_short. unfold cal_key in KL. rewrite map_length in KL. lia. }
  unfold cal_value, cal_text, getdouble. destruct (x_cal flt s) as [d|], cal as [doc|]; cbn [cal_reads] in CR; try contradiction; [|reflexivity].
  destruct CR as [TD RD]. rewrite RD by (rewrite FO; exact KH). rewrite FO. cbn [bind].
  pose proof (says_not_null doc (cal_key variable letter t) (proj2 TD)) as N. destruct (content nothing (assigns [] doc) _) as [[v|]|]; [reflexivity| |reflexivity].
  exfalso. apply N; [|reflexivity]. unfold cal_key. rewrite map_app. apply in_or_app. right. now left.
Qed.
Lemma ini_cal fs dir ch info aoi cal raw : directory fs dir ch info aoi cal raw -> exists c, ini_file fs (in_dir dir (ch ++ codes ".Calibration")) = Ok c /\ cal_reads c cal.
Proof.
  intros [_ _ _ _ C]. unfold ini_file. destruct cal as [c|].
  - destruct C as [T ->]. destruct (reads_doc c T) as (d & -> & R). exists (Some d). split; [reflexivity|]. split; assumption.
  - rewrite C. exists None. split; [reflexivity|exact Logic.I].
Qed.
Lemma table_size_ok b : 0 <= b <= 30 -> table_size b = Ok (2 ^ b).
Proof. intros H. unfold table_size. replace (31 <=? b) with false by lia. replace (b <? 0) with false by lia. reflexivity. Qed.
Definition table (cal : option (list item)) (variable : text) (letter : string) (n : Z) : list flt :=
  map (fun i => cal_value cal (cal_key variable letter (print (Z.of_nat i)))) (seq 0 (Z.to_nat n)).
Lemma bits_ok (s : db) di info b : x_info _ s = Some di -> tidy_doc info -> reads di info -> 0 < x_chnum _ s -> is_number (text_in info (codes "image:bitsperpixel") (codes "10")) b -> 0 <= b <= 30 ->
  get_INFO_image_bitsperpixel flt s = Ok b.
Proof.
  intros EI T R K N B. unfold get_INFO_image_bitsperpixel, int_of_key, is_data_ok. replace (0 <? x_chnum flt s) with true by lia. rewrite EI. change (codes "image:bitsperpixel") with (folded (codes "Image:BitsPerPixel")) in N.
  eapply (getint_doc di info _ 10 b (codes "10") T R); [intro X; vm_compute in X; discriminate| |apply plain_is_number; apply (print_plain 10); lia|exact N|lia].
  vm_compute. tauto.
Qed.
Lemma print_lt n : 0 <= n < 10 ^ 19 -> printd n = print n.
Proof. intros H. unfold printd. replace (n <? 0) with false by lia. reflexivity. Qed.
Lemma set_ok fs (s : db) dir di ch info aoi cal raw k tk b name variable letter :
  x_dir _ s = Some dir -> x_info _ s = Some di -> tidy_doc info -> reads di info -> directory fs dir ch info aoi cal raw -> channel info ch k tk b name variable letter -> keys_fit variable letter (2 ^ b) ->
  exists c, cal_reads c cal /\ set_channel flt zero atof fs s ch =
    Ok (mk_db1 flt (Some dir) (x_aoi _ s) (Some di) c k (Some raw) (2 ^ b) (Some (table cal variable letter (2 ^ b))) (Some (Z.of_nat (List.length raw)))
               (x_leaks _ s + owned (x_cal _ s) + owned (x_raw _ s) + owned (x_cals _ s))).
Proof.
  intros ED EI T R D C KF. destruct (ini_cal _ _ _ _ _ _ _ D) as (c & EC & RC). exists c. split; [exact RC|]. pose proof C as [CN _ _ _ _ [BN BR]]. destruct D as [SH _ _ [ER [NR LR]] _].
  unfold set_channel, has_channel. rewrite ED, (path_ok dir ch) by (assumption || (cbn; lia)). cbn [bind]. rewrite ER. cbn [bind x_dir x_aoi x_info x_cal x_chnum x_raw x_ncal x_cals x_size x_leaks st_size]. rewrite (path_ok dir ch) by (assumption || (cbn; lia)). cbn [bind]. rewrite EC. cbn [bind]. rewrite (path_ok dir ch) by (assumption || (cbn; lia)). cbn [bind]. rewrite ER. cbn [need bind].
  destruct raw as [|r0 raw]; [contradiction|]. unfold get_channel_number. rewrite EI. destruct CN as (K & CN2 & CN3). rewrite (find_channel_ok di info ch k 12 T R) by (split; [exact K|split; assumption] || lia). cbn [bind].
  rewrite (bits_ok _ di info b) by (assumption || reflexivity || cbn; lia). cbn [bind]. rewrite table_size_ok by exact BR. cbn [bind].
  rewrite (all_of_ok _ _ _ (fun i => cal_value cal (cal_key variable letter (print (Z.of_nat i))))).
  - cbn [bind]. reflexivity.
  - intros i I. apply in_seq in I. assert (0 <= Z.of_nat i < 2 ^ b) by lia. assert (2 ^ b <= 2 ^ 30) by (apply Z.pow_le_mono_r; lia). destruct (KF (Z.of_nat i) (print (Z.of_nat i))) as [F1 F2]; [lia|apply print_plain; lia|].
    eapply (value_at _ di info ch k); [reflexivity|exact T|exact R|reflexivity|exact C|exact RC|apply print_lt; lia| |exact F1|exact F2]. cbn [x_ncal]. lia.
Qed.
Lemma open_ok fs dir ch info aoi cal raw (s : db) : directory fs dir ch info aoi cal raw -> exists da di, reads da aoi /\ reads di info /\
  open flt fs s dir = Ok (mk_db1 flt (Some dir) (Some da) (Some di) (x_cal _ s) (x_chnum _ s) (x_raw _ s) (x_ncal _ s) (x_cals _ s) (x_size _ s) (x_leaks _ s + owned (x_dir _ s) + owned (x_aoi _ s) + owned (x_info _ s))).
Proof.
  intros [SH [TI EI] [TA EA] _ _]. destruct (reads_doc _ TI) as (di & NI & RI), (reads_doc _ TA) as (da & NA & RA). exists da, di. split; [exact RA|]. split; [exact RI|].
  unfold open, ini_file. rewrite !path_cut_ok by (cbn; lia). rewrite EA, EI, NI, NA. reflexivity.
Qed.

(** ** C140 *)
Definition fresh_db : db := fresh flt.
(** A program: open the directory, then set channels. *)
Fixpoint set_all (fs : fsys) (s : db) (chs : list text) : outcome db :=
  match chs with [] => Ok s | ch :: r => let! s' := set_channel flt zero atof fs s ch in set_all fs s' r end.
Definition run (fs : fsys) (dir : text) (chs : list text) : outcome db := let! s := open flt fs fresh_db dir in set_all fs s chs.
(** What the object then tells. *)
Definition tells (s : db) (raw : list Z) (b : Z) (name variable : text) : Prop :=
  is_data_ok flt s = true /\ get_RAW_data flt s = Some raw /\ get_raw_data_size flt s = Ok (Z.of_nat (List.length raw)) /\ get_raw_data_nvals flt s = Ok (Z.of_nat (List.length raw) / 2) /\
  get_channel_INFO_name flt s = Ok (Some name) /\ get_channel_INFO_variable flt s = Ok (Some variable) /\ get_number_of_calibration flt s = 2 ^ b.
Definition loaded (s : db) (dir : text) (info : list item) (cal : option (list item)) (k : Z) (raw : list Z) (n : Z) (t : list flt) : Prop :=
  exists a di c, reads di info /\ cal_reads c cal /\ s = mk_db1 flt (Some dir) a (Some di) c k (Some raw) n (Some t) (Some (Z.of_nat (List.length raw))) (x_leaks _ s).
Lemma loaded_tells s dir ch info cal k tk raw b name variable letter t : tidy_doc info -> loaded s dir info cal k raw (2 ^ b) t -> channel info ch k tk b name variable letter -> Z.of_nat (List.length raw) < 2 ^ 31 -> tells s raw b name variable.
Proof.
  intros T (a & di & c & R & _ & ->) C LR. destruct C as [(K & _) TK EN EV _ _]. assert (tk = print k) by (apply plain_print; [exact TK|lia]). subst tk.
  unfold tells, get_RAW_data, get_raw_data_size, get_raw_data_nvals, half_size, get_channel_INFO_name, get_channel_INFO_variable, get_number_of_calibration, str_of, is_data_ok. cbn [x_dir x_aoi x_info x_cal x_chnum x_raw x_ncal x_cals x_size x_leaks]. replace (0 <? k) with true by lia.
  rewrite (getstring_channel di info "Variable" "variable"), (getstring_channel di info "Name" "name") by (try assumption; (apply chkey_variable || apply chkey_name); lia). rewrite EN, EV. repeat split; cbn [need bind]; unfold to_int; f_equal; lia.
Qed.
Lemma run_one fs dir ch info aoi cal raw k tk b name variable letter :
  directory fs dir ch info aoi cal raw -> channel info ch k tk b name variable letter -> keys_fit variable letter (2 ^ b) ->
  exists s, run fs dir [ch] = Ok s /\ loaded s dir info cal k raw (2 ^ b) (table cal variable letter (2 ^ b)) /\ x_leaks _ s = 0 /\ exists da, x_aoi _ s = Some da /\ reads da aoi.
Proof.
  intros D C KF. destruct (open_ok _ _ _ _ _ _ _ fresh_db D) as (da & di & RA & RI & EO). unfold run. rewrite EO. cbn [bind set_all].
  destruct (set_ok fs (mk_db1 flt (Some dir) (Some da) (Some di) None 0 None (-1) None None 0) dir di ch info aoi cal raw k tk b name variable letter eq_refl eq_refl (proj1 (dr_info _ _ _ _ _ _ _ D)) RI D C KF) as (c & RC & ES).
  unfold fresh_db, fresh. cbn [x_dir x_aoi x_info x_cal x_chnum x_raw x_ncal x_cals x_size x_leaks owned Z.add]. rewrite ES. cbn [bind x_dir x_aoi x_info x_cal x_chnum x_raw x_ncal x_cals x_size x_leaks owned Z.add].
  eexists. split; [reflexivity|]. split; [exists (Some da), di, c; split; [exact RI|]; split; [exact RC|reflexivity]|]. split; [reflexivity|]. exists da. split; [reflexivity|exact RA].
Qed.
(** Opening a directory and setting a channel gives the data of this channel, and
    closing then leaves nothing behind. *)
Theorem C140_channel_is_opened fs dir ch info aoi cal raw k tk b name variable letter :
  directory fs dir ch info aoi cal raw -> channel info ch k tk b name variable letter -> keys_fit variable letter (2 ^ b) ->
  exists s, run fs dir [ch] = Ok s /\ tells s raw b name variable /\ x_leaks _ (close flt s) = 0 /\ is_data_ok flt (close flt s) = false.
Proof.
  intros D C KF. destruct (run_one _ _ _ _ _ _ _ _ _ _ _ _ _ D C KF) as (s & E & L & LK & _). exists s. split; [exact E|]. split; [|split; [exact LK|reflexivity]].
  eapply loaded_tells; [apply (dr_info _ _ _ _ _ _ _ D)|exact L|exact C|apply (dr_raw _ _ _ _ _ _ _ D)].
Qed.
(** A second channel replaces the first; the memory of the first is lost. *)
Theorem C140_second_channel fs dir ch info aoi cal raw k tk b name variable letter ch' cal' raw' k' tk' b' name' variable' letter' :
  directory fs dir ch info aoi cal raw -> channel info ch k tk b name variable letter -> keys_fit variable letter (2 ^ b) ->
  directory fs dir ch' info aoi cal' raw' -> channel info ch' k' tk' b' name' variable' letter' -> keys_fit variable' letter' (2 ^ b') ->
  exists s, run fs dir [ch; ch'] = Ok s /\ tells s raw' b' name' variable' /\ x_leaks _ (close flt s) = match cal with Some _ => 3 | None => 2 end.
Proof.
  intros D C KF D' C' KF'. destruct (run_one _ _ _ _ _ _ _ _ _ _ _ _ _ D C KF) as (s1 & E & L & LK & _). unfold run in *. destruct (open flt fs fresh_db dir) as [s0| | | |]; try discriminate. cbn [bind set_all] in *.
  destruct (set_channel flt zero atof fs s0 ch) as [s1'| | | |]; try discriminate. cbn [bind set_all] in *. injection E as ->. destruct L as (a & di & c & RI & RC & ES).
  destruct (set_ok fs s1 dir di ch' info aoi cal' raw' k' tk' b' name' variable' letter') as (c' & RC' & E'); try assumption; try (rewrite ES; reflexivity). { apply (dr_info _ _ _ _ _ _ _ D). }
  rewrite E'. eexists. split; [reflexivity|]. split.
  - eapply loaded_tells; [apply (dr_info _ _ _ _ _ _ _ D)| |exact C'|apply (dr_raw _ _ _ _ _ _ _ D')]. exists (x_aoi flt s1), di, c'. split; [exact RI|]. split; [exact RC'|reflexivity].
  - cbn [close x_leaks]. rewrite LK. rewrite ES. cbn [x_cal x_raw x_cals owned]. destruct c, cal; cbn [cal_reads] in RC; try contradiction; reflexivity.
Qed.
(** A channel that is not there: the object goes on with the channel it had and says
    that the data are good; only the calibrations are lost. *)
Theorem C140_refuted_absent fs dir ch info aoi cal raw k tk b name variable letter ch' :
  directory fs dir ch info aoi cal raw -> channel info ch k tk b name variable letter -> keys_fit variable letter (2 ^ b) ->
  (List.length dir + List.length ch' <= 4000)%nat -> fs (in_dir dir (ch' ++ codes ".RAW")) = None -> fs (in_dir dir (ch' ++ codes ".Calibration")) = None ->
  exists s, run fs dir [ch; ch'] = Ok s /\ tells s raw b name variable /\ forall i, value_calibrated flt zero atof s i = Ok zero.
Proof.
  intros D C KF P NR NC. destruct (run_one _ _ _ _ _ _ _ _ _ _ _ _ _ D C KF) as (s1 & E & L & LK & _). unfold run in *. destruct (open flt fs fresh_db dir) as [s0| | | |]; try discriminate. cbn [bind set_all] in *.
  destruct (set_channel flt zero atof fs s0 ch) as [s1'| | | |]; try discriminate. cbn [bind set_all] in *. injection E as ->. destruct L as (a & di & c & RI & RC & ES).
  assert (ED : x_dir flt s1 = Some dir) by now rewrite ES.
  unfold set_channel, has_channel. rewrite ED, !(path_ok dir ch') by (assumption || (cbn; lia)). cbn [bind]. rewrite NR. cbn [bind]. rewrite ED. repeat (rewrite (path_ok dir ch') by (assumption || (cbn; lia))). cbn [bind]. unfold ini_file. rewrite NC. cbn [bind]. repeat (rewrite (path_ok dir ch') by (assumption || (cbn; lia))). cbn [bind]. rewrite NR. cbn [bind set_all].
  eexists. split; [reflexivity|]. pose proof (dr_info _ _ _ _ _ _ _ D) as [TI _]. split.
  - eapply (loaded_tells _ dir ch info None k tk raw b name variable letter (table cal variable letter (2 ^ b))); [exact TI| |exact C|apply (dr_raw _ _ _ _ _ _ _ D)]. exists a, di, None. split; [exact RI|]. split; [exact Logic.I|]. rewrite ES. cbn [x_dir x_aoi x_info x_cal x_chnum x_raw x_ncal x_cals x_size x_leaks]. reflexivity.
  - intros i. rewrite ES. cbn [x_dir x_aoi x_info x_cal x_chnum x_raw x_ncal x_cals x_size x_leaks]. destruct C as [(K & _) _ _ _ _ _].
    unfold value_calibrated, get_channel_INFO_variable_code, get_channel_INFO_variable, get_channel_INFO_name, str_of, is_data_ok. cbn [x_dir x_aoi x_info x_cal x_chnum x_raw x_ncal x_cals x_size x_leaks]. replace (0 <? k) with true by lia. cbn [negb]. destruct (_ && _); [reflexivity|].
    rewrite (getstring_channel di info "Variable" "variable"), (getstring_channel di info "Name" "name") by (try assumption; (apply chkey_variable || apply chkey_name); lia). reflexivity.
Qed.
(** Asking whether another channel is there changes the size told for the data. *)
Theorem C140_refuted_question fs dir ch info aoi cal raw k tk b name variable letter ch' e :
  directory fs dir ch info aoi cal raw -> channel info ch k tk b name variable letter -> keys_fit variable letter (2 ^ b) ->
  (List.length dir + List.length ch' <= 4000)%nat -> fs (in_dir dir (ch' ++ codes ".RAW")) = Some e -> 0 <= st_size e < 2 ^ 31 ->
  exists s s', run fs dir [ch] = Ok s /\ has_channel flt fs s ch' = Ok (true, s') /\ get_RAW_data flt s' = Some raw /\ get_raw_data_size flt s' = Ok (st_size e).
Proof.
  intros D C KF P NR B. destruct (run_one _ _ _ _ _ _ _ _ _ _ _ _ _ D C KF) as (s1 & E & L & LK & _). destruct L as (a & di & c & RI & RC & ES). exists s1. assert (ED : x_dir flt s1 = Some dir) by now rewrite ES.
  unfold has_channel. rewrite ED, (path_ok dir ch') by (assumption || (cbn; lia)). cbn [bind]. rewrite NR. eexists. split; [exact E|]. split; [reflexivity|]. destruct C as [(K & _) _ _ _ _ _].
  rewrite ES. unfold get_RAW_data, get_raw_data_size, is_data_ok. cbn [x_dir x_aoi x_info x_cal x_chnum x_raw x_ncal x_cals x_size x_leaks]. replace (0 <? k) with true by lia. split; [reflexivity|]. cbn [need bind]. unfold to_int. f_equal. lia.
Qed.
(** Without a directory there are no channels, no data, and setting one is undefined. *)
Theorem C140_refuted_closed fs s ch : has_channel flt fs (close flt s) ch = Ok (false, close flt s) /\ is_data_ok flt (close flt s) = false /\ get_RAW_data flt (close flt s) = None /\ set_channel flt zero atof fs (close flt s) ch = UB.
Proof. repeat split. Qed.
(** ** C141 *)
(** Entry [i] of the table is the number the calibration file has for count [i]. *)
Theorem C141_table fs dir ch info aoi cal raw k tk b name variable letter :
  directory fs dir ch info aoi cal raw -> channel info ch k tk b name variable letter -> keys_fit variable letter (2 ^ b) ->
  exists s tbl, run fs dir [ch] = Ok s /\ get_calibration flt s = Some tbl /\ Z.of_nat (List.length tbl) = 2 ^ b /\
  forall i t, 0 <= i < 2 ^ b -> plain_number t i ->
    nth_error tbl (Z.to_nat i) = Some (cal_value cal (cal_key variable letter t)) /\ value_calibrated flt zero atof s i = Ok (cal_value cal (cal_key variable letter t)).
Proof.
  intros D C KF. destruct (run_one _ _ _ _ _ _ _ _ _ _ _ _ _ D C KF) as (s & E & L & LK & _). destruct L as (a & di & c & RI & RC & ES). pose proof C as [(K & _) _ _ _ _ [_ BR]]. exists s, (table cal variable letter (2 ^ b)). split; [exact E|].
  assert (0 < 2 ^ b <= 2 ^ 30) by (split; [apply Z.pow_pos_nonneg; lia|apply Z.pow_le_mono_r; lia]).
  split; [rewrite ES; unfold get_calibration, is_data_ok; cbn [x_chnum x_cals]; replace (0 <? k) with true by lia; reflexivity|]. split; [unfold table; rewrite map_length, seq_length; lia|].
  intros i t I PN. assert (ET : t = print i) by (apply plain_print; [exact PN|lia]). split.
  - unfold table. erewrite map_nth_error; [|rewrite nth_error_nth' with (d := 0%nat); [reflexivity|rewrite seq_length; lia]]. rewrite seq_nth by lia. cbn [Nat.add]. rewrite Z2Nat.id by lia. now rewrite ET.
  - destruct (KF i t I PN) as [F1 F2]. eapply (value_at s di info ch k); [rewrite ES; reflexivity|apply (dr_info _ _ _ _ _ _ _ D)|exact RI|rewrite ES; reflexivity|exact C|rewrite ES; exact RC|rewrite ET; apply print_lt; lia|rewrite ES; cbn [x_ncal]; lia|exact F1|exact F2].
Qed.
(** Counts outside of the table are not refused. *)
Theorem C141_refuted_outside fs dir ch info aoi cal raw k tk b name variable letter count :
  directory fs dir ch info aoi cal raw -> channel info ch k tk b name variable letter -> keys_fit variable letter (2 ^ b) ->
  (List.length (cal_key variable letter (printd count)) <= 31)%nat -> dictionary_hash (cal_key variable letter (printd count)) <> 0 ->
  exists s, run fs dir [ch] = Ok s /\ value_calibrated flt zero atof s count = Ok (cal_value cal (cal_key variable letter (printd count))).
Proof.
  intros D C KF F1 F2. destruct (run_one _ _ _ _ _ _ _ _ _ _ _ _ _ D C KF) as (s & E & L & LK & _). destruct L as (a & di & c & RI & RC & ES). pose proof C as [(K & _) _ _ _ _ [_ BR]]. exists s. split; [exact E|].
  eapply (value_at s di info ch k); [rewrite ES; reflexivity|apply (dr_info _ _ _ _ _ _ _ D)|exact RI|rewrite ES; reflexivity|exact C|rewrite ES; exact RC|reflexivity|rewrite ES; cbn [x_ncal]; apply Z.pow_nonneg; lia|exact F1|exact F2].
Qed.
(** With a long name of the variable all counts are calibrated alike. *)
Theorem C141_refuted_long_names (s : db) v i j : get_channel_INFO_variable flt s = Ok (Some v) -> (28 <= List.length v)%nat -> 0 <= i -> 0 <= j ->
  value_calibrated flt zero atof s i = value_calibrated flt zero atof s j.
Proof.
  intros V L I J. unfold value_calibrated. destruct (is_data_ok flt s); [cbn [negb]|reflexivity]. replace ((i <? 0) && _) with false by lia. replace ((j <? 0) && _) with false by lia. rewrite V. cbn [bind].
  destruct (get_channel_INFO_variable_code flt s) as [[c|]| | | |] eqn:EC; cbn [bind]; try reflexivity.
  assert (CL : List.length c = 1%nat). { unfold get_channel_INFO_variable_code in EC. destruct (is_data_ok flt s); [|discriminate]. rewrite V in EC. cbn [bind] in EC. destruct (get_channel_INFO_name flt s) as [[n|]| | | |]; cbn [bind] in EC; try discriminate. cbv zeta in EC. injection EC as <-. destruct (_ =? 84); [reflexivity|]. destruct (_ =? 82); [|reflexivity]. destruct (_ <=? 3); reflexivity. }
  assert (X : forall p q : text, cut (v ++ [58] ++ c ++ [40] ++ p) = cut (v ++ [58] ++ c ++ [40] ++ q)).
  { intros p q. unfold cut. rewrite !app_assoc. rewrite !firstn_app. rewrite !app_length. cbn [List.length]. rewrite CL. replace (31 - (List.length v + 1 + 1 + 1))%nat with 0%nat by lia. reflexivity. }
  now rewrite (X (printd i ++ [41]) (printd j ++ [41])).
Qed.
End Channels.
Print Assumptions C140_channel_is_opened.
Print Assumptions C140_second_channel.
Print Assumptions C140_refuted_absent.
Print Assumptions C140_refuted_question.
Print Assumptions C140_refuted_closed.
Print Assumptions C141_table.
Print Assumptions C141_refuted_outside.
Print Assumptions C141_refuted_long_names.

(** ** An example *)
Definition word_char (c : Z) : bool := (32 <=? c) && (c <=? 126) && negb (existsb (Z.eqb c) [34; 35; 39; 59; 61; 91; 93]).
Definition word (w : text) : bool :=
  forallb word_char w && (List.length w <=? 100)%nat && match w with c :: _ => negb (c =? 32) | [] => false end && match rev w with c :: _ => negb (c =? 32) | [] => false end.
Definition entry_of (k v : string) : item := Plain [] (codes k) [] [] (codes v) [] [].
Definition section_of (n : string) : item := Section_ [] (codes n) [].
Definition simple (i : item) : bool :=
  match i with
  | Plain [] k [] [] v [] [] => word k && word v
  | Section_ [] n [] => word n && negb (existsb (Z.eqb 58) n)
  | _ => false
  end.
Lemma word_ok w : word w = true -> clean_text w /\ (List.length w <= 100)%nat /\ starts_black w /\ ends_black w /\ forall c, In c [34; 35; 39; 59; 61; 91; 93] -> ~ In c w.
Proof.
  unfold word. rewrite !andb_true_iff. intros [[[F L] A] B]. rewrite forallb_forall in F.
  assert (C : forall c, In c w -> word_char c = true) by exact F. unfold word_char in C.
  assert (W : forall c, In c w -> c <> 32 -> white c = false). { intros c I N. specialize (C c I). unfold white, blank. lia. }
  split; [apply Forall_forall; intros c I; specialize (C c I); lia|]. split; [apply Nat.leb_le; exact L|]. split.
  - destruct w as [|c w]; [discriminate|]. exists c, w. split; [reflexivity|]. apply W; [now left|lia].
  - split.
    + destruct (rev w) as [|c r] eqn:E; [discriminate|]. exists (rev r), c. assert (EW : w = rev r ++ [c]) by (rewrite <- (rev_involutive w), E; reflexivity). split; [exact EW|]. apply W; [rewrite EW; apply in_or_app; right; now left|lia].
    + intros c I N. specialize (C c N). apply andb_prop in C. destruct C as [_ C]. apply negb_true_iff in C. assert (X : existsb (Z.eqb c) [34; 35; 39; 59; 61; 91; 93] = true) by (apply existsb_exists; exists c; split; [exact I|apply Z.eqb_refl]). congruence.
Qed.
Lemma clean_app a b : clean_text a -> clean_text b -> clean_text (a ++ b).
Proof. intros. apply Forall_app. auto. Qed.
Lemma simple_ok doc : forallb simple doc = true -> tidy_doc doc.
Proof.
  intros F. rewrite forallb_forall in F. split; apply Forall_forall; intros i I; specialize (F i I); destruct i as [|?|ws n r|ws k w1 w2 v w3 c|]; try discriminate; unfold simple in F.
  - destruct ws, r; try discriminate. apply andb_prop in F. destruct F as [F _]. apply word_ok in F. destruct F as (CT & L & SB & _ & NI). unfold good_item. cbn [line_of app]. split; [apply (clean_app [91]); [repeat constructor; lia|]; apply clean_app; [exact CT|repeat constructor; lia]|].
    split; [cbn [List.length]; rewrite app_length; cbn [List.length]; lia|]. split; [constructor|]. split; [destruct SB as (x & y & -> & _); discriminate|]. apply NI. cbn [In]; tauto.
  - destruct ws, w1, w2, w3, c; try discriminate. apply andb_prop in F. destruct F as [K V]. apply word_ok in K, V. destruct K as (KC & KL & KB & KE & KN), V as (VC & VL & VB & VE & VN).
    assert (SN : forall (w : text) x, ~ In x w -> ~ starts_with x w) by (intros w x N (q & ->); apply N; now left).
    unfold good_item. cbn [line_of app]. rewrite app_nil_r. split; [apply clean_app; [exact KC|]; apply (clean_app [61]); [repeat constructor; lia|exact VC]|]. split; [rewrite app_length; cbn [List.length]; lia|]. split; [constructor|].
    split; [unfold good_key; repeat split; try assumption; try apply SN; apply KN; cbn [In]; tauto|]. split; [constructor|]. split; [constructor|]. split; [constructor|]. repeat split; try assumption; try (apply SN; apply VN; cbn [In]; tauto); try (apply VN; cbn [In]; tauto). now left.
  - destruct ws, r; try discriminate. apply andb_prop in F. destruct F as [_ F]. apply negb_true_iff in F. intros X. assert (Y : existsb (Z.eqb 58) n = true) by (apply existsb_exists; exists 58; split; [exact X|apply Z.eqb_refl]). congruence.
  - exact Logic.I.
Qed.
Definition ex_info : list item :=
  [section_of "Satellite"; entry_of "Name" "MSG1"; section_of "Schedule"; entry_of "Start" "24/12/2005 11:45:09.120";
   section_of "Image"; entry_of "BitsPerPixel" "2"; entry_of "Pixels" "3"; entry_of "Lines" "2";
   section_of "Channel1"; entry_of "Name" "VIS006"; entry_of "Variable" "Radiance";
   section_of "Channel2"; entry_of "Name" "IR_108"; entry_of "Variable" "Temperature"; entry_of "Units" "K"].
Definition ex_aoi : list item := [entry_of "CFAC" "-13642337"; entry_of "LFAC" "-13642337"; entry_of "COFF" "1856"; entry_of "LOFF" "1000"].
Definition ex_cal : list item := [section_of "Temperature"; entry_of "T(0)" "200.0"; entry_of "T(1)" "210.5"; entry_of "T(3)" "230.1"; entry_of "T(7)" "300"].
Definition ex_raw : list Z := [1; 0; 2; 0; 3; 0; 1; 0; 0; 0; 3; 1].
Definition ex_fs : fsys := fun p =>
  if str_eqb p (codes "/data/INFO.DBI") then Some (File (render ex_info))
  else if str_eqb p (codes "/data/AoI") then Some (File (render ex_aoi))
  else if str_eqb p (codes "/data/IR_108.RAW") then Some (File ex_raw)
  else if str_eqb p (codes "/data/IR_108.Calibration") then Some (File (render ex_cal))
  else if str_eqb p (codes "/data/VIS006.RAW") then Some (Closed 400)
  else None.
Example ex_directory : directory ex_fs (codes "/data") (codes "IR_108") ex_info ex_aoi (Some ex_cal) ex_raw.
Proof.
  split.
  - cbn. lia.
  - split; [apply simple_ok; vm_compute; reflexivity|reflexivity].
  - split; [apply simple_ok; vm_compute; reflexivity|reflexivity].
  - split; [reflexivity|]. split; [discriminate|cbn; lia].
  - split; [apply simple_ok; vm_compute; reflexivity|reflexivity].
Qed.
Example ex_channel : channel ex_info (codes "IR_108") 2 (codes "2") 2 (codes "IR_108") (codes "Temperature") "T".
Proof.
  split.
  - split; [lia|]. split; [apply channel_is_print; [lia|reflexivity]|]. intros j J. assert (j = 1) by lia. subst j. rewrite channel_is_print by lia. discriminate.
  - apply (print_plain 2). lia.
  - reflexivity.
  - reflexivity.
  - left. split; [eexists; reflexivity|reflexivity].
  - split; [apply plain_is_number, (print_plain 2); lia|lia].
Qed.
Example ex_fit : keys_fit (codes "Temperature") "T" (2 ^ 2).
Proof.
  intros i t I P. apply plain_print in P; [|change (2 ^ 2) with 4 in I; lia]. subst t. assert (i = 0 \/ i = 1 \/ i = 2 \/ i = 3) as [->|[->|[->| ->]]] by (change (2 ^ 2) with 4 in I; lia); (split; [vm_compute; repeat constructor|intro X; vm_compute in X; discriminate]).
Qed.
(** Floats are their texts here. *)
Example ex_table : exists s, run text [] (fun v => v) ex_fs (codes "/data") [codes "IR_108"] = Ok s /\
  get_calibration text s = Some [codes "200.0"; codes "210.5"; []; codes "230.1"] /\ value_calibrated text [] (fun v => v) s 7 = Ok (codes "300").
Proof.
  destruct (run_one text [] (fun v => v) _ _ _ _ _ _ _ _ _ _ _ _ _ ex_directory ex_channel ex_fit) as (s & E & (a & di & c & R & RC & ES) & LK & _). exists s. split; [exact E|]. rewrite ES. split; [vm_compute; reflexivity|].
  destruct (C141_refuted_outside text [] (fun v => v) _ _ _ _ _ _ _ _ _ _ _ _ _ 7 ex_directory ex_channel ex_fit) as (s' & E' & V).
  - vm_compute. repeat constructor.
  - intro X. vm_compute in X. discriminate.
  - rewrite E in E'. injection E' as <-. rewrite <- ES. rewrite V. vm_compute. reflexivity.
Qed.
