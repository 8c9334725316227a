(** C216: the listing of OpenMTP-IDS files. *)
From Verif Require Import Base BaseFacts IniModel IniProofs GribModel Db1Spec Db1Props IdsModel IdsSpec IdsBytes IdsProofs IdsProps IdsToolProps IdsListModel ViewProps.
Open Scope string_scope.
Open Scope list_scope.
Open Scope Z_scope.

(** ** What is asked for *)
(** Two bytes, each written as a number of a signed char, one after the other. *)
Definition number_of_byte (c : Z) : str := if c <? 128 then print c else codes "-" ++ print (256 - c).
Definition bytes_shown (f : list Z) : str := List.concat (map number_of_byte f).
(** All that a file says but the pixels; of the two bytes in front only what is shown. *)
Definition same_line (a b : scan_line) : Prop := sl_header a = sl_header b /\ List.length (sl_pixels a) = List.length (sl_pixels b).
Definition same_record (a b : record) : Prop :=
  let h := rc_header a in let h' := rc_header b in
  bytes_shown (rh_fortran h) = bytes_shown (rh_fortran h') /\ rh_record_header_length h = rh_record_header_length h' /\ rh_no_scanlines h = rh_no_scanlines h' /\
  rh_record_length h = rh_record_length h' /\ rh_zero h = rh_zero h' /\ Forall2 same_line (rc_lines a) (rc_lines b).
Definition same_header (h h' : file_header) : Prop :=
  bytes_shown (fh_fortran h) = bytes_shown (fh_fortran h') /\
  h = mk_file_header (fh_fortran h) (fh_no_records h') (fh_year h') (fh_julian_day h') (fh_hour h') (fh_minute h') (fh_process_year h') (fh_process_julian_day h') (fh_process_hour h') (fh_process_minute h')
        (fh_no_channels h') (fh_vis_id h') (fh_wv_id h') (fh_ir_id h') (fh_satellite h') (fh_satellite_id h') (fh_record_length h') (fh_no_vis_average h') (fh_no_wv_average h') (fh_no_ir_average h') (fh_averaging_type h')
        (fh_sample_interval h') (fh_ir_calibration h') (fh_wv_calibration h') (fh_fine_adjustment h') (fh_ir_space_count h') (fh_wv_space_count h').
Definition same_but_pixels (x y : ids) : Prop := same_header (id_header x) (id_header y) /\ Forall2 same_record (id_records x) (id_records y).

(** ** Reading it back *)
Lemma word_size v : word v -> size v.
Proof. unfold word, size. lia. Qed.
Lemma items_start l r : exists q, items l ++ 10 :: r = 10 :: q.
Proof. destruct l as [|p l]; cbn; eauto. Qed.
Lemma items_inj l : forall l' r r', map fst l = map fst l' -> Forall word (map snd l) -> Forall word (map snd l') -> items l ++ 10 :: r = items l' ++ 10 :: r' -> map snd l = map snd l' /\ r = r'.
Proof.
  induction l as [|[a v] l IH]; intros [|[b v'] l'] r r' L W W' E; try discriminate; cbn [map fst snd] in *.
  - cbn in E. injection E as E. auto.
  - injection L as -> L. inversion W as [|? ? V W1]; subst. inversion W' as [|? ? V' W1']; subst. unfold items in E. cbn [flat_map] in E. fold (items l) in E. fold (items l') in E. unfold item in E. cbn [fst snd] in E. rewrite <- !app_assoc in E. do 4 apply app_inv_head in E.
    destruct (items_start l r) as (q & Q), (items_start l' r') as (q' & Q'). rewrite Q, Q' in E. destruct (print_cut 10 v v' _ _ ltac:(unfold digit; lia) (word_size _ V) (word_size _ V') E) as (-> & E'). subst q'.
    destruct (IH l' r r' L W1 W1') as (E1 & E2); [congruence|]. split; [congruence|exact E2].
Qed.
Lemma char_text_plain c : is_byte c -> ~ In 34 (char_text c).
Proof.
  intros B I. unfold is_byte in B. unfold char_text in I. destruct (Z.ltb_spec c 128).
  - revert I. apply no_digit; [apply print_digits; unfold size; lia|unfold digit; lia].
  - destruct I as [I|I]; [discriminate|]. revert I. apply no_digit; [apply print_digits; unfold size; lia|unfold digit; lia].
Qed.
Lemma fortran_inj f f' r r' : bytes_ok f -> bytes_ok f' -> fortran_text f ++ r = fortran_text f' ++ r' -> bytes_shown f = bytes_shown f' /\ r = r'.
Proof.
  intros B B' E. unfold fortran_text in E. rewrite <- !app_assoc in E. do 3 apply app_inv_head in E. cbn [app] in E.
  assert (X : forall g, bytes_ok g -> ~ In 34 (flat_map char_text g)). { intros g G I. apply in_flat_map in I as (c & C & I). unfold bytes_ok in G. rewrite Forall_forall in G. revert I. apply char_text_plain. auto. }
  assert (Y : forall g, bytes_shown g = flat_map char_text g) by (intros g; unfold bytes_shown; now rewrite flat_map_concat_map).
  rewrite !Y. now apply (cut_at 34); auto.
Qed.
Ltac forced W := repeat (first [apply Forall_cons; [assumption|] | apply Forall_nil]).
Lemma line_inj a b w w' r r' : line_bytes a w -> line_bytes b w' -> scan_line_text a ++ r = scan_line_text b ++ r' -> same_line a b /\ r = r'.
Proof.
  intros A B E. destruct A as [len line start chan qual p0 p1 px fill W _ _ _], B as [len' line' start' chan' qual' p0' p1' px' fill' W' _ _ _].
  unfold scan_line_text, line_header_text in E. cbn [sl_header sl_pixels lh_length lh_line lh_start lh_no_pixels lh_channel_id lh_quality lh_pad0 lh_pad1] in E. rewrite <- !app_assoc in E. apply app_inv_head in E.
  repeat match goal with H : Forall word (_ :: _) |- _ => inversion H; clear H; subst end.
  cbn [app] in E. apply items_inj in E as (E0 & E); [|reflexivity|cbn [map snd]; forced W|cbn [map snd]; forced W]. cbn [map snd] in E0. injection E0 as E0.
  apply app_inv_head in E. apply items_inj in E as (E1 & E); [|reflexivity|cbn [map snd]; forced W|cbn [map snd]; forced W]. cbn [map snd] in E1. injection E1 as -> -> -> _ -> ->.
  apply app_inv_head in E. change (codes ", ") with [44; 32] in E. cbn [app] in E. apply print_cut in E as (-> & E); [|unfold digit; lia|now apply word_size|now apply word_size]. injection E as E. apply print_cut in E as (-> & E); [|unfold digit; lia|now apply word_size|now apply word_size].
  split; [|exact E]. unfold same_line. cbn [sl_header sl_pixels]. split; [now rewrite E0|lia].
Qed.
Lemma lines_inj a w : seq_bytes line_bytes a w -> forall b w' r r', seq_bytes line_bytes b w' -> hd 0 r <> 83 -> hd 0 r' <> 83 -> flat_map scan_line_text a ++ r = flat_map scan_line_text b ++ r' -> Forall2 same_line a b /\ r = r'.
Proof.
  induction 1 as [|x xs bx bs X _ IH]; intros b w' r r' B R R' E; destruct B as [|y ys b' bs' Y B]; cbn [flat_map] in E.
  - split; [constructor|exact E].
  - exfalso. cbn [app] in E. apply R. rewrite E. reflexivity.
  - exfalso. cbn [app] in E. apply R'. rewrite <- E. reflexivity.
  - rewrite <- !app_assoc in E. destruct (line_inj _ _ _ _ _ _ X Y E) as (S & E'). destruct (IH _ _ _ _ B R R' E') as (S' & E''). split; [constructor; assumption|exact E''].
Qed.
Lemma record_inj a b w w' r r' : record_bytes a w -> record_bytes b w' -> hd 0 r <> 83 -> hd 0 r' <> 83 -> record_text a ++ r = record_text b ++ r' -> same_record a b /\ r = r'.
Proof.
  intros A B R R' E. destruct A as [f hlen rlen zero ls bl _ BF W S], B as [f' hlen' rlen' zero' ls' bl' _ BF' W' S'].
  unfold record_text, record_header_text in E. cbn [rc_header rc_lines rh_fortran rh_record_header_length rh_no_scanlines rh_record_length rh_zero] in E. rewrite <- !app_assoc in E. do 3 apply app_inv_head in E.
  repeat match goal with H : Forall word (_ :: _) |- _ => inversion H; clear H; subst end.
  apply fortran_inj in E as (EF & E); [|assumption|assumption]. cbn [app] in E. apply items_inj in E as (E1 & E); [|reflexivity|cbn [map snd]; forced W|cbn [map snd]; forced W]. cbn [map snd] in E1. injection E1 as -> EN -> ->.
  destruct (lines_inj _ _ S _ _ _ _ S' R R' E) as (SL & E'). split; [|exact E']. unfold same_record. cbn [rc_header rc_lines rh_fortran rh_record_header_length rh_no_scanlines rh_record_length rh_zero]. repeat split; assumption.
Qed.
Lemma records_inj a w : seq_bytes record_bytes a w -> forall b w', seq_bytes record_bytes b w' -> flat_map record_text a = flat_map record_text b -> Forall2 same_record a b.
Proof.
  assert (H : forall l, hd 0 (flat_map record_text l) <> 83) by (intros [|x l]; cbn; discriminate).
  induction 1 as [|x xs bx bs X _ IH]; intros b w' B E; destruct B as [|y ys b' bs' Y B]; cbn [flat_map] in E; [constructor|discriminate|discriminate|].
  destruct (record_inj _ _ _ _ _ _ X Y (H _) (H _) E) as (S & E'). constructor; [exact S|]. eapply IH; eassumption.
Qed.
Theorem C216_listing_partial x y : consistent x -> consistent y -> ids_text x = ids_text y -> same_but_pixels x y.
Proof.
  intros (w & A) (w' & B) E. destruct A, B. unfold ids_text, file_header_text in E.
  cbn [id_header id_records fh_fortran fh_no_records fh_year fh_julian_day fh_hour fh_minute fh_process_year fh_process_julian_day fh_process_hour fh_process_minute fh_no_channels fh_vis_id fh_wv_id fh_ir_id fh_satellite fh_satellite_id fh_record_length fh_no_vis_average fh_no_wv_average fh_no_ir_average fh_averaging_type fh_sample_interval fh_ir_calibration fh_wv_calibration fh_fine_adjustment fh_ir_space_count fh_wv_space_count] in E.
  rewrite <- !app_assoc in E. do 3 apply app_inv_head in E.
  repeat match goal with H : Forall word (_ :: _) |- _ => inversion H; clear H; subst end.
  apply fortran_inj in E as (EF & E); [|assumption|assumption]. cbn [app] in E. apply items_inj in E as (E1 & E); [|reflexivity|cbn [map snd]; forced W|cbn [map snd]; forced W].
  apply app_inv_head in E. apply (f_equal (@tl Z)) in E. cbn [tl] in E.
  apply app_inv_len in E as (-> & E); [|congruence]. apply (f_equal (@tl Z)) in E. cbn [tl] in E. apply items_inj in E as (E2 & E); [|reflexivity|cbn [map snd]; forced W|cbn [map snd]; forced W].
  cbn [map snd] in E1, E2. injection E1 as EN -> -> -> -> -> -> -> -> -> -> -> ->. injection E2 as -> ER -> -> -> -> -> -> -> -> -> ->.
  split; [|eapply records_inj; eassumption]. split; [exact EF|]. cbn. now rewrite EN, ER.
Qed.
Print Assumptions C216_listing_partial.
(** The two bytes in front cannot be told from the listing: 1 and 23 look like 12 and 3. *)
Theorem C216_refuted_bytes h n : 
  let with_bytes f := mk_record (mk_record_header f (rh_record_header_length h) (rh_no_scanlines h) (rh_record_length h) (rh_zero h)) n in
  record_text (with_bytes [1; 23]) = record_text (with_bytes [12; 3]).
Proof. reflexivity. Qed.
Print Assumptions C216_refuted_bytes.
(** The status is zero, and the listing is written, exactly for files that hold an object. *)
Theorem C216_status prog version why a content c : a <> codes "-V" -> content a = Some c -> bytes_ok c -> Z.of_nat (List.length c) < 2 ^ 32 - 1 ->
  (forall x w tail, c = w ++ tail -> ids_bytes x w -> debug_main prog version why (Some a) content = Ok (0, ids_text x)) /\
  ((forall x w tail, c = w ++ tail -> ~ ids_bytes x w) -> exists t, debug_main prog version why (Some a) content = Ok (1, t)).
Proof.
  intros N C B L. destruct (C73_accepted_is_wellformed c B L) as (A & T). unfold debug_main. rewrite C. destruct (str_eqb_spec a (codes "-V")) as [X|_]; [contradiction|]. split.
  - intros x w tail E W. assert (R : read_file c = Ok x) by (apply A; eauto). now rewrite R.
  - intros H. destruct T as [(x & R)|R]; [apply A in R as (w & tail & E & W); exfalso; eapply H; eassumption|]. rewrite R. eauto.
Qed.
Print Assumptions C216_status.
(** A file that cannot be opened is not reported: the text of the error is destroyed before it is written. *)
Theorem C216_refuted_missing prog version why a content : a <> codes "-V" -> content a = None -> debug_main prog version why (Some a) content = UB.
Proof. intros N C. unfold debug_main. rewrite C. destruct (str_eqb_spec a (codes "-V")) as [X|_]; [contradiction|reflexivity]. Qed.
Print Assumptions C216_refuted_missing.
Example C216_case : consistent sample /\ firstn 118 (ids_text sample) = codes "-- * OpenMTP-IDS * --" ++ [10] ++ codes "FileHeader :" ++ [10] ++ codes "  fortran bytes        : " ++ [34] ++ codes "01" ++ [34; 10] ++ codes "  number of records    : 4" ++ [10] ++ codes "  year                 : 1".
Proof. split; [exact C39_case|reflexivity]. Qed.
Example C216_line : scan_line_text (sample_line 2 [5; 6]) =
  codes "ScanLine :" ++ [10] ++ codes "  number of linepixels : 2" ++ [10] ++ codes "LineHeader :" ++ [10] ++ codes "  length               : 20" ++ [10] ++ codes "  line                 : 2" ++ [10] ++ codes "  start                : 1" ++ [10] ++
  codes "  no_pixels            : 2" ++ [10] ++ codes "  channel_id           : 2" ++ [10] ++ codes "  quality              : 0" ++ [10] ++ codes "  pad                  : 0, 65535" ++ [10].
Proof. reflexivity. Qed.
(** ** Every number of the file header has its name in front of it. *)
Definition to_20 (s : string) : str := codes s ++ repeat 32 (20 - List.length (codes s)).
Definition named (h : file_header) : list (string * Z) :=
  [("number of records", fh_no_records h); ("year", fh_year h); ("julian_day", fh_julian_day h); ("hour", fh_hour h); ("minute", fh_minute h);
   ("process year", fh_process_year h); ("process julian_day", fh_process_julian_day h); ("process hour", fh_process_hour h); ("process minute", fh_process_minute h);
   ("number of channels", fh_no_channels h); ("vis channel id", fh_vis_id h); ("wv channel id", fh_wv_id h); ("ir channel id", fh_ir_id h);
   ("satellite id", fh_satellite_id h); ("record length", fh_record_length h); ("vis no average", fh_no_vis_average h); ("wv no average", fh_no_wv_average h); ("ir no average", fh_no_ir_average h);
   ("averaging type", fh_averaging_type h); ("sample interval", fh_sample_interval h); ("ir calibration", fh_ir_calibration h); ("wv calibration", fh_wv_calibration h);
   ("fine adjustment", fh_fine_adjustment h); ("ir space count", fh_ir_space_count h); ("wv space count", fh_wv_space_count h)].
Lemma items_in p l r : In p l -> exists a b, items l ++ 10 :: r = a ++ item p ++ 10 :: b.
Proof.
  intros I. apply in_split in I as (l1 & l2 & ->). destruct (items_start l2 r) as (q & Q). exists (items l1), q. unfold items in *. rewrite flat_map_app. cbn [flat_map]. rewrite <- !app_assoc. now rewrite Q.
Qed.
Definition shown_in (t : str) (p : string * Z) : Prop := exists a b, t = a ++ [10] ++ codes "  " ++ to_20 (fst p) ++ codes " : " ++ print (snd p) ++ [10] ++ b.
Lemma shown_items s v l r pre t : In (s, v) l -> t = pre ++ items l ++ 10 :: r -> forall n, codes s = to_20 n -> shown_in t (n, v).
Proof.
  intros I -> n E. destruct (items_in _ _ r I) as (a & b & ->). exists (pre ++ a), b. unfold item. cbn [fst snd]. rewrite E, <- !app_assoc. reflexivity.
Qed.
Theorem C216_names x : Forall (shown_in (ids_text x)) (named (id_header x)).
Proof.
  unfold ids_text, file_header_text. set (h := id_header x). 
  match goal with |- context [fortran_text (fh_fortran h) ++ items ?a ++ _ ++ _ ++ _ ++ _ ++ _ ++ items ?b ++ _] => set (l1 := a); set (l2 := b) end.
  set (t := codes "-- * OpenMTP-IDS * --" ++ _).
  assert (T1 : exists pre r, t = pre ++ items l1 ++ 10 :: r). { eexists (codes "-- * OpenMTP-IDS * --" ++ [10] ++ codes "FileHeader :" ++ fortran_text (fh_fortran h)), _. unfold t. rewrite <- !app_assoc. reflexivity. }
  assert (T2 : exists pre r, t = pre ++ items l2 ++ 10 :: r). { eexists (codes "-- * OpenMTP-IDS * --" ++ [10] ++ codes "FileHeader :" ++ fortran_text (fh_fortran h) ++ items l1 ++ [10] ++ codes "  satellite            : " ++ [34] ++ fh_satellite h ++ [34]), _. unfold t. rewrite <- !app_assoc. reflexivity. }
  destruct T1 as (p1 & r1 & T1), T2 as (p2 & r2 & T2). clearbody t. unfold named.
  repeat (apply Forall_cons; [first [eapply (shown_items _ _ l1 r1 p1 t); [cbn [l1 In]; intuition reflexivity|exact T1|reflexivity] | eapply (shown_items _ _ l2 r2 p2 t); [cbn [l2 In]; intuition reflexivity|exact T2|reflexivity]]|]). apply Forall_nil.
Qed.
Print Assumptions C216_names.
