(** Properties C21 to C25, C65 and C66. *)
From Verif Require Import BaseFacts HeaderModel FileAccessModel FileAccessSpec FileAccessProofs.
Open Scope string_scope.
Open Scope list_scope.
Open Scope Z_scope.
Notation C_suffix := [45; 67; 95] (only parsing).

(** C21 *)
Theorem C21_short_names_parse_back : forall (d s : list Z) (p : product),
  located d (short_name p) s -> without 47 (short_name p) ->
  without 58 (pr_res p) -> without 58 (pr_pid1 p) -> without 58 (pr_pid2 p) ->
  (forall t, s <> t ++ C_suffix) ->
  parse s = Ok (mk_fa d (pr_res p) (pr_pid1 p) (pr_pid2 p) (pr_time p)).
Proof. exact short_parse. Qed.
Print Assumptions C21_short_names_parse_back.
(** and nothing else is accepted in that form: the parts read spell the name. *)
Theorem C21_parse_is_faithful : forall (s : list Z) (fa : fileaccess),
  (forall t, s <> t ++ C_suffix) -> parse s = Ok fa ->
  let p := mk_prod (fa_res fa) (fa_pid1 fa) (fa_pid2 fa) (fa_timing fa) in
  located (fa_dir fa) (short_name p) s /\ without 47 (short_name p) /\
  without 58 (fa_res fa) /\ without 58 (fa_pid1 fa) /\ without 58 (fa_pid2 fa).
Proof. exact short_parse_inv. Qed.
Print Assumptions C21_parse_is_faithful.
Example C21_case : let s := codes "/data/a:b/H:MSG2:VIS006:200807150900" in
  located (codes "/data/a:b") (short_name (mk_prod (codes "H") (codes "MSG2") (codes "VIS006") (codes "200807150900"))) s /\
  parse s = Ok (mk_fa (codes "/data/a:b") (codes "H") (codes "MSG2") (codes "VIS006") (codes "200807150900")) /\
  parse (codes "/H:a:b:c:d") = Ok (mk_fa (codes "/") (codes "H") (codes "a") (codes "b") (codes "c:d")).
Proof. split; [|split; vm_compute; reflexivity]. apply (loc_dir (codes "/data/a:b")). discriminate. Qed.

(** C22 *)
Theorem C22_segment_names_parse_back : forall (d s : list Z) (p : product) (n : list Z),
  good_product p -> segment_name p n -> located d n s ->
  parse s = Ok (mk_fa d (pr_res p) (pr_pid1 p) (pr_pid2 p) (pr_time p)).
Proof. exact segment_parse. Qed.
Print Assumptions C22_segment_names_parse_back.
Definition demo_product : product :=
  mk_prod (codes "H") (codes "MSG1") (codes "IR_039") (codes "200611130800").
Definition demo_name : list Z := codes "H-000-MSG1__-MSG1________-IR_039___-000001___-200611130800-C_".
Example demo_good : good_product demo_product /\ plain_product demo_product.
Proof.
  assert (T : forall l b, b <> 95 -> trimmed (l ++ [b])) by (intros l b H; exists l, b; auto).
  unfold good_product, plain_product, good_field, without, plain. cbn.
  repeat match goal with
  | |- _ /\ _ => split
  | |- trimmed _ => first [apply (T (codes "MSG")); lia | apply (T (codes "IR_03")); lia | apply (T (codes "20061113080")); lia]
  | |- Forall _ _ => constructor
  | |- _ => cbn; lia
  end.
Qed.
Example demo_segment : segment_name demo_product demo_name.
Proof.
  refine (seg_name demo_product (codes "000") (codes "MSG1__") (codes "MSG1________") (codes "IR_039___") (codes "00001")
    eq_refl _ _ eq_refl _ _ _ _ eq_refl _ _); try (unfold without; cbn; lia).
  - exists 8%nat. split; reflexivity.
  - exists 3%nat. split; reflexivity.
Qed.
Example C22_case : parse (codes "/foo/bar/" ++ demo_name) =
  Ok (mk_fa (codes "/foo/bar") (codes "H") (codes "MSG1") (codes "IR_039") (codes "200611130800")).
Proof. vm_compute. reflexivity. Qed.

(** C23: what the search finds, for any directory listing. *)
Theorem C23_search : forall (ls : list Z -> list (list Z)) (d : list Z) (p : product),
  good_product p -> plain_product p ->
  (forall path, (exists fs, segmentFiles ls (of_product d p) = Ok fs /\ In path fs) <->
     exists n, path = d ++ 47 :: n /\ In n (ls d) /\ segment_like p n) /\
  (segmentFiles ls (of_product d p) = Throw <-> forall n, In n (ls d) -> ~ segment_like p n) /\
  (forall fs, segmentFiles ls (of_product d p) = Ok fs -> NoDup (ls d) -> NoDup fs).
Proof. exact search_spec. Qed.
Print Assumptions C23_search.
(** The search started from the parsed name of one segment file: among files
    with standard names it returns those of the same product, and only those. *)
Theorem C23_same_product : forall (ls : list Z -> list (list Z)) (d s n : list Z) (p : product) (fa : fileaccess),
  good_product p -> plain_product p -> segment_name p n -> located d n s -> parse s = Ok fa -> In n (ls d) ->
  exists fs, segmentFiles ls fa = Ok fs /\ In (d ++ 47 :: n) fs /\
  forall n' p', In n' (ls d) -> good_product p' -> segment_name p' n' ->
    (In (d ++ 47 :: n') fs <-> p' = p).
Proof.
  intros ls d s n p fa G P Hs L Hp Hin. rewrite (segment_parse d s p n G Hs L) in Hp.
  apply Ok_inj in Hp. subst fa. fold (of_product d p).
  destruct (search_spec ls d p G P) as (S1 & _ & _).
  destruct (proj2 (S1 (d ++ 47 :: n))) as (fs & E & Hf).
  { exists n. split; [reflexivity|]. split; [exact Hin|]. now apply name_like. }
  exists fs. split; [exact E|]. split; [exact Hf|]. intros n' p' Hin' G' Hs'. split.
  - intros H. destruct (proj1 (S1 (d ++ 47 :: n'))) as (n2 & E2 & _ & H2); [eauto|].
    apply app_inv_head in E2. injection E2 as <-. exact (like_same_product p p' n' G G' Hs' H2).
  - intros ->. destruct (proj2 (S1 (d ++ 47 :: n'))) as (fs' & E' & H').
    { exists n'. split; [reflexivity|]. split; [exact Hin'|]. now apply name_like. }
    rewrite E in E'. apply Ok_inj in E'. now subst fs'.
Qed.
Print Assumptions C23_same_product.
Definition demo_ls (d : list Z) : list (list Z) :=
  [ codes "H-000-MSG1__-MSG1________-IR_039___-000002___-200611130800-C_"; demo_name;
    codes "H-000-MSG1__-MSG1________-IR_087___-000001___-200611130800-C_";
    codes "H-000-MSG1__-MSG1________-_________-PRO______-200611130800-__";
    codes "H-000-MSG1__-MSG1________-IR_039___-000001___-200611130815-C_" ].
Example C23_case : exists fa, parse (codes "data/" ++ demo_name) = Ok fa /\
  segmentFiles demo_ls fa = Ok [codes "data/H-000-MSG1__-MSG1________-IR_039___-000002___-200611130800-C_";
                                (codes "data/" ++ demo_name)%list] /\
  prologueFile demo_ls fa = Ok (codes "data/H-000-MSG1__-MSG1________-_________-PRO______-200611130800-__") /\
  epilogueFile demo_ls fa = Throw.
Proof. eexists. split; [vm_compute; reflexivity|]. repeat split; vm_compute; reflexivity. Qed.

(** C24: the full statement is false in three ways. *)
Theorem C24_refuted_colons_in_directory : exists s, isValid s = true /\ parse s = Throw.
Proof. exists (codes "a:b:c:d/xyz"). split; vm_compute; reflexivity. Qed.
Print Assumptions C24_refuted_colons_in_directory.
Theorem C24_refuted_empty_id_undefined : exists s, isValid s = true /\ parse s = UB.
Proof. exists (codes "H-000-MSG1__--IR_039___-000001___-200611130800-C_"). split; vm_compute; reflexivity. Qed.
Print Assumptions C24_refuted_empty_id_undefined.
Theorem C24_refuted_incomplete : exists s fa, isValid s = true /\ parse s = Ok fa /\ ensureComplete fa = Throw.
Proof. exists (codes ":::"). eexists. repeat split; vm_compute; reflexivity. Qed.
Print Assumptions C24_refuted_incomplete.
(** What holds: the parser accepts nothing isValid rejects; *)
Theorem C24_parsed_names_are_valid : forall (s : list Z) (fa : fileaccess), parse s = Ok fa -> isValid s = true.
Proof. exact parse_is_valid. Qed.
Print Assumptions C24_parsed_names_are_valid.
(** names in the short form with three colons after the last slash are parsed,
    all others are refused with an exception; *)
Theorem C24_short_form_partial : forall d n s : list Z, located d n s -> without 47 n ->
  (forall t, s <> t ++ C_suffix) ->
  ((3 <= count_occ Z.eq_dec n 58%Z)%nat <-> exists fa, parse s = Ok fa) /\
  ((count_occ Z.eq_dec n 58%Z < 3)%nat -> parse s = Throw).
Proof. intros d n s L Hn He. apply (short_accept d n s L Hn). now apply not_ends_C_short_name. Qed.
Print Assumptions C24_short_form_partial.
(** and segment names with seven dashes and no empty field are parsed into a
    complete description. *)
Theorem C24_segment_form_partial : forall n d s res nnn sat f4 f5 num f7 r : list Z,
  located d n s -> without 47 n -> n = join 45 [res; nnn; sat; f4; f5; num; f7; r] ->
  (exists t, s = t ++ C_suffix) -> Forall (without 45) [res; nnn; sat; f4; f5; num; f7] ->
  d <> [] -> res <> [] -> f4 <> [] -> f5 <> [] -> f7 <> [] ->
  exists fa, parse s = Ok fa /\ ensureComplete fa = Ok tt.
Proof.
  intros n d s res nnn sat f4 f5 num f7 r L Hn En He HF Hd Hr N4 N5 N7.
  destruct (segment_accept n d s res nnn sat f4 f5 num f7 r L Hn En (proj2 (ends_C_spec s) He) HF N4 N5 N7)
    as (fa & E & Ed & Er & H). exists fa. split; [exact E|]. apply complete_spec. rewrite Ed, Er. tauto.
Qed.
Print Assumptions C24_segment_form_partial.
Example C24_case : exists s, isValid s = true /\ (exists t, s = t ++ C_suffix) /\
  (let! fa := parse s in ensureComplete fa) = Ok tt.
Proof. exists demo_name. split; [reflexivity|]. split; [eexists; apply (eq_sym (firstn_skipn 58 demo_name))|]. vm_compute. reflexivity. Qed.

(** C25 *)
Theorem C25_unpad_pad : forall (l : list Z) (w : nat), trimmed l -> (List.length l <= w)%nat ->
  deunderscore (underscoreit l w) = Ok l.
Proof. intros l w T H. exact (deunderscore_of_padded l w _ T (underscoreit_padded l w H)). Qed.
Print Assumptions C25_unpad_pad.
Theorem C25_width : forall (l : list Z) (w : nat), List.length (underscoreit l w) = w.
Proof. exact underscoreit_length. Qed.
Print Assumptions C25_width.
(** Unpadding any non-empty string removes underscores from its end only, and
    all of them except that one character is always kept. *)
Theorem C25_unpad_any : forall s : list Z, s <> [] ->
  exists l k, deunderscore s = Ok l /\ s = l ++ repeat 95 k /\ (trimmed l \/ l = [95]).
Proof. exact deunderscore_general. Qed.
Print Assumptions C25_unpad_any.
Example C25_case : underscoreit (codes "IR_039") 9 = codes "IR_039___" /\ deunderscore (codes "IR_039___") = Ok (codes "IR_039").
Proof. split; vm_compute; reflexivity. Qed.

(** C65: a product description switched to another channel finds exactly the
    files of that channel. *)
Theorem C65_sibling_channel : forall (ls : list Z -> list (list Z)) (d s n chan : list Z) (p : product) (fa : fileaccess),
  good_product p -> segment_name p n -> located d n s -> parse s = Ok fa ->
  let p' := mk_prod (pr_res p) (pr_pid1 p) chan (pr_time p) in
  good_product p' -> plain_product p' ->
  (forall path, (exists fs, segmentFiles ls (parse_channel fa chan) = Ok fs /\ In path fs) <->
     exists n, path = d ++ 47 :: n /\ In n (ls d) /\ segment_like p' n).
Proof.
  intros ls d s n chan p fa G Hs L Hp p' G' P'. rewrite (segment_parse d s p n G Hs L) in Hp.
  apply Ok_inj in Hp. subst fa. exact (proj1 (search_spec ls d p' G' P')).
Qed.
Print Assumptions C65_sibling_channel.
Example C65_case : (let! fa := parse (codes "data/" ++ demo_name) in segmentFiles demo_ls (parse_channel fa (codes "IR_087"))) =
  Ok [codes "data/H-000-MSG1__-MSG1________-IR_087___-000001___-200611130800-C_"].
Proof. vm_compute. reflexivity. Qed.

(** C66: the prologue (epilogue) is returned exactly if one and only one file
    has its name; segments are never taken for it. *)
Theorem C66_unique_prologue : forall (tag : list Z) (ls : list Z -> list (list Z)) (d : list Z) (p : product) (path : list Z),
  tag = PRO \/ tag = EPI -> good_product p -> plain_product p ->
  (aux_file tag ls (of_product d p) = Ok path <->
   exists n l1 l2, path = d ++ 47 :: n /\ ls d = l1 ++ n :: l2 /\ aux_like tag p n /\
     Forall (fun m => ~ aux_like tag p m) (l1 ++ l2)).
Proof.
  intros tag ls d p path HT G P. apply aux_spec; try assumption.
  - destruct HT as [-> | ->]; unfold without; cbn; lia.
  - destruct HT as [-> | ->]; unfold plain, PRO, EPI; cbn; repeat (first [apply Forall_nil | apply Forall_cons; [lia|]]).
Qed.
Print Assumptions C66_unique_prologue.
Theorem C66_kinds_are_disjoint : forall (tag : list Z) (p p' : product) (n : list Z), aux_like tag p n -> ~ segment_like p' n.
Proof. exact aux_never_segment. Qed.
Print Assumptions C66_kinds_are_disjoint.
Example C66_case : aux_like PRO demo_product (codes "H-000-MSG1__-MSG1________-_________-PRO______-200611130800-__") /\
  prologueFile (fun d => demo_ls d ++ demo_ls d)%list (of_product (codes ".") demo_product) = Throw.
Proof.
  split; [|vm_compute; reflexivity].
  refine (aux_like_intro PRO demo_product (codes "000") (codes "MSG1__") (codes "MSG1________") eq_refl eq_refl _).
  exists 8%nat. split; reflexivity.
Qed.
