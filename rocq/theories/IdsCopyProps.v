(** C180: copying OpenMTP-IDS files. *)
From Verif Require Import Base BaseFacts IdsModel IdsSpec IdsBytes IdsProofs IdsProps IdsToolModel IdsCopyModel.
Open Scope string_scope.
Open Scope list_scope.
Open Scope Z_scope.

Definition readable (content : list Z) (x : ids) : Prop :=
  bytes_ok content /\ Z.of_nat (List.length content) < 2 ^ 32 - 1 /\ exists w tail, content = w ++ tail /\ ids_bytes x w.
(** The bytes of the copy, from those of the original. *)
Lemma readable_copy content x : readable content x ->
  read_file content = Ok x /\ exists w, write_ids x = Ok w /\ ids_bytes x w /\ (List.length w <= List.length content)%nat.
Proof.
  intros (B & L & W). split; [now apply read_file_bytes|]. destruct W as (w & tail & -> & W).
  destruct (write_ids_bytes _ _ W) as (w' & E & W' & Lw). exists w'. repeat split; auto. rewrite app_length. lia.
Qed.
(** A file holding an image is copied: success, the copy holds the same image and no
    other file is touched; a copy of the copy is the same bytes. *)
Theorem C180_copy_partial name content x d : name <> "-V" -> d name = Some content -> readable content x ->
  exists w d', copy_main true Accepts name d = Ok (0, d') /\
    d' "test.omtp-ids" = Some w /\ read_file w = Ok x /\ ids_bytes x w /\ (List.length w <= List.length content)%nat /\
    (forall n, n <> "test.omtp-ids" -> d' n = d n) /\
    exists d'', copy_main true Accepts "test.omtp-ids" d' = Ok (0, d'') /\ forall n, d'' n = d' n.
Proof.
  intros V E R. destruct (readable_copy _ _ R) as (Rd & w & Ew & W & Lw). pose proof (C39_any_padding _ _ W) as Rw.
  exists w, (put_file d COPY w). unfold copy_main at 1. destruct (String.eqb_spec name "-V") as [?|_]; [contradiction|]. rewrite E, Rd. cbn [bind]. unfold write_file_ids. rewrite Ew. cbn [bind fst snd].
  split; [reflexivity|]. assert (P : put_file d COPY w "test.omtp-ids" = Some w) by reflexivity. do 4 (split; [assumption|]). split.
  - intros n N. unfold put_file. destruct (String.eqb_spec n COPY); [contradiction|reflexivity].
  - exists (put_file (put_file d COPY w) COPY w). split; [|intros n; unfold put_file; now destruct (String.eqb n COPY)].
    unfold copy_main. rewrite P, Rw. cbn [bind]. unfold write_file_ids. rewrite Ew. reflexivity.
Qed.
Print Assumptions C180_copy_partial.
(** Anything else is refused and no file is touched. *)
Theorem C180_refused can dev name content d : name <> "-V" -> d name = Some content -> bytes_ok content -> Z.of_nat (List.length content) < 2 ^ 32 - 1 ->
  (forall x, ~ readable content x) -> copy_main can dev name d = Ok (1, d).
Proof.
  intros V E B L N. unfold copy_main. destruct (String.eqb_spec name "-V") as [?|_]; [contradiction|]. rewrite E.
  destruct (C73_accepted_is_wellformed content B L) as [A [[x X]| ->]]; [|reflexivity]. destruct (N x). split; [exact B|split; [exact L|]]. now apply A.
Qed.
Print Assumptions C180_refused.
(** A missing file, and a copy that cannot be made or written: a destroyed text is
    printed. *)
Theorem C180_refuted_message name d : name <> "-V" ->
  (d name = None -> forall can dev, copy_main can dev name d = UB) /\
  (forall content x, d name = Some content -> readable content x ->
     (forall dev, copy_main false dev name d = UB) /\ forall k, copy_main true (FailsEarly k) name d = UB).
Proof.
  intros V. unfold copy_main. destruct (String.eqb_spec name "-V") as [?|_]; [contradiction|]. split; [intros -> can dev; reflexivity|].
  intros content x E R. destruct (readable_copy _ _ R) as (Rd & w & Ew & W & Lw). rewrite E, Rd. cbn [bind]. split; [reflexivity|].
  intros k. unfold write_file_ids. rewrite Ew. reflexivity.
Qed.
Print Assumptions C180_refuted_message.
(** A copy cut off when it is closed: success, although the copy cannot be read. *)
Theorem C180_refuted_cut name content x d k w : name <> "-V" -> d name = Some content -> readable content x ->
  write_ids x = Ok w -> (k < List.length w)%nat ->
  exists d' c, copy_main true (FailsAtClose k) name d = Ok (0, d') /\ d' "test.omtp-ids" = Some c /\ read_file c = Throw.
Proof.
  intros V E R Ew K. pose proof (proj1 (proj2 R)) as L. destruct (readable_copy _ _ R) as (Rd & w' & Ew' & W & Lw). rewrite Ew in Ew'. apply Ok_inj in Ew' as <-.
  exists (put_file d COPY (firstn k w)), (firstn k w). unfold copy_main. destruct (String.eqb_spec name "-V") as [?|_]; [contradiction|]. rewrite E, Rd. cbn [bind]. unfold write_file_ids. rewrite Ew. cbn [bind fst snd].
  split; [reflexivity|]. split; [reflexivity|]. apply (C40_prefixes_rejected x _ (skipn k w)).
  - now rewrite firstn_skipn.
  - intros H. apply (f_equal (@List.length Z)) in H. rewrite skipn_length in H. cbn in H. lia.
  - rewrite firstn_length. lia.
Qed.
Print Assumptions C180_refuted_cut.

(** A header of 62 bytes whose length field leaves two bytes of padding, one record with
    one line of two pixels, and a byte after the end. *)
Definition one_line : ids :=
  mk_ids (mk_file_header [0; 1] 2 1995 32 12 0 1995 32 12 30 3 1 6 4 (codes "METEOSAT") 20 60 1 1 1 0 1 0 0 0 0 0)
         [mk_record (mk_record_header [0; 1] 8 1 100 0) [mk_scan_line (mk_line_header 18 1 1 2 4 0 0 0) [7; 9]]].
Definition one_file : list Z := match write_ids one_line with Ok w => firstn 60 w ++ [5; 5] ++ skipn 62 w ++ [33] | _ => [] end.
Example C180_case : read_file one_file = Ok one_line /\ List.length one_file = 91%nat /\
  (match copy_main true Accepts "a" (fun n => if String.eqb n "a" then Some one_file else None) with
   | Ok (s, d) => (s, d "a", option_map (@List.length Z) (d "test.omtp-ids"), option_map (firstn 3) (option_map (skipn 60) (d "test.omtp-ids")))
   | _ => (9, None, None, None) end) = (0, Some one_file, Some 90%nat, Some [0; 0; 0]).
Proof. vm_compute. repeat split. Qed.
