(** C181, C182: iterating over directories. *)
From Verif Require Import Base BaseFacts IniModel SysModel SysIterModel.

(** What the program holds is the same. *)
Definition same_held (h h' : held) : Prop := h_streams h' = h_streams h /\ h_fds h' = h_fds h.
(** The answers say that the directory ends here. *)
Definition ended (l : list dir_answer) : Prop := l = [] \/ exists r, l = NoMore :: r.

Lemma step_entry p c e h l : h_rest h = Entry e :: l -> advance (mk_iter p true c) h = Ok (Some (mk_iter p true (Some e)), with_rest h l).
Proof. intros E. unfold advance. cbn [it_dir it_path]. now rewrite E. Qed.
Lemma step_end p c h : ended (h_rest h) -> exists h', advance (mk_iter p true c) h = Ok (Some (mk_iter p false None), h') /\ h_streams h' = h_streams h - 1 /\ h_fds h' = h_fds h.
Proof. intros [E|[r E]]; unfold advance; cbn [it_dir it_path]; rewrite E; eexists; repeat split. Qed.
Lemma step_error c h l : h_rest h = ReadError :: l -> advance (mk_iter true true c) h = Ok (None, with_rest h l).
Proof. intros E. unfold advance. cbn [it_dir it_path]. now rewrite E. Qed.

Lemma last_shift (A : Type) (es : list A) : forall e e1, last (e1 :: es) e = last es e1.
Proof.
  assert (G : forall l (x y z : A), last (z :: l) x = last (z :: l) y) by (induction l as [|a l IH]; intros x y z; [reflexivity|exact (IH x y a)]).
  intros e e1. destruct es as [|x es]; [reflexivity|]. exact (G es e e1 x).
Qed.
(** The entries up to some place, given one after the other. *)
Lemma visit_entries body p : forall es e fuel h tail r, h_rest h = map Entry es ++ tail -> Forall (fun d => body d = true) (removelast (e :: es)) ->
  visit fuel body (mk_iter p true (Some (last es e))) (with_rest h tail) = Ok r ->
  visit (List.length es + fuel) body (mk_iter p true (Some e)) h = Ok (removelast (e :: es) ++ fst (fst r), snd (fst r), snd r).
Proof.
  induction es as [|e1 es IH]; intros e fuel h tail r E B V.
  - cbn [map app] in E. cbn [List.length Nat.add removelast app last] in *. destruct h as [st fd rs]. cbn [h_rest] in E. subst rs. unfold with_rest in V. cbn in V. rewrite V. destruct r as [[? ?] ?]. reflexivity.
  - change (removelast (e :: e1 :: es)) with (e :: removelast (e1 :: es)) in *. inversion B as [|? ? B1 B2]; subst. cbn [map app] in E.
    rewrite last_shift in V.
    cbn [List.length Nat.add visit not_end it_dir it_cur]. rewrite B1, (step_entry p _ e1 h _ E). cbn [bind fst snd].
    rewrite (IH e1 fuel (with_rest h (map Entry es ++ tail)) tail r eq_refl B2 V). reflexivity.
Qed.
Lemma begin_entry e l h : h_rest h = Entry e :: l -> begin_ true Opens h = Ok (Some (mk_iter true true (Some e)), mk_held (h_streams h + 1) (h_fds h) l).
Proof. intros E. unfold begin_, iter_of, fdopendir. exact (step_entry true None e (mk_held (h_streams h + 1) (h_fds h) (h_rest h)) l E). Qed.
(** A loop over a directory with a first entry. *)
Lemma each_from es e tail body h k r : h_rest h = map Entry (e :: es) ++ tail -> Forall (fun d => body d = true) (removelast (e :: es)) ->
  (k <= S (S (List.length tail)))%nat -> (forall f, (k <= f)%nat -> visit f body (mk_iter true true (Some (last es e))) (mk_held (h_streams h + 1) (h_fds h) tail) = Ok r) ->
  for_each true Opens body h = Ok (removelast (e :: es) ++ fst (fst r), snd (fst r), snd r).
Proof.
  intros E B K V. unfold for_each. cbn [map app] in E. rewrite (begin_entry _ _ _ E). cbn [bind fst snd].
  replace (S (S (List.length (h_rest h)))) with (List.length es + S (S (S (List.length tail))))%nat by (rewrite E; cbn [List.length]; rewrite app_length, map_length; lia).
  apply (visit_entries body true es e _ (mk_held (h_streams h + 1) (h_fds h) (map Entry es ++ tail)) tail r); [reflexivity|exact B|]. apply V. lia.
Qed.
Lemma snoc_entries (e : dirent) es : removelast (e :: es) ++ [last es e] = e :: es.
Proof.
  revert e. induction es as [|x es IH]; intros e; [reflexivity|]. change (removelast (e :: x :: es)) with (e :: removelast (x :: es)). cbn [app]. f_equal.
  rewrite last_shift. apply IH.
Qed.
Lemma in_removelast (A : Type) (a : A) l : In a (removelast l) -> In a l.
Proof. induction l as [|x [|y l] IH]; [intros []|intros []|]. change (removelast (x :: y :: l)) with (x :: removelast (y :: l)). intros [->|H]; [now left|right; now apply IH]. Qed.

(** ** C181 *)
(** Every entry once, in the order of the system, and the stream is closed. *)
Theorem C181_each_once_partial es tail body h : h_rest h = map Entry es ++ tail -> ended tail -> (forall e, In e es -> body e = true) ->
  exists h', for_each true Opens body h = Ok (es, Done, h') /\ same_held h h'.
Proof.
  intros E T B. destruct es as [|e es].
  - cbn [map app] in E. rewrite <- E in T. destruct (step_end true None (mk_held (h_streams h + 1) (h_fds h) (h_rest h)) T) as (h' & A & S1 & S2).
    exists h'. unfold for_each, begin_, iter_of, fdopendir. rewrite A. cbn [bind fst snd]. cbn [visit not_end it_dir destroy_iter]. split; [reflexivity|]. split; [rewrite S1; cbn [h_streams]; lia|exact S2].
  - destruct (step_end true (Some (last es e)) (mk_held (h_streams h + 1) (h_fds h) tail) T) as (h' & A & S1 & S2). exists h'. split; [|split; [rewrite S1; cbn [h_streams]; lia|exact S2]].
    rewrite <- (snoc_entries e es) at 1. refine (each_from es e tail body h 2 ([last es e], Done, h') E _ _ _); [|lia|].
    + apply Forall_forall. intros d D. apply B. now apply in_removelast.
    + intros f F. destruct f as [|[|f]]; [lia|lia|]. cbn [visit not_end it_dir it_cur]. rewrite B, A; [reflexivity|]. rewrite <- (snoc_entries e es). apply in_or_app. right. now left.
Qed.
Print Assumptions C181_each_once_partial.
(** A body that throws, or an error after the first entry: the exception, and the stream is
    closed all the same. *)
Theorem C181_interrupted es e tail body h : (forall d, In d es -> body d = true) ->
  (h_rest h = map Entry (es ++ [e]) ++ tail -> body e = false -> exists h', for_each true Opens body h = Ok (es ++ [e], Threw, h') /\ same_held h h') /\
  (h_rest h = map Entry (es ++ [e]) ++ ReadError :: tail -> body e = true -> exists h', for_each true Opens body h = Ok (es ++ [e], Threw, h') /\ same_held h h').
Proof.
  intros B. assert (X : exists e0 es0, es ++ [e] = e0 :: es0 /\ removelast (e0 :: es0) = es /\ last es0 e0 = e).
  { destruct es as [|a es]; [now exists e, []|]. exists a, (es ++ [e]). split; [reflexivity|]. split; [|apply last_last]. change (a :: es ++ [e]) with ((a :: es) ++ [e]). apply removelast_last. }
  destruct X as (e0 & es0 & Q & R & L). assert (F0 : Forall (fun d => body d = true) (removelast (e0 :: es0))) by (rewrite R; now apply Forall_forall). rewrite Q. split; intros E Be.
  - exists (mk_held (h_streams h + 1 - 1) (h_fds h) tail). split; [|split; cbn; lia]. rewrite <- (snoc_entries e0 es0) at 1.
    refine (each_from es0 e0 tail body h 1 ([last es0 e0], Threw, _) E F0 _ _); [lia|]. intros f F. destruct f; [lia|]. cbn [visit not_end it_dir it_cur]. rewrite L, Be. reflexivity.
  - exists (mk_held (h_streams h + 1 - 1) (h_fds h) tail). split; [|split; cbn; lia]. rewrite <- (snoc_entries e0 es0) at 1.
    refine (each_from es0 e0 (ReadError :: tail) body h 1 ([last es0 e0], Threw, _) E F0 _ _); [cbn; lia|]. intros f F. destruct f; [lia|]. cbn [visit not_end it_dir it_cur]. rewrite L, Be. reflexivity.
Qed.
Print Assumptions C181_interrupted.
(** A path that is not open has no entries, and one that cannot be opened throws; nothing
    is opened, whatever the system would answer. *)
Theorem C181_not_open o body h : for_each false o body h = Ok ([], Done, h) /\ for_each true NotOpened body h = Ok ([], Threw, h).
Proof. split; reflexivity. Qed.
Print Assumptions C181_not_open.
(** An error on the first entry, or a stream that is not made: the exception, and the
    stream or the descriptor is never closed. *)
Theorem C181_refuted_leak body h :
  (forall l, h_rest h = ReadError :: l -> exists h', for_each true Opens body h = Ok ([], Threw, h') /\ h_streams h' = h_streams h + 1) /\
  (exists h', for_each true NoStream body h = Ok ([], Threw, h') /\ h_fds h' = h_fds h + 1).
Proof.
  split.
  - intros l E. eexists. unfold for_each, begin_, iter_of, fdopendir. rewrite (step_error None (mk_held (h_streams h + 1) (h_fds h) (h_rest h)) l E). cbn [bind fst snd]. split; reflexivity.
  - eexists. split; reflexivity.
Qed.
Print Assumptions C181_refuted_leak.
(** An iterator that was moved goes through the same entries, but an error is undefined. *)
Theorem C181_refuted_moved it h l : it_dir it = true -> h_rest h = ReadError :: l -> advance (move_iter it) h = UB.
Proof. intros D E. unfold advance, move_iter. cbn [it_dir it_path]. now rewrite D, E. Qed.
Print Assumptions C181_refuted_moved.

(** ** C182 *)
(** What the entry itself is. *)
Definition own_kind (e : entry) : kind := match e with Object k => k | Link _ => KLnk end.
(** The file system tells the truth or nothing. *)
Definition truthful (e : dirent) (o : entry) : Prop :=
  de_object e = Some o /\ (forall k, o = Object k -> k <> KLnk) /\ (de_type e = None \/ de_type e = Some (own_kind o)).
Lemma kind_eqb_iff a b : kind_eqb a b = true <-> a = b.
Proof. destruct a, b; split; first [reflexivity|discriminate]. Qed.
(** The tests tell what the entry is when the file system does, or when it is no link. *)
Theorem C182_type_partial k p d e o : truthful e o -> de_type e <> None \/ (p = true /\ forall t, o <> Link t) ->
  exists b, entry_is k (mk_iter p d (Some e)) = Ok b /\ (b = true <-> own_kind o = k).
Proof.
  intros (O & N & T) H. unfold entry_is. cbn [it_cur it_path]. destruct T as [T|T]; rewrite T.
  - destruct H as [H|[-> H]]; [contradiction|]. rewrite O. destruct o as [k0|t]; [|destruct (H t eq_refl)]. cbn [stat_kind]. eexists. split; [reflexivity|apply kind_eqb_iff].
  - eexists. split; [reflexivity|apply kind_eqb_iff].
Qed.
Print Assumptions C182_type_partial.
(** A link whose type is not told is taken for what it leads to, and throws if that is
    nothing; it is never recognised as a link. *)
Theorem C182_refuted_links k d e t : truthful e (Link t) -> de_type e = None -> t <> Some KLnk ->
  entry_is k (mk_iter true d (Some e)) = match t with None => Throw | Some k' => Ok (kind_eqb k' k) end /\
  entry_is KLnk (mk_iter true d (Some e)) <> Ok true.
Proof.
  intros (O & _) T N. unfold entry_is. cbn [it_cur it_path]. rewrite T, O. cbn [stat_kind]. split; [reflexivity|]. destruct t as [k'|]; [|discriminate]. destruct k'; try discriminate. now destruct N.
Qed.
Print Assumptions C182_refuted_links.
(** After a move the test of an entry whose type is not told is undefined. *)
Theorem C182_refuted_moved k it e : it_cur it = Some e -> de_type e = None -> entry_is k (move_iter it) = UB.
Proof. intros C T. unfold entry_is, move_iter. cbn [it_cur it_path]. now rewrite C, T. Qed.
Print Assumptions C182_refuted_moved.

(** ** Cases *)
Definition dot : dirent := mk_dirent [46] (Some KDir) (Some (Object KDir)).
Definition lnk (ty : option kind) (t : option kind) : dirent := mk_dirent [97] ty (Some (Link t)).
Example C181_case : for_each true Opens (fun _ => true) (mk_held 3 7 [Entry dot; Entry (lnk None None); NoMore; ReadError]) = Ok ([dot; lnk None None], Done, mk_held 3 7 [ReadError])
  /\ for_each true Opens (fun _ => true) (mk_held 3 7 [Entry dot; ReadError]) = Ok ([dot], Threw, mk_held 3 7 [])
  /\ for_each true Opens (fun _ => true) (mk_held 3 7 [ReadError; Entry dot]) = Ok ([], Threw, mk_held 4 7 [Entry dot])
  /\ for_each false Opens (fun _ => true) (mk_held 3 7 [Entry dot]) = Ok ([], Done, mk_held 3 7 [Entry dot]).
Proof. repeat split. Qed.
Example C182_case : entry_is KLnk (mk_iter true true (Some (lnk (Some KLnk) (Some KDir)))) = Ok true
  /\ entry_is KDir (mk_iter true true (Some (lnk None (Some KDir)))) = Ok true /\ entry_is KDir (mk_iter true true (Some (lnk None None))) = Throw
  /\ truthful (lnk None (Some KDir)) (Link (Some KDir)) /\ truthful dot (Object KDir).
Proof. repeat split; try (intros k H; inversion H; discriminate); cbn; auto; discriminate. Qed.
