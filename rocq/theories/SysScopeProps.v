(** C183, C184: settings changed or saved for the lifetime of an object. *)
From Verif Require Import Base BaseFacts SysScopeModel.

(** ** C183 *)
(** The program changes limits through the objects only, and only those around it. *)
Fixpoint through_objects (depth : nat) (p : prog) : Prop :=
  match p with
  | Skip | Raise | Look _ => True
  | Set_ n _ => (n < depth)%nat
  | Direct _ _ => False
  | Seq p q => through_objects depth p /\ through_objects depth q
  | Override _ _ b => through_objects (S depth) b
  end.
Definition sound (l : limits) : Prop := forall r, cur (l r) <= max (l r).
Lemma setrlimit_inv l r v l' : setrlimit l r v = Some l' -> cur v <= max v /\ max v <= max (l r) /\ l' = put_limit l r v.
Proof. unfold setrlimit. destruct (Z.leb_spec (cur v) (max v)); [|discriminate]. destruct (Z.leb_spec (max v) (max (l r))); [|discriminate]. cbn [andb]. intros H1. injection H1 as <-. auto. Qed.
Lemma put_same l r v : put_limit l r v r = v.
Proof. unfold put_limit. now rewrite Z.eqb_refl. Qed.
Lemma put_other l r v q : q <> r -> put_limit l r v q = l q.
Proof. intros N. unfold put_limit. destruct (Z.eqb_spec q r); [contradiction|reflexivity]. Qed.
(** The invariant: hard limits never change, and resources of no object around stay. *)
Lemma run_inv : forall p (objs : list object) l, through_objects (List.length objs) p -> sound l -> (forall r o, In (r, o) objs -> max o = max (l r) /\ cur o <= max o) ->
  exists t threw l', run p objs l = Ok (t, threw, l') /\ sound l' /\ (forall r, max (l' r) = max (l r)) /\ (forall r, ~ In r (map fst objs) -> l' r = l r).
Proof.
  induction p as [|p IHp q IHq|r| |n v|r v|r v b IH]; intros objs l T S0 O; cbn [run].
  - exists [], false, l. auto.
  - destruct T as [T1 T2]. destruct (IHp objs l T1 S0 O) as (t & th & l1 & -> & S1 & M1 & K1). cbn [bind]. destruct th; [exists t, true, l1; auto|].
    destruct (IHq objs l1 T2 S1) as (t' & th' & l2 & -> & S2 & M2 & K2); [intros r o I; rewrite M1; now apply O|]. cbn [bind]. exists (t ++ t'), th', l2. repeat split; auto; intros r; [now rewrite M2|]. intros N. rewrite K2, K1; auto.
  - exists [cur (l r)], false, l. auto.
  - exists [], true, l. auto.
  - cbn [through_objects] in T. destruct (@nth_error object objs n) as [[r o]|] eqn:E; [|exfalso; apply nth_error_None in E; exact (Nat.lt_irrefl _ (Nat.lt_le_trans _ _ _ T E))]. unfold raising, set. cbn [fst snd]. destruct (setrlimit l r (mk_rlimit v (max o))) as [l'|] eqn:X; [|exists [], true, l; auto].
    apply setrlimit_inv in X as (A & _ & ->). cbn [cur max] in A. pose proof (nth_error_In _ _ E) as I. destruct (O _ _ I) as [OM _]. eexists [], false, _. split; [reflexivity|]. split; [|split].
    + intros q. destruct (Z.eq_dec q r) as [->|N]; [now rewrite put_same|rewrite put_other by exact N; apply S0].
    + intros q. destruct (Z.eq_dec q r) as [->|N]; [now rewrite put_same|now rewrite put_other].
    + intros q N. apply put_other. intros ->. apply N. apply in_map_iff. now exists (r, o).
  - destruct T.
  - cbn [through_objects] in T. unfold set. cbn [fst snd]. destruct (setrlimit l r (mk_rlimit v (max (l r)))) as [l1|] eqn:X; [|exists [], true, l; auto].
    apply setrlimit_inv in X as (A & _ & ->). cbn [cur max] in A. set (l1 := put_limit l r (mk_rlimit v (max (l r)))).
    assert (M1 : forall q, max (l1 q) = max (l q)) by (intros q; unfold l1; destruct (Z.eq_dec q r) as [->|N]; [now rewrite put_same|now rewrite put_other]).
    destruct (IH ((r, l r) :: objs) l1 T) as (t & th & l2 & -> & S2 & M2 & K2).
    { intros q. unfold l1. destruct (Z.eq_dec q r) as [->|N]; [now rewrite put_same|rewrite put_other by exact N; apply S0]. }
    { intros q o [I|I]; [injection I as <- <-; rewrite M1; split; [reflexivity|apply S0]|rewrite M1; now apply O]. }
    cbn [bind]. unfold setrlimit. rewrite M2, M1, Z.leb_refl. rewrite (proj2 (Z.leb_le _ _) (S0 r)). cbn [andb]. eexists t, th, _. split; [reflexivity|]. split; [|split].
    + intros q. destruct (Z.eq_dec q r) as [->|N]; [rewrite put_same; apply S0|rewrite put_other by exact N; apply S2].
    + intros q. destruct (Z.eq_dec q r) as [->|N]; [now rewrite put_same|rewrite put_other by exact N; now rewrite M2, M1].
    + intros q N. destruct (Z.eq_dec q r) as [->|N']; [now rewrite put_same|]. rewrite put_other by exact N'. rewrite K2; [unfold l1; now rewrite put_other|]. intros [H|H]; [now apply N'|contradiction].
Qed.
(** Every program of blocks, however nested and however they are left, leaves every limit
    as it found it. *)
Theorem C183_restored_partial p l : through_objects 0 p -> sound l -> exists t threw l', run p [] l = Ok (t, threw, l') /\ forall r, l' r = l r.
Proof. intros T S0. destruct (run_inv p [] l T S0) as (t & th & l' & E & _ & _ & K); [intros r o []|]. exists t, th, l'. split; [exact E|]. intros r. apply K. intros []. Qed.
Print Assumptions C183_restored_partial.
(** Within the block the limit is the one asked for, at first and after each set; a value
    above the hard limit throws and changes nothing. *)
Theorem C183_in_force r v v' q l : sound l ->
  (v <= max (l r) -> v' <= max (l r) -> through_objects 1 q ->
     exists t threw l', run (Override r v (Seq (Look r) (Seq (Set_ 0 v') (Seq (Look r) q)))) [] l = Ok (v :: v' :: t, threw, l')) /\
  (max (l r) < v -> run (Override r v q) [] l = Ok ([], true, l)).
Proof.
  intros S0. split.
  - intros V V' T. set (l1 := put_limit l r (mk_rlimit v (max (l r)))). set (l2 := put_limit l1 r (mk_rlimit v' (max (l r)))).
    assert (E1 : setrlimit l r (mk_rlimit v (max (l r))) = Some l1) by (unfold setrlimit; cbn [cur max]; rewrite (proj2 (Z.leb_le _ _) V), Z.leb_refl; reflexivity).
    assert (E2 : setrlimit l1 r (mk_rlimit v' (max (l r))) = Some l2) by (unfold setrlimit; cbn [cur max]; unfold l1; rewrite put_same; cbn [max]; rewrite (proj2 (Z.leb_le _ _) V'), Z.leb_refl; reflexivity).
    assert (M2 : forall z, max (l2 z) = max (l z)) by (intros z; unfold l2, l1; destruct (Z.eq_dec z r) as [->|N]; [now rewrite put_same|now rewrite !put_other]).
    destruct (run_inv q (@cons object (r, l r) nil) l2 T) as (t & th & l3 & E3 & S3 & M3 & _).
    { intros z. unfold l2, l1. destruct (Z.eq_dec z r) as [->|N]; [now rewrite put_same|rewrite !put_other by exact N; apply S0]. }
    { intros z o [I|[]]. injection I as <- <-. rewrite M2. split; [reflexivity|apply S0]. }
    exists t, th. cbn [run]. unfold set at 1. cbn [fst snd]. rewrite E1. cbn [bind nth_error]. unfold raising, set. cbn [fst snd]. rewrite E2. cbn [bind]. match goal with |- context [run q ?a ?b] => change (run q a b) with (run q (@cons object (r, l r) nil) l2) end. rewrite E3. cbn [bind].
    unfold setrlimit. rewrite M3, M2, Z.leb_refl, (proj2 (Z.leb_le _ _) (S0 r)). cbn [andb app]. eexists. unfold l2 at 1, l1 at 1. rewrite !put_same. reflexivity.
  - intros V. cbn [run]. unfold set, setrlimit. cbn [fst snd cur max]. destruct (Z.leb_spec v (max (l r))); [lia|reflexivity].
Qed.
Print Assumptions C183_in_force.
(** A block in which the hard limit is lowered below the soft limit there was ends the
    program. *)
Theorem C183_refuted_lowered r v n l : v <= max (l r) -> cur n <= max n -> max n < cur (l r) -> sound l ->
  run (Override r v (Direct r n)) [] l = Terminate.
Proof.
  intros V N L S0. pose proof (S0 r). cbn [run]. unfold raising, set, setrlimit. cbn [fst snd cur max]. rewrite (proj2 (Z.leb_le _ _) V), Z.leb_refl. cbn [andb]. rewrite put_same. cbn [max].
  destruct (Z.leb_spec (cur n) (max n)); [|lia]. destruct (Z.leb_spec (max n) (max (l r))); [|lia]. cbn [andb bind]. rewrite put_same. destruct (Z.leb_spec (max (l r)) (max n)); [lia|]. now rewrite andb_false_r.
Qed.
Print Assumptions C183_refuted_lowered.

(** ** C184 *)
(** The descriptor is left alone. *)
Definition leaves (fd : Z) (a : action) : Prop := match a with Touch _ _ => True | CloseFd d => d <> fd | OpenFd d _ => d <> fd end.
Lemma left_open fd : forall acts w, Forall (leaves fd) acts -> f_open (fold_left act acts w) fd = f_open w fd.
Proof.
  induction acts as [|a acts IH]; intros w F; [reflexivity|]. inversion F as [|? ? A F']; subst. cbn [fold_left]. rewrite (IH _ F'). destruct a as [f t|d|d f]; cbn [act f_open leaves] in *; [reflexivity| |]; destruct (Z.eqb_spec fd d); congruence.
Qed.
Lemma still_mine : forall acts w, f_mine (fold_left act acts w) = f_mine w.
Proof. induction acts as [|a acts IH]; intros w; [reflexivity|]. cbn [fold_left]. rewrite IH. now destruct a. Qed.
(** The file has the times it had, the others those they were given. *)
Theorem C184_times_partial fd f acts w : f_open w fd = Some f -> f_mine w f = true -> Forall (leaves fd) acts ->
  exists w', preserving fd acts w = Ok w' /\ f_times w' f = f_times w f /\ (forall g, g <> f -> f_times w' g = f_times (fold_left act acts w) g) /\
    forall d, f_open w' d = f_open (fold_left act acts w) d.
Proof.
  intros O M F. unfold preserving. rewrite O, (left_open _ _ _ F), O, still_mine, M. eexists. split; [reflexivity|]. cbn [act f_times f_open]. split; [now rewrite Z.eqb_refl|]. split; [|reflexivity]. intros g N. destruct (Z.eqb_spec g f); [contradiction|reflexivity].
Qed.
Print Assumptions C184_times_partial.
(** A file that may be read but whose times may not be set, and a descriptor closed
    meanwhile: the program ends. *)
Theorem C184_refuted_ends fd f acts w : f_open w fd = Some f ->
  (f_mine w f = false -> Forall (leaves fd) acts -> preserving fd acts w = Terminate) /\
  (forall rest, Forall (leaves fd) rest -> preserving fd (acts ++ CloseFd fd :: rest) w = Terminate).
Proof.
  intros O. unfold preserving. rewrite O. split.
  - intros M F. now rewrite (left_open _ _ _ F), O, still_mine, M.
  - intros rest F. rewrite fold_left_app. cbn [fold_left]. rewrite (left_open _ _ _ F). cbn [act f_open]. now rewrite Z.eqb_refl.
Qed.
Print Assumptions C184_refuted_ends.
(** A descriptor used for another file meanwhile: that file gets the times. *)
Theorem C184_refuted_other fd f g acts rest w : f_open w fd = Some f -> f_mine w g = true -> g <> f -> Forall (leaves fd) rest ->
  exists w', preserving fd (acts ++ CloseFd fd :: OpenFd fd g :: rest) w = Ok w' /\ f_times w' g = f_times w f.
Proof.
  intros O M N F. unfold preserving. rewrite O, fold_left_app. cbn [fold_left]. rewrite (left_open _ _ _ F). cbn [act f_open]. rewrite Z.eqb_refl, still_mine. cbn [act f_mine]. rewrite still_mine, M. eexists. split; [reflexivity|]. cbn [act f_times]. now rewrite Z.eqb_refl.
Qed.
Print Assumptions C184_refuted_other.

(** ** Cases *)
Definition two_limits : limits := fun r => if r =? 7 then mk_rlimit 1024 4096 else mk_rlimit 0 100.
Example C183_case : match run (Override 7 10 (Seq (Look 7) (Seq (Override 7 20 (Seq (Set_ 1 30) (Seq (Look 7) Raise))) (Look 7)))) [] two_limits with
  | Ok (t, threw, l) => (t, threw, l 7, l 6) | _ => ([], false, mk_rlimit 0 0, mk_rlimit 0 0) end = ([10; 30], true, mk_rlimit 1024 4096, mk_rlimit 0 100)
  /\ run (Override 7 10 (Direct 7 (mk_rlimit 5 5))) [] two_limits = Terminate /\ sound two_limits.
Proof. split; [reflexivity|]. split; [reflexivity|]. intros r. unfold two_limits. destruct (r =? 7); cbn; lia. Qed.
Definition three_files : files := mk_files (fun f => (f, f + 1)) (fun d => if d =? 3 then Some 50 else None) (fun f => negb (f =? 60)).
Example C184_case : match preserving 3 [Touch 50 (1, 1); Touch 51 (2, 2); OpenFd 4 60] three_files with Ok w => map (f_times w) [50; 51] | _ => [] end = [(50, 51); (2, 2)]
  /\ preserving 3 [CloseFd 3; OpenFd 3 60] three_files = Terminate /\ match preserving 3 [CloseFd 3; OpenFd 3 51] three_files with Ok w => f_times w 51 | _ => (0, 0) end = (50, 51).
Proof. repeat split. Qed.
