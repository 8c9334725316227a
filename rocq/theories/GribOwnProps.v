(** C111: the objects that own a grib_api handle, a file and the trace file.

    gdal/grib/utils.h:44-165. Resources are numbered as they are obtained. *)
From Coq Require Import List Arith Lia ZifyBool Permutation Bool.
Import ListNotations.
Open Scope list_scope.

(** utils.h:57-58 and 46 *)
Record grib := mk_grib { gh : option nat; fp : option nat; tf : option nat }.
(** The objects that were made (None: destroyed), the next resource, what was
    deleted or closed, what release_handle() gave away. *)
Record st := mk_st { objs : list (option grib); next : nat; gone : list nat; given : list nat }.
Inductive op :=
  | New (ok : bool)                   (** Grib(): whether the trace file could be opened *)
  | Wrap (ok : bool)                  (** Grib(handle), of a new handle *)
  | Move (i : nat)                    (** Grib(Grib&&) *)
  | Assign (i j : nat)                (** operator=(Grib&&) *)
  | Release (i : nat)
  | Samples (i : nat) (ok : bool)
  | FromFile (i : nat) (opened ok : bool)
  | Destroy (i : nat).
Definition opt (o : option nat) : list nat := match o with Some x => [x] | None => [] end.
Definition get (s : st) (i : nat) : option grib := match nth_error (objs s) i with Some (Some g) => Some g | _ => None end.
Fixpoint put (l : list (option grib)) (i : nat) (g : option grib) : list (option grib) :=
  match l, i with [], _ => [] | _ :: l', O => g :: l' | x :: l', S i' => x :: put l' i' g end.
Definition fresh (s : st) (ok : bool) : option nat * nat := if ok then (Some (next s), S (next s)) else (None, next s).
(** None: a call on an object that does not exist, or that writes to a trace file
    that is not open (undefined behaviour). *)
Definition step (s : st) (o : op) : option st :=
  match o with
  | New ok =>                          (* utils.h:60-65 *)
      let '(t, n) := fresh s ok in Some (mk_st (objs s ++ [Some (mk_grib None None t)]) n (gone s) (given s))
  | Wrap ok =>                         (* utils.h:66-71 *)
      let '(h, n) := fresh s true in
      let '(t, n) := if ok then (Some n, S n) else (None, n) in
      Some (mk_st (objs s ++ [Some (mk_grib h None t)]) n (gone s) (given s))
  | Move i =>                          (* utils.h:73-82 *)
      match get s i with
      | Some g => Some (mk_st (put (objs s) i (Some (mk_grib None None None)) ++ [Some g]) (next s) (gone s) (given s))
      | None => None
      end
  | Assign i j =>                      (* utils.h:92-108 *)
      if i =? j then match get s i with Some _ => Some s | None => None end
      else match get s i, get s j with
           | Some g, Some o => Some (mk_st (put (put (objs s) i (Some o)) j (Some (mk_grib None None None))) (next s)
                                           (opt (gh g) ++ opt (fp g) ++ opt (tf g) ++ gone s) (given s))
           | _, _ => None
           end
  | Release i =>                       (* utils.h:110-116 *)
      match get s i with
      | Some (mk_grib h f (Some t)) => Some (mk_st (put (objs s) i (Some (mk_grib None f (Some t)))) (next s) (gone s) (opt h ++ given s))
      | _ => None
      end
  | Samples i ok =>                    (* utils.h:118-128 *)
      match get s i with
      | Some (mk_grib _ f (Some t)) => let '(h, n) := fresh s ok in Some (mk_st (put (objs s) i (Some (mk_grib h f (Some t)))) n (gone s) (given s))
      | _ => None
      end
  | FromFile i opened ok =>            (* utils.h:145-164 *)
      match get s i with
      | Some (mk_grib h f t) =>
          if negb opened then Some (mk_st (put (objs s) i (Some (mk_grib h None t))) (next s) (gone s) (given s))
          else match t with
               | Some t => let n := S (next s) in
                           let '(h, n) := if ok then (Some n, S n) else (None, n) in
                           Some (mk_st (put (objs s) i (Some (mk_grib h (Some (next s)) (Some t)))) n (gone s) (given s))
               | None => None
               end
      | None => None
      end
  | Destroy i =>                       (* utils.h:83-89 *)
      match get s i with
      | Some g => Some (mk_st (put (objs s) i None) (next s) (opt (gh g) ++ opt (tf g) ++ opt (fp g) ++ gone s) (given s))
      | None => None
      end
  end.
Fixpoint steps (s : st) (l : list op) : option st := match l with [] => Some s | o :: l' => match step s o with Some s' => steps s' l' | None => None end end.
Definition start : st := mk_st [] 0 [] [].

(** ** Specification *)
(** A resource is with one object, closed once, or given away; never two of them. *)
Definition of_obj (o : option grib) : list nat := match o with Some g => opt (gh g) ++ opt (fp g) ++ opt (tf g) | None => [] end.
Definition held (s : st) : list nat := flat_map of_obj (objs s).
Definition places (s : st) : list nat := held s ++ gone s ++ given s.
(** new_from_samples() and new_from_file() are for objects that hold neither a
    handle nor a file. *)
Definition proper (s : st) (o : op) : Prop :=
  match o with
  | Samples i _ => forall g, get s i = Some g -> gh g = None
  | FromFile i _ _ => forall g, get s i = Some g -> gh g = None /\ fp g = None
  | _ => True
  end.
Fixpoint all_proper (s : st) (l : list op) : Prop := match l with [] => True | o :: l' => proper s o /\ match step s o with Some s' => all_proper s' l' | None => True end end.

Definition cnt (x : nat) (l : list nat) : nat := count_occ Nat.eq_dec l x.
Lemma cnt_app x a b : cnt x (a ++ b) = cnt x a + cnt x b.
Proof. unfold cnt. apply count_occ_app. Qed.
Lemma cnt_nil x : cnt x [] = 0. Proof. reflexivity. Qed.
Lemma cnt_cons x y l : cnt x (y :: l) = (if y =? x then 1 else 0) + cnt x l.
Proof. unfold cnt. cbn [count_occ]. destruct (Nat.eq_dec y x) as [->|N]; [now rewrite Nat.eqb_refl|]. apply Nat.eqb_neq in N. now rewrite N. Qed.
Definition hold (l : list (option grib)) : list nat := flat_map of_obj l.
Lemma cnt_put x y : forall l i o, nth_error l i = Some o -> cnt x (hold (put l i y)) + cnt x (of_obj o) = cnt x (hold l) + cnt x (of_obj y).
Proof.
  induction l as [|z l IH]; intros i o E; [destruct i; discriminate|]. destruct i as [|i]; cbn [nth_error] in E; cbn [put]; unfold hold; cbn [flat_map]; rewrite !cnt_app; [injection E as ->; lia|].
  specialize (IH i o E). unfold hold in IH. lia.
Qed.
Lemma cnt_end x l o : cnt x (hold (l ++ [o])) = cnt x (hold l) + cnt x (of_obj o).
Proof. unfold hold. rewrite flat_map_app, cnt_app. cbn [flat_map]. now rewrite app_nil_r. Qed.
Lemma get_nth s i g : get s i = Some g -> nth_error (objs s) i = Some (Some g).
Proof. unfold get. destruct (nth_error (objs s) i) as [[x|]|]; intros H; congruence. Qed.
Lemma nth_put l i j y : i <> j -> nth_error (put l i y) j = nth_error l j.
Proof. revert i j. induction l as [|z l IH]; intros i j N; [destruct i; reflexivity|]. destruct i, j; cbn; [contradiction|reflexivity|reflexivity|]. apply IH. lia. Qed.
Ltac ifs := repeat match goal with | |- context [if ?b then _ else _] => let Q := fresh in destruct b eqn:Q | H : context [if ?b then _ else _] |- _ => let Q := fresh in destruct b eqn:Q end; lia.
Definition fresh_in (s s' : st) (x : nat) : nat := if (next s <=? x) && (x <? next s') then 1 else 0.
Lemma step_count s o s' : step s o = Some s' -> next s <= next s' /\ (forall x, cnt x (places s') <= cnt x (places s) + fresh_in s s' x) /\
  (proper s o -> forall x, cnt x (places s') = cnt x (places s) + fresh_in s s' x).
Proof.
  intros E.
  assert (G : exists d, next s <= next s' /\ (forall x, cnt x (places s') + cnt x d = cnt x (places s) + fresh_in s s' x) /\ (proper s o -> d = [])).
  { unfold places, held, fresh_in. fold (hold (objs s)) (hold (objs s')). destruct o as [ok|ok|i|i j|i|i ok|i op ok|i]; cbn [step] in E.
    - unfold fresh in E. destruct ok; injection E as <-; exists []; cbn [objs next gone given]; (split; [lia|]; split; [|reflexivity]); intros x; rewrite !cnt_app, cnt_end; cbn [of_obj gh fp tf opt app]; rewrite ?cnt_cons, ?cnt_nil; ifs.
    - cbn in E. destruct ok; injection E as <-; exists []; cbn [objs next gone given]; (split; [lia|]; split; [|reflexivity]); intros x; rewrite !cnt_app, cnt_end; cbn [of_obj gh fp tf opt app]; rewrite ?cnt_cons, ?cnt_nil; ifs.
    - destruct (get s i) as [g|] eqn:G; [|discriminate]. injection E as <-. exists []. cbn [objs next gone given]. split; [lia|]. split; [|reflexivity]. intros x. pose proof (cnt_put x (Some (mk_grib None None None)) _ _ _ (get_nth _ _ _ G)) as P. rewrite !cnt_app, cnt_end, cnt_nil. cbn [of_obj gh fp tf opt app] in P |- *. rewrite cnt_nil in P. ifs.
    - destruct (i =? j) eqn:IJ.
      + destruct (get s i); [|discriminate]. injection E as <-. exists []. split; [lia|]. split; [|reflexivity]. intros x. rewrite cnt_nil. ifs.
      + apply Nat.eqb_neq in IJ. destruct (get s i) as [g|] eqn:G; [|discriminate]. destruct (get s j) as [h|] eqn:G'; [|discriminate]. injection E as <-. exists []. cbn [objs next gone given]. split; [lia|]. split; [|reflexivity]. intros x.
        pose proof (cnt_put x (Some h) _ _ _ (get_nth _ _ _ G)) as P. assert (N : nth_error (put (objs s) i (Some h)) j = Some (Some h)) by (rewrite nth_put by exact IJ; now apply get_nth). pose proof (cnt_put x (Some (mk_grib None None None)) _ _ _ N) as Q. cbn [of_obj gh fp tf opt app] in P, Q |- *. rewrite ?cnt_app, ?cnt_nil in *. ifs.
    - destruct (get s i) as [[h f [t|]]|] eqn:G; try discriminate. injection E as <-. exists []. cbn [objs next gone given]. split; [lia|]. split; [|reflexivity]. intros x. pose proof (cnt_put x (Some (mk_grib None f (Some t))) _ _ _ (get_nth _ _ _ G)) as P. cbn [of_obj gh fp tf] in P |- *. rewrite ?cnt_app, ?cnt_nil in *. cbn [opt] in P. rewrite ?cnt_nil in P. ifs.
    - destruct (get s i) as [[h f [t|]]|] eqn:G; try discriminate. unfold fresh in E. exists (opt h). split; [destruct ok; injection E as <-; cbn; lia|]. split; [|intros PR; cbn in PR; specialize (PR _ G); cbn in PR; now subst h]. intros x.
      destruct ok; injection E as <-; cbn [objs next gone given]; [pose proof (cnt_put x (Some (mk_grib (Some (next s)) f (Some t))) _ _ _ (get_nth _ _ _ G)) as P|pose proof (cnt_put x (Some (mk_grib None f (Some t))) _ _ _ (get_nth _ _ _ G)) as P]; cbn [of_obj gh fp tf] in P; rewrite ?cnt_app in *; cbn [opt] in P; rewrite ?cnt_cons, ?cnt_nil in *; ifs.
    - destruct (get s i) as [[h f t]|] eqn:G; [|discriminate]. destruct op; cbn [negb] in E.
      + destruct t as [t|]; [|discriminate]. exists (opt h ++ opt f). split; [destruct ok; injection E as <-; cbn; lia|]. split; [|intros PR; cbn in PR; specialize (PR _ G); cbn in PR; destruct PR; now subst]. intros x.
        destruct ok; injection E as <-; cbn [objs next gone given]; [pose proof (cnt_put x (Some (mk_grib (Some (S (next s))) (Some (next s)) (Some t))) _ _ _ (get_nth _ _ _ G)) as P|pose proof (cnt_put x (Some (mk_grib None (Some (next s)) (Some t))) _ _ _ (get_nth _ _ _ G)) as P]; cbn [of_obj gh fp tf] in P; rewrite ?cnt_app in *; cbn [opt] in P; rewrite ?cnt_cons, ?cnt_nil in *; ifs.
      + injection E as <-. exists (opt f). split; [cbn; lia|]. split; [|intros PR; cbn in PR; specialize (PR _ G); cbn in PR; destruct PR; now subst]. intros x. cbn [objs next gone given]. pose proof (cnt_put x (Some (mk_grib h None t)) _ _ _ (get_nth _ _ _ G)) as P. cbn [of_obj gh fp tf] in P. rewrite ?cnt_app in *. cbn [opt] in P. rewrite ?cnt_nil in *. ifs.
    - destruct (get s i) as [g|] eqn:G; [|discriminate]. injection E as <-. exists []. cbn [objs next gone given]. split; [lia|]. split; [|reflexivity]. intros x. pose proof (cnt_put x None _ _ _ (get_nth _ _ _ G)) as P. cbn [of_obj] in P. rewrite ?cnt_app, ?cnt_nil in *. ifs. }
  destruct G as (d & N & C & D). split; [exact N|]. split; [intros x; specialize (C x); lia|]. intros PR x. specialize (C x). rewrite (D PR), cnt_nil in C. lia.
Qed.
Definition at_most (s : st) : Prop := forall x, cnt x (places s) <= if x <? next s then 1 else 0.
Definition exactly (s : st) : Prop := forall x, cnt x (places s) = if x <? next s then 1 else 0.
Lemma steps_at_most l : forall s s', at_most s -> steps s l = Some s' -> at_most s'.
Proof.
  induction l as [|o l IH]; intros s s' A E; [injection E as <-; exact A|]. cbn [steps] in E. destruct (step s o) as [s1|] eqn:E1; [|discriminate]. apply (IH s1 s'); [|exact E]. destruct (step_count _ _ _ E1) as (N & C & _). intros x. specialize (A x). specialize (C x). unfold fresh_in in C. destruct (next s <=? x) eqn:?, (x <? next s1) eqn:?, (x <? next s) eqn:?; cbn in C; lia.
Qed.
Lemma steps_exactly l : forall s s', exactly s -> all_proper s l -> steps s l = Some s' -> exactly s'.
Proof.
  induction l as [|o l IH]; intros s s' A P E; [injection E as <-; exact A|]. cbn [steps] in E. cbn [all_proper] in P. destruct P as [P1 P2]. destruct (step s o) as [s1|] eqn:E1; [|discriminate]. apply (IH s1 s'); [|exact P2|exact E]. destruct (step_count _ _ _ E1) as (N & _ & C). intros x. specialize (A x). specialize (C P1 x). unfold fresh_in in C. destruct (next s <=? x) eqn:?, (x <? next s1) eqn:?, (x <? next s) eqn:?; cbn in C; lia.
Qed.
(** Whatever is done with the objects, a handle or file is closed at most once, is
    with at most one object, and what an object holds has been neither closed nor
    given away. *)
Theorem C111_closed_once l s : steps start l = Some s -> NoDup (held s ++ gone s ++ given s) /\ forall x, In x (held s ++ gone s ++ given s) -> x < next s.
Proof.
  intros E. assert (A : at_most s) by (apply (steps_at_most l start); [intros x; cbn; lia|exact E]). split.
  - apply (NoDup_count_occ Nat.eq_dec). intros x. specialize (A x). unfold cnt, places in A. destruct (x <? next s); lia.
  - intros x I. apply (count_occ_In Nat.eq_dec) in I. specialize (A x). unfold cnt, places in A. destruct (x <? next s) eqn:B; [now apply Nat.ltb_lt|lia].
Qed.
Print Assumptions C111_closed_once.
(** Nothing is lost when new_from_samples() and new_from_file() are called on
    objects that hold nothing: once the objects are destroyed everything that was
    opened has been closed or given away. *)
Theorem C111_nothing_lost_partial l s : all_proper start l -> steps start l = Some s -> (forall x, x < next s -> In x (held s ++ gone s ++ given s)) /\
  (Forall (fun o => o = None) (objs s) -> Permutation (gone s ++ given s) (seq 0 (next s))).
Proof.
  intros P E. assert (A : exactly s) by (apply (steps_exactly l start); [intros x; reflexivity|exact P|exact E]).
  assert (I : forall x, x < next s -> In x (held s ++ gone s ++ given s)) by (intros x B; apply (count_occ_In Nat.eq_dec); specialize (A x); unfold cnt, places in A; apply Nat.ltb_lt in B; rewrite B in A; lia).
  split; [exact I|]. intros D. destruct (C111_closed_once _ _ E) as [N B]. assert (H : held s = []) by (unfold held; induction D as [|o os -> _ IH]; [reflexivity|exact IH]). rewrite H in *. cbn [app] in *.
  apply NoDup_Permutation; [exact N|apply seq_NoDup|]. intros x. rewrite in_seq. split; [intros IX; specialize (B _ IX); lia|intros; apply I; lia].
Qed.
Print Assumptions C111_nothing_lost_partial.
(** Without this the first handle is lost. *)
Theorem C111_refuted_overwrite l s i h f t ok s' : steps start l = Some s -> get s i = Some (mk_grib (Some h) f (Some t)) -> step s (Samples i ok) = Some s' ->
  h < next s' /\ ~ In h (held s' ++ gone s' ++ given s') /\ forall l' s'', steps s' l' = Some s'' -> ~ In h (held s'' ++ gone s'' ++ given s'').
Proof.
  intros E G E1.
  assert (HB : h < next s /\ cnt h (places s) = 1 /\ next s <= next s').
  { destruct (C111_closed_once _ _ E) as [N B]. assert (I : In h (held s ++ gone s ++ given s)). { apply in_or_app. left. unfold held. apply in_flat_map. exists (Some (mk_grib (Some h) f (Some t))). split; [eapply nth_error_In; apply get_nth; exact G|now left]. }
    split; [now apply B|]. split; [|exact (proj1 (step_count _ _ _ E1))]. rewrite (NoDup_count_occ Nat.eq_dec) in N. apply (count_occ_In Nat.eq_dec) in I. specialize (N h). unfold cnt, places. lia. }
  destruct HB as (B & C & NX).
  assert (C' : cnt h (places s') = 0).
  { cbn [step] in E1. rewrite G in E1. unfold fresh in E1. unfold places, held in C |- *. fold (hold (objs s)) in C. fold (hold (objs s')). rewrite !cnt_app in *. destruct ok; injection E1 as <-; cbn [objs gone given];
    [pose proof (cnt_put h (Some (mk_grib (Some (next s)) f (Some t))) _ _ _ (get_nth _ _ _ G)) as P|pose proof (cnt_put h (Some (mk_grib None f (Some t))) _ _ _ (get_nth _ _ _ G)) as P]; cbn [of_obj gh fp tf] in P; rewrite ?cnt_app in P; cbn [opt] in P; rewrite ?cnt_cons, ?cnt_nil, ?Nat.eqb_refl in P; [destruct (next s =? h) eqn:Q; [apply Nat.eqb_eq in Q; lia|]|]; lia. }
  assert (Z : forall l' s1 s'', cnt h (places s1) = 0 -> h < next s1 -> steps s1 l' = Some s'' -> cnt h (places s'') = 0).
  { induction l' as [|o l' IH]; intros s1 s'' C1 B1 E2; [injection E2 as <-; exact C1|]. cbn [steps] in E2. destruct (step s1 o) as [s2|] eqn:E3; [|discriminate]. destruct (step_count _ _ _ E3) as (N & M & _). apply (IH s2 s''); [|lia|exact E2]. specialize (M h). unfold fresh_in in M. destruct (next s1 <=? h) eqn:Q; [apply Nat.leb_le in Q; lia|]. cbn in M. lia. }
  assert (NI : forall s1, cnt h (places s1) = 0 -> ~ In h (held s1 ++ gone s1 ++ given s1)) by (intros s1 C1 I; apply (count_occ_In Nat.eq_dec) in I; unfold cnt, places in C1; lia).
  split; [lia|]. split; [now apply NI|]. intros l' s'' E2. apply NI. apply (Z l' s'); [exact C'|lia|exact E2].
Qed.
Print Assumptions C111_refuted_overwrite.
(** A moved object can only be destroyed or assigned to: its other functions write
    to a trace file that is not there. *)
Theorem C111_refuted_moved l s i s' : steps start l = Some s -> step s (Move i) = Some s' -> step s' (Release i) = None /\ (forall ok, step s' (Samples i ok) = None) /\ (forall ok, step s' (FromFile i true ok) = None) /\
  (exists s2, step s' (Destroy i) = Some s2) /\ forall j g, get s' j = Some g -> exists s2, step s' (Assign i j) = Some s2.
Proof.
  intros E E1. cbn [step] in E1. destruct (get s i) as [g0|] eqn:G; [|discriminate]. injection E1 as <-. apply get_nth in G.
  assert (P : nth_error (put (objs s) i (Some (mk_grib None None None)) ++ [Some g0]) i = Some (Some (mk_grib None None None))).
  { assert (Q : nth_error (put (objs s) i (Some (mk_grib None None None))) i = Some (Some (mk_grib None None None))) by (revert i G; induction (objs s) as [|o os IH]; intros i G; [destruct i; discriminate|destruct i; cbn in *; [reflexivity|now apply IH]]). rewrite nth_error_app1; [exact Q|]. apply nth_error_Some. congruence. }
  assert (GI : get (mk_st (put (objs s) i (Some (mk_grib None None None)) ++ [Some g0]) (next s) (gone s) (given s)) i = Some (mk_grib None None None)) by (unfold get; cbn [objs]; now rewrite P).
  cbn [step]. rewrite GI. repeat split.
  - eexists. reflexivity.
  - intros j g Gj. destruct (i =? j); [eexists; reflexivity|]. rewrite Gj. eexists. reflexivity.
Qed.
Print Assumptions C111_refuted_moved.
(** Opening a file as the driver does: the object is moved into the dataset and
    both are destroyed. *)
Example C111_case : let l := [New true; FromFile 0 true true; Move 0; Destroy 0; Destroy 1] in
  all_proper start l /\ exists s, steps start l = Some s /\ Forall (fun o => o = None) (objs s) /\ gone s = [2; 0; 1].
Proof. cbn. split; [|eexists; repeat split; repeat constructor]. repeat split. all: injection H as <-; reflexivity. Qed.
Example C111_lost_case : exists s s' g, steps start [New true; Samples 0 true] = Some s /\ get s 0 = Some g /\ gh g = Some 1 /\ step s (Samples 0 true) = Some s'.
Proof. do 3 eexists. repeat split. Qed.
