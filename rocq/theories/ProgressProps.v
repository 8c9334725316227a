(** C185, C186: progress messages. *)
From Verif Require Import Base BaseFacts IniModel GribModel Db1Spec Db1Props ProgressModel.
Open Scope list_scope.

(** ** C185 *)
(** What a report says, as an outline: the lines with their depth, up to an exception. *)
Fixpoint outline (depth : nat) (p : report) : list (nat * str) * bool :=
  match p with
  | Nothing | Handler _ => ([], false)
  | Raise => ([], true)
  | Act s perc tot => ([(depth, activity_text s perc tot)], false)
  | Then p q => let '(a, t) := outline depth p in if t then (a, true) else let '(b, t') := outline depth q in (a ++ b, t')
  | Task d b => let '(a, t) := outline (S depth) b in ((depth, d ++ [46; 46; 46]) :: a, t)
  end.
Definition line (l : nat * str) : str := repeat 32 (fst l) ++ snd l.
Fixpoint no_handler (p : report) : Prop :=
  match p with Handler _ => False | Then p q => no_handler p /\ no_handler q | Task _ b => no_handler b | _ => True end.
(** The current handler writes, at this depth. *)
Definition writing (n : Z) (a : Z) (w : progress) : Prop := p_current w = Some a /\ p_handlers w a = Some (Stream n).
Lemma on_stream n a w f h' o : writing n a w -> f (Stream n) = (h', o) ->
  exists w', on_handler w f = Ok w' /\ p_current w' = Some a /\ p_handlers w' a = Some h' /\ p_out w' = p_out w ++ o.
Proof. intros [C H] F. unfold on_handler. rewrite C, H, F. eexists. split; [reflexivity|]. cbn. now rewrite Z.eqb_refl. Qed.
Lemma run_outline : forall p n a w, no_handler p -> writing (Z.of_nat n) a w ->
  exists w', run p w = Ok (snd (outline n p), w') /\ writing (Z.of_nat n) a w' /\ p_out w' = p_out w ++ map line (fst (outline n p)).
Proof.
  induction p as [|p IHp q IHq|s pe to| |h|d b IH]; intros n a w N W; cbn [run outline fst snd].
  - exists w. rewrite app_nil_r. auto.
  - destruct N as [N1 N2]. destruct (IHp n a w N1 W) as (w1 & E1 & W1 & O1). rewrite E1. cbn [bind fst snd]. destruct (outline n p) as [x t]. cbn [fst snd] in *. destruct t; [exists w1; auto|].
    destruct (IHq n a w1 N2 W1) as (w2 & E2 & W2 & O2). rewrite E2. exists w2. destruct (outline n q) as [y t']. cbn [fst snd] in *. split; [reflexivity|]. split; [exact W2|]. now rewrite O2, O1, map_app, app_assoc.
  - unfold activity. destruct (on_stream _ _ _ (fun h => match h with Silent => (Silent, []) | Stream n => (Stream n, [indented n (activity_text s pe to)]) end) _ _ W eq_refl) as (w' & E & C & H & O). rewrite E. cbn [bind]. exists w'. split; [reflexivity|]. split; [split; assumption|]. rewrite O. unfold indented. now rewrite Nat2Z.id.
  - exists w. rewrite app_nil_r. auto.
  - destruct N.
  - unfold push_task. destruct (on_stream _ _ _ (fun h => match h with Silent => (Silent, []) | Stream n => (Stream (n + 1), [indented n (d ++ codes "...")]) end) _ _ W eq_refl) as (w1 & E & C & H & O). rewrite E. cbn [bind].
    replace (Z.of_nat n + 1) with (Z.of_nat (S n)) in H by lia. destruct (IH (S n) a w1 N (conj C H)) as (w2 & E2 & W2 & O2). rewrite E2. cbn [bind fst snd]. unfold pop_task.
    destruct (on_stream _ _ _ (fun h => match h with Silent => (Silent, []) | Stream n => (Stream (n - 1), []) end) _ _ W2 eq_refl) as (w3 & E3 & C3 & H3 & O3). rewrite E3. cbn [bind]. replace (Z.of_nat (S n) - 1) with (Z.of_nat n) in H3 by lia.
    destruct (outline (S n) b) as [x t]. cbn [fst snd] in *. exists w3. split; [reflexivity|]. split; [split; assumption|]. rewrite O3, O2, O, app_nil_r. unfold indented. rewrite Nat2Z.id, <- app_assoc. reflexivity.
Qed.
(** With a handler that writes, set before, the output is the outline of the tasks, each
    line with one blank for each task around it, also after exceptions. *)
Theorem C185_outline_partial p a w : no_handler p -> writing 0 a w ->
  exists w', run p w = Ok (snd (outline 0 p), w') /\ p_out w' = p_out w ++ map line (fst (outline 0 p)) /\ writing 0 a w'.
Proof. intros N W. destruct (run_outline p 0 a w N W) as (w' & E & W' & O). exists w'. auto. Qed.
Print Assumptions C185_outline_partial.
(** The text of an activity: its name; the count and the total if both are given, as
    " (count/total)"; the count alone as a percentage. -1 is not given. *)
Lemma shown_number z : - 2 ^ 31 <= z < 2 ^ 31 -> is_number (shown z) z.
Proof.
  intros R. unfold shown. destruct (Z.ltb_spec z 0).
  - destruct (print_plain (- z) ltac:(lia)) as (N & F & E & _). exists (print (- z)). split; [exact N|]. split; [exact F|]. right. split; [reflexivity|lia].
  - apply plain_is_number, print_plain. lia.
Qed.
Theorem C185_text s perc tot : - 2 ^ 31 <= perc < 2 ^ 31 -> - 2 ^ 31 <= tot < 2 ^ 31 -> exists a b, is_number a perc /\ is_number b tot /\
  (perc <> -1 -> tot <> -1 -> activity_text s perc tot = s ++ [32; 40] ++ a ++ [47] ++ b ++ [41]) /\
  (perc <> -1 -> tot = -1 -> activity_text s perc tot = s ++ [32] ++ a ++ [37]) /\
  (perc = -1 -> activity_text s perc tot = s).
Proof.
  intros P T. exists (shown perc), (shown tot). split; [now apply shown_number|]. split; [now apply shown_number|]. unfold activity_text. split; [|split].
  - intros A B. replace (perc =? -1) with false by lia. replace (tot =? -1) with false by lia. reflexivity.
  - intros A ->. replace (perc =? -1) with false by lia. reflexivity.
  - intros ->. cbn [Z.eqb Pos.eqb negb andb]. apply app_nil_r.
Qed.
Print Assumptions C185_text.
(** The default handler writes nothing. *)
Theorem C185_silent p a w : no_handler p -> p_current w = Some a -> p_handlers w a = Some Silent ->
  exists t w', run p w = Ok (t, w') /\ p_out w' = p_out w /\ p_current w' = Some a /\ p_handlers w' a = Some Silent.
Proof.
  assert (S1 : forall w f, p_current w = Some a -> p_handlers w a = Some Silent -> f Silent = (Silent, []) -> exists w', on_handler w f = Ok w' /\ p_out w' = p_out w /\ p_current w' = Some a /\ p_handlers w' a = Some Silent).
  { intros w0 f C H F. unfold on_handler. rewrite C, H, F. eexists. split; [reflexivity|]. cbn. rewrite Z.eqb_refl, app_nil_r. auto. }
  revert w. induction p as [|p IHp q IHq|s pe to| |h|d b IH]; intros w N C H; cbn [run].
  - exists false, w. auto.
  - destruct N as [N1 N2]. destruct (IHp w N1 C H) as (t & w1 & E1 & O1 & C1 & H1). rewrite E1. cbn [bind fst snd]. destruct t; [exists true, w1; auto|]. destruct (IHq w1 N2 C1 H1) as (t' & w2 & E2 & O2 & C2 & H2). exists t', w2. rewrite E2, O2. auto.
  - unfold activity. destruct (S1 w (fun h => match h with Silent => (Silent, []) | Stream n => (Stream n, [indented n (activity_text s pe to)]) end) C H eq_refl) as (w' & E & K). rewrite E. exists false, w'. auto.
  - exists true, w. auto.
  - destruct N.
  - unfold push_task. destruct (S1 w (fun h => match h with Silent => (Silent, []) | Stream n => (Stream (n + 1), [indented n (d ++ codes "...")]) end) C H eq_refl) as (w1 & E & O1 & C1 & H1). rewrite E. cbn [bind]. destruct (IH w1 N C1 H1) as (t & w2 & E2 & O2 & C2 & H2). rewrite E2. cbn [bind fst snd].
    unfold pop_task. destruct (S1 w2 (fun h => match h with Silent => (Silent, []) | Stream n => (Stream (n - 1), []) end) C2 H2 eq_refl) as (w3 & E3 & O3 & C3 & H3). rewrite E3. exists t, w3. rewrite O3, O2, O1. auto.
Qed.
Print Assumptions C185_silent.
(** A handler set within a task leaves its depth one too small: the tasks that follow it
    and what is within them are not told apart. *)
Theorem C185_refuted_handler_in_task d d1 d2 a b w : writing 0 a w -> a <> b -> p_handlers w b = Some (Stream 0) ->
  exists w', run (Then (Task d (Handler (Some b))) (Task d1 (Task d2 Nothing))) w = Ok (false, w') /\
    p_out w' = p_out w ++ [d ++ [46; 46; 46]; d1 ++ [46; 46; 46]; d2 ++ [46; 46; 46]].
Proof.
  intros [C H] N B. cbn [run]. unfold push_task at 1, on_handler at 1. rewrite C, H. cbn [bind run]. unfold set_handler. cbn [p_current p_handlers]. rewrite Z.eqb_refl. cbn [bind fst snd]. unfold pop_task, push_task, on_handler. cbn [p_current p_handlers p_out].
  destruct (Z.eqb_spec b a); [congruence|]. rewrite B. cbn [bind fst snd p_current p_handlers p_out]. rewrite !Z.eqb_refl. cbn [bind fst snd p_current p_handlers p_out]. rewrite !Z.eqb_refl. cbn [bind fst snd p_current p_handlers p_out run]. rewrite !Z.eqb_refl. cbn [bind fst snd p_current p_handlers p_out run]. rewrite !Z.eqb_refl. cbn [bind fst snd p_current p_handlers p_out run].
  eexists. split; [reflexivity|]. cbn [p_out]. rewrite <- !app_assoc. reflexivity.
Qed.
Print Assumptions C185_refuted_handler_in_task.

(** ** C186 *)
(** Handlers handed over one after the other, each once and none the current one. *)
Definition set_all (hs : list Z) (w : progress) : outcome progress :=
  fold_left (fun m h => let! w := m in set_handler (Some h) w) hs (Ok w).
Theorem C186_deleted_once_partial : forall hs c w, p_current w = Some c -> NoDup (c :: hs) -> (forall h, In h (c :: hs) -> p_handlers w h <> None) ->
  exists w', set_all hs w = Ok w' /\ p_current w' = Some (last hs c) /\ p_handlers w' (last hs c) = p_handlers w (last hs c) /\
    (forall h, In h (removelast (c :: hs)) -> p_handlers w' h = None) /\ (forall h, ~ In h (c :: hs) -> p_handlers w' h = p_handlers w h).
Proof.
  unfold set_all. induction hs as [|h hs IH]; intros c w C D L.
  - exists w. cbn. repeat split; auto. intros h [].
  - cbn [fold_left bind]. unfold set_handler at 2. rewrite C. destruct (p_handlers w c) as [hc|] eqn:Hc; [|destruct (L c (or_introl eq_refl) Hc)]. cbn [bind].
    inversion D as [|? ? NC D']; subst. destruct (IH h (mk_progress (fun b => if b =? c then None else p_handlers w b) (Some h) (p_out w)) eq_refl D') as (w' & E & C' & K & G & O).
    { intros x X. cbn [p_handlers]. destruct (Z.eqb_spec x c) as [->|]; [contradiction|]. apply L. now right. }
    assert (LS : forall (l : list Z) x y, last (y :: l) x = last l y).
    { assert (Gn : forall (l : list Z) x y z, last (z :: l) x = last (z :: l) y) by (induction l as [|q l IHl]; intros x y z; [reflexivity|exact (IHl x y q)]). intros [|z l] x y; [reflexivity|exact (Gn l x y z)]. }
    assert (LI : forall (l : list Z) y, In (last l y) (y :: l)) by (induction l as [|z l IHl]; intros y; [now left|]; rewrite LS; right; apply IHl).
    exists w'. rewrite LS. split; [exact E|]. split; [exact C'|]. cbn [p_handlers] in *. split; [|split].
    + rewrite K. destruct (Z.eqb_spec (last hs h) c) as [Q|]; [|reflexivity]. exfalso. apply NC. rewrite <- Q. apply LI.
    + change (removelast (c :: h :: hs)) with (c :: removelast (h :: hs)). intros x [<-|X]; [|now apply G]. rewrite O; [now rewrite Z.eqb_refl|exact NC].
    + intros x X. rewrite O; [|intros Y; apply X; now right]. destruct (Z.eqb_spec x c) as [->|]; [destruct X; now left|reflexivity].
Qed.
Print Assumptions C186_deleted_once_partial.
(** The current handler set again, or none: the next message is undefined. *)
Theorem C186_refuted_same c w h s : p_current w = Some c -> p_handlers w c = Some h ->
  (forall p, p = Handler (Some c) \/ p = Handler None -> run (Then p (Act s (-1) (-1))) w = UB).
Proof. intros C H p [-> | ->]; cbn [run]; unfold set_handler; rewrite C, H; cbn [bind fst snd]; unfold activity, on_handler; cbn [p_current p_handlers]; [now rewrite Z.eqb_refl|reflexivity]. Qed.
Print Assumptions C186_refuted_same.

(** ** Cases *)
Definition stream_at_1 : progress := mk_progress (fun a => if a =? 1 then Some (Stream 0) else if a =? 2 then Some (Stream 0) else None) (Some 1) [].
Example C185_case : match run (Then (Task (codes "a") (Then (Act (codes "b") 1 2) (Task (codes "c") (Act (codes "d") 50 (-1))))) (Act (codes "e") (-1) 3)) stream_at_1 with Ok (t, w) => (t, p_out w) | _ => (true, []) end
  = (false, [codes "a..."; codes " b (1/2)"; codes " c..."; codes "  d 50%"; codes "e"]).
Proof. reflexivity. Qed.
Example C186_case : match set_all [2] stream_at_1 with Ok w => (p_current w, p_handlers w 1, p_handlers w 2) | _ => (None, None, None) end = (Some 2, None, Some (Stream 0)).
Proof. reflexivity. Qed.
