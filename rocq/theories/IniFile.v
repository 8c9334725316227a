(** Reading and writing configuration files. *)
From Verif Require Import BaseFacts IniModel IniSpec IniProofs.

Lemma isspace_white c : isspace c = white c.
Proof.
  unfold isspace, white, blank. destruct (Z.eqb_spec c 9), (Z.eqb_spec c 10), (Z.eqb_spec c 11), (Z.eqb_spec c 12), (Z.eqb_spec c 13), (Z.eqb_spec c 32); subst; try reflexivity.
  cbn. destruct (Z.leb_spec 9 c), (Z.leb_spec c 13); cbn; try reflexivity. lia.
Qed.
Lemma tolower_lower c : tolower c = lower c.
Proof. reflexivity. Qed.
Definition whites (l : text) : Prop := Forall (fun c => white c = true) l.
Lemma blanks_whites l : blanks l -> whites l.
Proof. apply Forall_impl. intros c H. unfold white. now rewrite H. Qed.
Lemma strskp_whites w r : whites w -> strskp (w ++ r) = strskp r.
Proof. induction 1 as [|c w H _ IH]; cbn; [reflexivity|]. now rewrite isspace_white, H. Qed.
Lemma strskp_white_all w : whites w -> strskp w = [].
Proof. intros H. rewrite <- (app_nil_r w), strskp_whites by assumption. reflexivity. Qed.
Lemma strskp_black l r : starts_black l -> strskp (l ++ r) = l ++ r.
Proof. intros (c & l' & -> & H). cbn. now rewrite isspace_white, H. Qed.
Lemma strskp_char c r : white c = false -> strskp (c :: r) = c :: r.
Proof. intros H. cbn. now rewrite isspace_white, H. Qed.
Lemma strcrop_black l w : ends_black l -> whites w -> strcrop (l ++ w) = l.
Proof.
  intros (r & c & -> & H) W. unfold strcrop. rewrite rev_app_distr, strskp_whites.
  - rewrite rev_app_distr. cbn. rewrite isspace_white, H. cbn. now rewrite rev_involutive.
  - apply Forall_rev. exact W.
Qed.
Lemma run_of_stop p a c r : Forall (fun x => p x = true) a -> p c = false -> run_of p (a ++ c :: r) = (a, c :: r).
Proof. intros H E. induction H as [|x a Hx _ IH]; cbn; [now rewrite E|]. now rewrite Hx, IH. Qed.
Lemma run_of_all p a : Forall (fun x => p x = true) a -> run_of p a = (a, []).
Proof. induction 1 as [|x a Hx _ IH]; cbn; [reflexivity|]. now rewrite Hx, IH. Qed.
Lemma scan_set_stop p a c r : a <> [] -> Forall (fun x => p x = true) a -> p c = false -> scan_set p (a ++ c :: r) = Some (a, c :: r).
Proof. intros N H E. unfold scan_set. rewrite run_of_stop by assumption. now destruct a. Qed.
Lemma scan_set_all p a : a <> [] -> Forall (fun x => p x = true) a -> scan_set p a = Some (a, []).
Proof. intros N H. unfold scan_set. rewrite run_of_all by assumption. now destruct a. Qed.
Lemma not_in_forall x l : ~ In x l -> Forall (fun c => negb (c =? x) = true) l.
Proof. intros H. apply Forall_forall. intros c Hc. apply negb_true_iff, Z.eqb_neq. congruence. Qed.
Lemma white_not x w : whites w -> white x = false -> ~ In x w.
Proof. intros H E I. unfold whites in H. rewrite Forall_forall in H. rewrite (H x I) in E. discriminate. Qed.
Lemma upto_nul_none l : ~ In 0 l -> upto_nul l = None.
Proof. induction l as [|c l IH]; cbn; intros H; [reflexivity|]. destruct (Z.eqb_spec c 0); [subst; tauto|]. rewrite IH; tauto. Qed.
Lemma cstr_clean l : clean_text l -> cstr (l ++ [10]) = l ++ [10].
Proof.
  intros H. unfold cstr. rewrite upto_nul_none; [reflexivity|]. rewrite in_app_iff. intros [I|[I|[]]]; [|discriminate].
  unfold clean_text in H. rewrite Forall_forall in H. now apply H in I.
Qed.
Lemma fgets_line l r n : clean_text l -> (List.length l < n)%nat -> fgets n (l ++ 10 :: r) = (l ++ [10], r).
Proof.
  intros H. revert n. induction H as [|c l [H0 H1] _ IH]; intros [|n] L; cbn in *; try lia; [reflexivity|].
  destruct (Z.eqb_spec c 10); [lia|]. rewrite IH by lia. reflexivity.
Qed.
Lemma strlwc_short k : (List.length k <= 1024)%nat -> strlwc k = map lower k.
Proof. intros H. unfold strlwc. now rewrite firstn_all2 by lia. Qed.

Definition next_sec (sec : text) (i : item) : text :=
  match i with Section_ _ n _ => map lower n | _ => sec end.
Lemma assigns_cons sec i t : assigns sec (i :: t) = assigns sec [i] ++ assigns (next_sec sec i) t.
Proof. now destruct i. Qed.

Lemma ten_white : white 10 = true. Proof. reflexivity. Qed.
Lemma good_key_head k : good_key k -> exists c r, k = c :: r /\ white c = false /\ c <> 91 /\ c <> 59 /\ c <> 35.
Proof.
  intros ((c & r & -> & H) & _ & _ & H1 & H2 & H3). exists c, r. unfold starts_with in *.
  split; [reflexivity|]. split; [exact H|]. repeat split; intros ->; [apply H1|apply H2|apply H3]; eauto.
Qed.
Lemma scan_key_good k w1 w2 x y : good_key k -> blanks w1 -> blanks w2 -> starts_black x ->
  scan_key (k ++ w1 ++ 61 :: w2 ++ x ++ y) = Some (k ++ w1, x ++ y).
Proof.
  intros K W1 W2 X. unfold scan_key. rewrite app_assoc, scan_set_stop.
  - rewrite strskp_char by reflexivity. cbn [scan_lit]. rewrite Z.eqb_refl.
    rewrite strskp_whites by now apply blanks_whites. now rewrite strskp_black.
  - destruct (good_key_head k K) as (c & r & -> & _). discriminate.
  - apply not_in_forall. rewrite in_app_iff. destruct K as (_ & _ & K & _). intros [I|I]; [auto|].
    revert I. apply white_not; [now apply blanks_whites|reflexivity].
  - reflexivity.
Qed.
Lemma parse_entry sec d k w1 wh' v : good_key k -> blanks w1 -> (List.length k <= 1024)%nat ->
  scan_entry (k ++ wh') = Some (k ++ w1, v) -> strcrop v <> [] \/ v <> [] -> v <> [34; 34] -> v <> [39; 39] ->
  match k ++ wh' with
  | [] => Ok (sec, d)
  | c :: _ =>
      if (c =? 59) || (c =? 35) then Ok (sec, d)
      else match scan_section (k ++ wh') with
           | Some s => let sec := strlwc s in let! d' := add_entry d sec None None in Ok (sec, d')
           | None =>
               match scan_entry (k ++ wh') with
               | Some (k, v) =>
                   let key := strlwc (strcrop k) in
                   let val := if str_eqb v [34; 34] || str_eqb v [39; 39] then [] else strcrop v in
                   let! d' := add_entry d sec (Some key) (Some val) in Ok (sec, d')
               | None => Ok (sec, d)
               end
           end
  end = let! d' := dictionary_set d (sec ++ 58 :: map lower k) (Some (strcrop v)) in Ok (sec, d').
Proof.
  intros K W1 L E _ N1 N2. rewrite E. assert (HC : strlwc (strcrop (k ++ w1)) = map lower k).
  { rewrite strcrop_black by (apply K || now apply blanks_whites). now apply strlwc_short. }
  destruct (good_key_head k K) as (c & r & Ek & _ & H1 & H2 & H3). rewrite HC. clear E HC. subst k. cbn [app].
  destruct (Z.eqb_spec c 59); [congruence|]. destruct (Z.eqb_spec c 35); [congruence|]. cbn [orb].
  unfold scan_section. cbn [scan_lit]. destruct (Z.eqb_spec c 91); [congruence|].
  destruct (str_eqb_spec v [34; 34]); [congruence|]. destruct (str_eqb_spec v [39; 39]); [congruence|].
  cbn [orb]. reflexivity.
Qed.
Lemma bind_ret {A B} (x : outcome A) (f : A -> outcome B) : (let! b := (let! a := x in Ok a) in f b) = let! a := x in f a.
Proof. now destruct x. Qed.
Ltac skip_ws := match goal with |- context [strskp (?w ++ ?r)] => rewrite (strskp_whites w r) by now apply blanks_whites end.
Lemma parse_item sec d i : good_item i ->
  parse_line (sec, d) (line_of i ++ [10]) = let! d' := applies d (assigns sec [i]) in Ok (next_sec sec i, d').
Proof.
  intros (C & L & G). unfold parse_line. rewrite cstr_clean by exact C.
  destruct i as [ws|ws m r|ws n r|ws k w1 w2 v w3 c|ws k w1 w2 q v r]; cbn [line_of] in *; cbn [assigns next_sec applies].
  - rewrite strskp_white_all; [reflexivity|]. apply Forall_app. split; [now apply blanks_whites|]. constructor; [reflexivity|constructor].
  - destruct G as [W M]. rewrite <- app_assoc. skip_ws. cbn [app].
    rewrite strskp_char by (destruct M; subst; reflexivity). destruct M; subst; reflexivity.
  - destruct G as (W & N & B). rewrite <- !app_assoc. skip_ws. cbn [app].
    rewrite strskp_char by reflexivity. cbn [Z.eqb Pos.eqb orb].
    unfold scan_section. cbn [scan_lit]. rewrite Z.eqb_refl. rewrite <- app_assoc. cbn [app]. rewrite scan_set_stop; auto; [|now apply not_in_forall].
    cbn [option_map fst]. rewrite strlwc_short by (rewrite app_length in L; cbn [List.length] in L; rewrite app_length in L; lia).
    unfold add_entry, apply. cbn [fst snd]. symmetry. apply bind_ret.
  - destruct G as (W & K & W1 & W2 & W3 & V1 & V2 & V3 & V4 & V5 & V6 & CC).
    rewrite <- !app_assoc. skip_ws.
    rewrite strskp_black by apply K. cbn [app]. rewrite <- !app_assoc.
    destruct V1 as (x & v' & Ev & Hx). assert (Nx1 : x <> 34) by (intros ->; apply V5; exists v'; exact Ev).
    assert (Nx2 : x <> 39) by (intros ->; apply V6; exists v'; exact Ev).
    assert (P : forall s, v ++ s <> [34; 34] /\ v ++ s <> [39; 39]) by (intros s; rewrite Ev; split; intros X; inversion X; congruence).
    assert (E : scan_entry (k ++ w1 ++ 61 :: w2 ++ v ++ w3 ++ c ++ [10]) = Some (k ++ w1, v ++ w3 ++ match c with [] => [10] | _ => [] end)).
    { unfold scan_entry. rewrite scan_key_good; auto; [|exists x, v'; auto].
      assert (SL : forall s, scan_lit 34 (v ++ s) = None /\ scan_lit 39 (v ++ s) = None).
      { intros s. rewrite Ev. cbn [app scan_lit].
        destruct (Z.eqb_spec x 34); [congruence|]. destruct (Z.eqb_spec x 39); [congruence|]. auto. }
      unfold scan_quoted. rewrite (proj1 (SL _)), (proj2 (SL _)).
      unfold scan_plain.
      assert (F : forall t, ~ In 59 t -> ~ In 35 t -> Forall (fun x0 => negb ((x0 =? 59) || (x0 =? 35)) = true) t).
      { intros t F1 F2. apply Forall_forall. intros y Hy. apply negb_true_iff, orb_false_iff. split; apply Z.eqb_neq; congruence. }
      assert (FW : Forall (fun x0 => negb ((x0 =? 59) || (x0 =? 35)) = true) w3).
      { apply F; apply white_not; try reflexivity; now apply blanks_whites. }
      assert (NE : forall s, v ++ s <> []) by (intros s; rewrite Ev; discriminate).
      destruct CC as [->|CC].
      - cbn [app]. rewrite scan_set_all; [reflexivity|apply NE|]. rewrite !Forall_app. repeat split; auto.
      - assert (exists z c', c = z :: c' /\ (z = 59 \/ z = 35)) as (z & c' & -> & Hz).
        { destruct CC as [[c' ->]|[c' ->]]; eauto. }
        cbn [app]. rewrite app_nil_r, app_assoc, scan_set_stop; [reflexivity|apply NE| |destruct Hz; subst; reflexivity].
        rewrite Forall_app. auto. }
    etransitivity; [apply (parse_entry sec d k w1 (w1 ++ 61 :: w2 ++ v ++ w3 ++ c ++ [10]) _ K W1 ltac:(rewrite !app_length in L; lia) E); try apply P|].
    + right. rewrite Ev. discriminate.
    + rewrite strcrop_black; auto.
      * unfold apply. cbn [fst snd]. symmetry. apply bind_ret.
      * apply Forall_app. split; [now apply blanks_whites|]. destruct c; repeat constructor.
  - destruct G as (W & K & W1 & W2 & Q & V2 & V3 & V4 & V5).
    rewrite <- !app_assoc. skip_ws.
    rewrite strskp_black by apply K. cbn [app]. rewrite <- !app_assoc. cbn [app]. rewrite <- !app_assoc. cbn [app].
    assert (NV : v <> []) by (destruct V2 as (? & ? & -> & _); apply app_cons_not_nil || (intros X; symmetry in X; now apply app_cons_not_nil in X)).
    assert (E : scan_entry (k ++ w1 ++ 61 :: w2 ++ q :: v ++ q :: r ++ [10]) = Some (k ++ w1, v)).
    { unfold scan_entry. change (q :: v ++ q :: r ++ [10]) with ([q] ++ (v ++ q :: r ++ [10])).
      rewrite scan_key_good; auto; [|exists q, []; split; [reflexivity|destruct Q; subst; reflexivity]].
      unfold scan_quoted. cbn [app scan_lit].
      assert (S : option_map fst (scan_set (fun c => negb (c =? q)) (v ++ q :: r ++ [10])) = Some v).
      { rewrite scan_set_stop; [reflexivity|exact NV|now apply not_in_forall|now rewrite Z.eqb_refl]. }
      destruct Q; subst q; cbn [Z.eqb Pos.eqb]; rewrite S; reflexivity. }
    etransitivity; [apply (parse_entry sec d k w1 (w1 ++ 61 :: w2 ++ q :: v ++ q :: r ++ [10]) _ K W1 ltac:(rewrite !app_length in L; lia) E); auto|].
    replace (strcrop v) with v by (symmetry; rewrite <- (app_nil_r v) at 1; apply strcrop_black; [exact V2|constructor]).
    unfold apply. cbn [fst snd]. symmetry. apply bind_ret.
Qed.

Lemma read_render doc : Forall good_item doc -> forall fuel sec d, (List.length (render doc) <= fuel)%nat ->
  (let! st := read_lines fuel (sec, d) (render doc) in Ok (snd st)) = applies d (assigns sec doc).
Proof.
  induction 1 as [|i doc G _ IH]; intros fuel sec d L.
  - destruct fuel; reflexivity.
  - unfold render in *. cbn [map List.concat] in *. rewrite !app_length in L. cbn [List.length] in L.
    destruct fuel as [|fuel]; [lia|]. cbn [read_lines]. rewrite <- !app_assoc.
    destruct (line_of i ++ [10] ++ _) eqn:E; [now destruct (line_of i)|]. rewrite <- E. clear E.
    change ([10] ++ List.concat (map (fun i => line_of i ++ [10]) doc)) with (10 :: List.concat (map (fun i => line_of i ++ [10]) doc)).
    rewrite fgets_line by (apply G || (destruct G as (_ & G & _); lia)).
    rewrite parse_item by exact G. rewrite (assigns_cons sec i doc), applies_app.
    destruct (applies d (assigns sec [i])); cbn [bind]; try reflexivity.
    apply IH. lia.
Qed.
Lemma new_render doc : Forall good_item doc -> iniparser_new (render doc) = applies (dictionary_new 0) (assigns [] doc).
Proof. intros H. unfold iniparser_new. now apply read_render. Qed.

(** Any file whatsoever is read without undefined behaviour. *)
Lemma fgets_shorter n f l r : (0 < n)%nat -> f <> [] -> fgets n f = (l, r) -> (List.length r < List.length f)%nat.
Proof.
  intros N F E. assert (G : forall m g l r, fgets m g = (l, r) -> (List.length r <= List.length g)%nat).
  { clear. induction m as [|m IH]; intros g l r E; cbn in E; [destruct g; apply pair_inj in E as [_ <-]; lia|].
    destruct g as [|c g]; [apply pair_inj in E as [_ <-]; lia|]. destruct (c =? 10); [apply pair_inj in E as [_ <-]; cbn; lia|].
    destruct (fgets m g) as [a b] eqn:E'. apply IH in E'. apply pair_inj in E as [_ <-]. cbn. lia. }
  destruct n as [|n]; [lia|]. destruct f as [|c f]; [congruence|]. cbn in E.
  destruct (c =? 10); [apply pair_inj in E as [_ <-]; cbn; lia|].
  destruct (fgets n f) as [a b] eqn:E'. apply G in E'. apply pair_inj in E as [_ <-]. cbn. lia.
Qed.
Lemma add_entry_ok d sec k v : wf d -> exists d', add_entry d sec k v = Ok d' /\ wf d'.
Proof. intros W. unfold add_entry. destruct k as [k|]; [destruct (set_spec d (sec ++ 58 :: k) v W) as (d' & E & W' & _)|destruct (set_spec d sec v W) as (d' & E & W' & _)]; eauto. Qed.
Lemma parse_line_ok sec d l : wf d -> exists sec' d', parse_line (sec, d) l = Ok (sec', d') /\ wf d'.
Proof.
  intros W. unfold parse_line. destruct (strskp (cstr l)) as [|c wh]; [eauto|].
  destruct (_ || _); [eauto|]. destruct (scan_section _) as [s|].
  - destruct (add_entry_ok d (strlwc s) None None W) as (d' & E & W'). cbv zeta. rewrite E. cbn. eauto.
  - destruct (scan_entry _) as [[k v]|]; [|eauto]. cbv zeta.
    match goal with |- context [add_entry d sec ?a ?b] => destruct (add_entry_ok d sec a b W) as (d' & E & W') end. rewrite E. cbn. eauto.
Qed.
Lemma read_lines_ok fuel : forall sec d f, wf d -> (List.length f <= fuel)%nat ->
  exists sec' d', read_lines fuel (sec, d) f = Ok (sec', d') /\ wf d'.
Proof.
  induction fuel as [|fuel IH]; intros sec d f W L.
  - destruct f; [cbn; eauto|cbn in L; lia].
  - cbn [read_lines]. destruct f as [|c f]; [eauto|]. destruct (fgets 1023 (c :: f)) as [l r] eqn:E.
    apply fgets_shorter in E; [|lia|discriminate].
    destruct (parse_line_ok sec d l W) as (sec' & d' & -> & W'). cbn [bind]. apply IH; [exact W'|lia].
Qed.
Lemma new_file_ok f : exists d, iniparser_new f = Ok d /\ wf d.
Proof.
  destruct (read_lines_ok (List.length f) [] (dictionary_new 0) f (proj1 (new_wf 0)) (le_n _)) as (sec & d & E & W).
  exists d. split; [|exact W]. unfold iniparser_new. etransitivity; [|exact (eq_refl (Ok d))].
  change (Ok d) with (let! st := Ok (sec, d) in Ok (snd st)). rewrite <- E. reflexivity.
Qed.

(** ** Dump and reload *)
Lemma is_prefix_spec p s : is_prefix p s = true <-> exists r, s = p ++ r.
Proof.
  revert s. induction p as [|a p IH]; intros s; cbn; [split; [eauto|auto]|].
  destruct s as [|b s]; [split; [discriminate|intros [r H]; discriminate]|].
  rewrite andb_true_iff, IH, Z.eqb_eq. split.
  - intros [-> [r ->]]. eauto.
  - intros [r H]. inversion H; subst. eauto.
Qed.
Definition entry_item (sec : text) (s : slot) : list item :=
  match s_key s, s_val s with
  | Some k, Some v => if is_prefix (sec ++ [58]) k then
      let key := skipn (List.length sec + 1) k in
      [Plain [] key (repeat 32 (30 - List.length key) ++ [32]) [32] v [] []] else []
  | _, _ => []
  end.
Definition section_items (d : dict) (sec : text) : list item :=
  Blank [] :: Section_ [] sec [] :: List.concat (map (entry_item sec) (d_slots d)).
Definition dump_items (d : dict) : list item :=
  List.concat (map (section_items d) (secs (d_slots d))) ++ [Blank []].
Lemma render_app a b : render (a ++ b) = render a ++ render b.
Proof. unfold render. now rewrite map_app, concat_app. Qed.
Lemma render_concat l : render (List.concat l) = List.concat (map render l).
Proof. induction l as [|x l IH]; cbn [List.concat map]; [reflexivity|]. now rewrite render_app, IH. Qed.

Lemma assoc_in l s k : NoDup (live l) -> In s l -> s_key s = Some k -> assoc l k = Some (s_val s).
Proof.
  induction l as [|a l IH]; cbn; intros N I E; [tauto|]. destruct I as [->|I].
  - rewrite E. destruct (str_eqb_spec k k); [reflexivity|congruence].
  - assert (Hk : In k (live l)) by (clear -I E; induction l as [|b l IH]; cbn in *; [tauto|]; destruct I as [->|I]; [rewrite E; cbn; auto|destruct (s_key b); cbn; auto]).
    destruct (s_key a) as [k'|]; [|auto]. inversion N; subst. destruct (str_eqb_spec k' k); [subst; tauto|auto].
Qed.
Lemma in_assoc l k v : assoc l k = Some v -> exists s, In s l /\ s_key s = Some k /\ s_val s = v.
Proof.
  induction l as [|a l IH]; cbn; [discriminate|]. intros H. destruct (s_key a) as [k'|] eqn:E.
  - destruct (str_eqb_spec k' k); [|destruct (IH H) as (s & ? & ?); eauto].
    subst. apply Some_inj in H. eauto.
  - destruct (IH H) as (s & ? & ?); eauto.
Qed.
Lemma colon_split a b c d : ~ In 58 a -> ~ In 58 c -> a ++ 58 :: b = c ++ 58 :: d -> a = c /\ b = d.
Proof.
  revert c. induction a as [|x a IH]; intros [|y c] Ha Hc E; cbn in *.
  - inversion E. auto.
  - inversion E. subst. exfalso. auto.
  - inversion E. subst. exfalso. auto.
  - inversion E. subst. destruct (IH c) as [-> ->]; auto.
Qed.

Section Dump.
  Variable d : dict.
  Hypothesis W : wf d.
  Let m := assoc (d_slots d).
  Hypothesis ST : storable m.
  Lemma slot_entry sec s k : ~ In 58 sec -> In s (d_slots d) -> s_key s = Some k -> is_prefix (sec ++ [58]) k = true ->
    exists key val, k = sec ++ 58 :: key /\ s_val s = Some val /\ skipn (List.length sec + 1) k = key /\
     good_key key /\ clean_text key /\ map lower key = key /\ good_value val /\
     (Nat.max 30 (List.length key) + 3 + List.length val <= 1022)%nat.
  Proof using W ST.
    intros N I E P. pose proof (assoc_in _ _ _ (wf_nodup d W) I E) as A. apply is_prefix_spec in P as [r ->].
    rewrite <- app_assoc in *. cbn [app] in *.
    destruct (ST _ _ A) as [(X & _)|(sec' & key & val & K & K1 & K2 & K3 & K4 & K5)].
    - exfalso. apply X, in_or_app. right. now left.
    - apply colon_split in K as [-> ->]; auto. exists key, val. split; [reflexivity|]. split; [exact K3|]. split; [|tauto].
      change (sec' ++ 58 :: key) with (sec' ++ [58] ++ key). rewrite app_assoc.
      replace (List.length sec' + 1)%nat with (List.length (sec' ++ [58])) by (rewrite app_length; reflexivity).
      apply skipn_app_exact. reflexivity.
  Qed.
  Lemma dump_key_render sec s : ~ In 58 sec -> In s (d_slots d) -> dump_key sec s = render (entry_item sec s).
  Proof using W ST.
    intros N I. unfold dump_key, entry_item. destruct (s_key s) as [k|] eqn:E; [|reflexivity].
    destruct (is_prefix (sec ++ [58]) k) eqn:P; [|now destruct (s_val s)].
    destruct (slot_entry sec s k N I E P) as (key & val & -> & -> & -> & _).
    unfold render. cbn. rewrite !app_nil_r. unfold pad30. rewrite <- !app_assoc. cbn. reflexivity.
  Qed.
  Lemma concat_ext {A B} (f g : A -> list B) l : (forall x, In x l -> f x = g x) -> List.concat (map f l) = List.concat (map g l).
  Proof. intros H. f_equal. now apply map_ext_in. Qed.
  Lemma dump_section_render sec : ~ In 58 sec -> dump_section d sec = render (section_items d sec).
  Proof using W ST.
    intros N. unfold dump_section, section_items. unfold render at 1. cbn [map List.concat line_of app].
    change (List.concat (map (fun i => line_of i ++ [10]) (List.concat (map (entry_item sec) (d_slots d))))) with (render (List.concat (map (entry_item sec) (d_slots d)))).
    rewrite render_concat, map_map. rewrite <- (concat_ext (dump_key sec) (fun x => render (entry_item sec x))) by (intros; now apply dump_key_render).
    rewrite <- !app_assoc. reflexivity.
  Qed.
  Lemma secs_in sec l : In sec (secs l) -> In sec (live l) /\ ~ In 58 sec.
  Proof. unfold secs. intros H. apply filter_In in H as [H1 H2]. split; [exact H1|]. now apply no_colon_spec. Qed.
  Lemma sec_good sec : In sec (secs (d_slots d)) ->
    m sec = Some None /\ ~ In 58 sec /\ sec <> [] /\ ~ In 93 sec /\ clean_text sec /\ (List.length sec <= 1000)%nat /\ map lower sec = sec.
  Proof using ST.
    intros H. apply secs_in in H as [H N]. apply assoc_live in H. destruct (assoc (d_slots d) sec) as [v|] eqn:E; [|congruence].
    destruct (ST _ _ E) as [(_ & -> & R)|(s & k & ? & -> & _)].
    - split; [exact E|]. tauto.
    - exfalso. apply N, in_or_app. right. now left.
  Qed.
  Lemma dump_sections_render l : (forall s, In s l -> In s (d_slots d)) ->
    dump_sections d l = Ok (render (List.concat (map (section_items d) (secs l)) ++ [Blank []])).
  Proof using W ST.
    induction l as [|s l IH]; intros H; [reflexivity|]. cbn [dump_sections]. unfold secs. cbn [live].
    assert (IH' := IH (fun x Hx => H x (or_intror Hx))). unfold is_section.
    destruct (s_key s) as [k|] eqn:E; [|exact IH'].
    cbn [filter]. destruct (no_colon k) eqn:NC; [|exact IH'].
    assert (Hs : In k (secs (d_slots d))).
    { unfold secs. apply filter_In. split; [|exact NC]. apply assoc_live.
      rewrite (assoc_in _ _ _ (wf_nodup d W) (H s (or_introl eq_refl)) E). discriminate. }
    destruct (sec_good k Hs) as (_ & N & _ & _ & _ & L & _).
    replace (List.length k <=? 1023)%nat with true by (symmetry; apply Nat.leb_le; lia).
    rewrite IH'. cbn [bind map List.concat]. f_equal. rewrite <- app_assoc. rewrite (render_app (section_items d k)).
    now rewrite dump_section_render.
  Qed.
  Lemma dump_items_good : Forall good_item (dump_items d).
  Proof using W ST.
    unfold dump_items. apply Forall_app. split; [|constructor; [|constructor]; cbn; repeat split; try constructor; cbn; lia].
    apply Forall_concat. apply Forall_map. apply Forall_forall. intros sec Hs.
    destruct (sec_good sec Hs) as (_ & N & N0 & N1 & C & L & LO). unfold section_items.
    constructor; [cbn; repeat split; try constructor; cbn; lia|]. constructor.
    - unfold good_item. cbn [line_of app]. split; [constructor; [lia|]; apply Forall_app; split; [exact C|constructor; [lia|constructor]]|].
      split; [cbn [List.length]; rewrite app_length; cbn [List.length]; lia|]. repeat split; auto. constructor.
    - apply Forall_concat. apply Forall_map. apply Forall_forall. intros s Is. unfold entry_item.
      destruct (s_key s) as [k|] eqn:E; [|constructor]. destruct (s_val s) as [v|] eqn:Ev; [|constructor].
      destruct (is_prefix (sec ++ [58]) k) eqn:P; [|constructor].
      destruct (slot_entry sec s k N Is E P) as (key & val & -> & V & -> & K1 & K2 & K3 & (G0 & G) & K5).
      assert (val = v) by congruence. subst val. cbv zeta.
      assert (B : blanks (repeat 32 (30 - List.length key) ++ [32])).
      { apply Forall_app. split; [|constructor; [reflexivity|constructor]]. apply Forall_forall. intros x Hx. apply repeat_spec in Hx. now subst. }
      assert (CB : forall w, blanks w -> clean_text w).
      { intros w. apply Forall_impl. intros a Ha. split; intros ->; discriminate. }
      assert (B1 : blanks [32]) by (constructor; [reflexivity|constructor]).
      constructor; [|constructor]. unfold good_item. cbn [line_of]. rewrite !app_nil_r. cbn [app]. split; [|split].
      + apply Forall_app. split; [exact K2|]. apply Forall_app. split; [now apply CB|]. constructor; [lia|]. constructor; [lia|exact G0].
      + rewrite !app_length, repeat_length. cbn [List.length]. lia.
      + assert (blanks []) by constructor. tauto.
  Qed.
  (** What the dumped file assigns. *)
  Lemma last_change_in h k c : last_change h k = Some c -> In (k, c) h.
  Proof.
    induction h as [|[k' c'] h IH]; cbn; [discriminate|]. destruct (last_change h k) as [r|].
    - intros E. right. apply IH. exact E.
    - destruct (same_spec k' k); [|discriminate]. subst. intros E. apply Some_inj in E. subst. now left.
  Qed.
  Lemma last_change_none h k : last_change h k = None -> forall c, ~ In (k, c) h.
  Proof.
    induction h as [|[k' c'] h IH]; cbn; [tauto|]. destruct (last_change h k) as [r|]; [discriminate|].
    destruct (same_spec k' k); [discriminate|]. intros _ c [E|E]; [apply n; congruence|]. now apply (IH eq_refl c).
  Qed.
  Lemma assigns_app sec a b : assigns sec (a ++ b) = assigns sec a ++ assigns (fold_left next_sec a sec) b.
  Proof.
    revert sec. induction a as [|i a IH]; intros sec; [reflexivity|]. cbn [app]. rewrite assigns_cons, (assigns_cons sec i a), IH, <- app_assoc. reflexivity.
  Qed.
  Definition entry_change (s : slot) (sec : text) : list change :=
    match s_key s, s_val s with
    | Some k, Some v => if is_prefix (sec ++ [58]) k then [(k, Some (Some v))] else []
    | _, _ => []
    end.
  Lemma assigns_entries sec l : ~ In 58 sec -> (forall s, In s l -> In s (d_slots d)) ->
    assigns sec (List.concat (map (entry_item sec) l)) = List.concat (map (fun s => entry_change s sec) l).
  Proof using W ST.
    intros N. induction l as [|s l IH]; intros H; [reflexivity|]. cbn [map List.concat]. rewrite assigns_app.
    unfold entry_item at 1 2, entry_change at 1. specialize (IH (fun x Hx => H x (or_intror Hx))).
    destruct (s_key s) as [k|] eqn:E; [|exact IH]. destruct (s_val s) as [v|] eqn:Ev; [|exact IH].
    destruct (is_prefix (sec ++ [58]) k) eqn:P; [|exact IH].
    destruct (slot_entry sec s k N (H s (or_introl eq_refl)) E P) as (key & val & -> & V & -> & K1 & K2 & K3 & _).
    cbn. rewrite K3. f_equal. exact IH.
  Qed.
  Lemma assigns_section s0 sec rest : ~ In 58 sec -> map lower sec = sec ->
    assigns s0 (section_items d sec ++ rest) =
    ((sec, Some None) :: List.concat (map (fun s => entry_change s sec) (d_slots d))) ++ assigns sec rest.
  Proof using W ST.
    intros N LO. rewrite assigns_app. unfold section_items. cbn [assigns]. rewrite LO, assigns_entries by auto.
    cbn [fold_left next_sec]. rewrite LO. replace (fold_left next_sec _ sec) with sec; [reflexivity|].
    symmetry. clear W ST m. generalize (d_slots d). induction l as [|s l IH]; [reflexivity|]. cbn [map List.concat]. rewrite fold_left_app.
    replace (fold_left next_sec (entry_item sec s) sec) with sec; [exact IH|].
    unfold entry_item. destruct (s_key s); [|reflexivity]. destruct (s_val s); [|reflexivity]. now destruct (is_prefix _ _).
  Qed.
  Lemma assigns_dump s0 ss : (forall x, In x ss -> ~ In 58 x /\ map lower x = x) ->
    assigns s0 (List.concat (map (section_items d) ss) ++ [Blank []]) =
    List.concat (map (fun sec => (sec, Some None) :: List.concat (map (fun s => entry_change s sec) (d_slots d))) ss).
  Proof using W ST.
    revert s0. induction ss as [|sec ss IH]; intros s0 H; [reflexivity|]. cbn [map List.concat]. rewrite <- app_assoc.
    destruct (H sec (or_introl eq_refl)). rewrite assigns_section by assumption. f_equal. apply IH. intros x Hx. apply H. now right.
  Qed.
  Lemma dump_content k : content nothing (assigns [] (dump_items d)) k = m k.
  Proof using W ST.
    unfold dump_items. rewrite assigns_dump by (intros x Hx; apply sec_good in Hx; tauto).
    set (h := List.concat _).
    assert (HI : forall k c, In (k, c) h -> exists v, c = Some v /\ m k = Some v).
    { intros k0 c I. unfold h in I. apply in_concat in I as (x & Hx & I). apply in_map_iff in Hx as (sec & <- & Hs).
      destruct (sec_good sec Hs) as (E & N & _). destruct I as [I|I]; [apply pair_inj in I as [<- <-]; eauto|].
      apply in_concat in I as (y & Hy & I). apply in_map_iff in Hy as (s & <- & Is). unfold entry_change in I.
      destruct (s_key s) as [k1|] eqn:Ek; [|destruct I]. destruct (s_val s) as [v|] eqn:Ev; [|destruct I].
      destruct (is_prefix _ _); [|destruct I]. destruct I as [I|[]]. apply pair_inj in I as [<- <-].
      exists (Some v). split; [reflexivity|]. unfold m. rewrite (assoc_in _ _ _ (wf_nodup d W) Is Ek). now rewrite Ev. }
    unfold content. destruct (last_change h k) as [c|] eqn:E.
    - apply last_change_in, HI in E as (v & -> & ->). reflexivity.
    - unfold nothing. destruct (m k) as [v|] eqn:Em; [|reflexivity]. exfalso. pose proof (last_change_none _ _ E) as NI.
      assert (SI : forall sec, m sec <> None -> ~ In 58 sec -> In sec (secs (d_slots d))).
      { intros sec H1 H2. unfold secs. apply filter_In. split; [now apply assoc_live|now apply no_colon_spec]. }
      destruct (ST _ _ Em) as [(N & -> & _)|(sec & key & val & -> & N & Ns & -> & _)].
      + apply (NI (Some None)). unfold h. apply in_concat. eexists. split; [apply in_map, SI; [|exact N]; congruence|]. now left.
      + destruct (in_assoc _ _ _ Em) as (s & Is & Ek & Ev). apply (NI (Some (Some val))). unfold h. apply in_concat.
        eexists. split; [apply in_map, (SI sec); auto|]. right. apply in_concat. eexists. split; [apply in_map, Is|].
        unfold entry_change. rewrite Ek, Ev.
        replace (is_prefix (sec ++ [58]) (sec ++ 58 :: key)) with true; [now left|].
        symmetry. apply is_prefix_spec. exists key. now rewrite <- app_assoc.
  Qed.
  Lemma dump_reload : (exists k, m k <> None) ->
    exists t d', iniparser_dump_ini d = Ok t /\ iniparser_new t = Ok d' /\ wf d' /\ forall k, assoc (d_slots d') k = m k.
  Proof using W ST.
    intros [k0 H0]. unfold iniparser_dump_ini, iniparser_getnsec. rewrite secs_count.
    assert (NS : exists sec, In sec (secs (d_slots d))).
    { destruct (m k0) as [v|] eqn:E; [|congruence].
      destruct (ST _ _ E) as [(N & _)|(sec & key & val & -> & N & Ns & _)]; [exists k0|exists sec];
        unfold secs; (apply filter_In; split; [apply assoc_live|now apply no_colon_spec]); [unfold m in E; congruence|exact Ns]. }
    replace (List.length (secs (d_slots d)) <? 1)%nat with false
      by (symmetry; apply Nat.ltb_ge; destruct NS as [sec NS]; destruct (secs (d_slots d)); [destruct NS|cbn; lia]).
    rewrite dump_sections_render by auto. eexists. fold (dump_items d).
    destruct (applies_spec (assigns [] (dump_items d)) (dictionary_new 0)) as (d' & E & W' & C); [apply new_wf|].
    exists d'. split; [reflexivity|]. split; [rewrite new_render; [exact E|apply dump_items_good]|]. split; [exact W'|].
    intros k. rewrite C, <- dump_content. apply content_ext. apply new_wf.
  Qed.
End Dump.
