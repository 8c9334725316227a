(** Split iterators and path normalisation. *)
From Verif Require Import BaseFacts IniModel IniProofs IniFile StringModel StringSpec StringProofs.
Open Scope string_scope.
Open Scope list_scope.
Open Scope Z_scope.

Lemma contains_short sep t : sep <> [] -> (List.length t < List.length sep)%nat -> ~ contains sep t.
Proof. intros S L (a & b & ->). rewrite !app_length in L. lia. Qed.
Lemma removelast_length {A} (l : list A) : List.length (removelast l) = (List.length l - 1)%nat.
Proof. destruct l as [|x l _] using rev_ind; [reflexivity|]. rewrite removelast_last, app_length. cbn. lia. Qed.
Lemma pieces_skip sep t ps : sep <> [] -> pieces sep t ps -> pieces sep (sep ++ t) ([] :: ps).
Proof.
  intros S P. apply (pieces_more sep [] t ps); [|exact P]. apply contains_short; [exact S|]. cbn. rewrite removelast_length.
  destruct sep; [congruence|]. cbn. lia.
Qed.
Lemma pieces_empty sep : sep <> [] -> pieces sep [] [[]].
Proof. intros S. constructor. apply contains_short; [exact S|]. destruct sep; [congruence|cbn; lia]. Qed.
Lemma skipn_skip {A} (s : list A) e a r : skipn e s = a ++ r -> skipn (e + List.length a) s = r.
Proof. intros H. rewrite Nat.add_comm, <- skipn_skipn, H. now apply skipn_app_exact. Qed.
Lemma skipn_bound {A} (s : list A) e a r : (e <= List.length s)%nat -> skipn e s = a ++ r -> (e + List.length a + List.length r = List.length s)%nat.
Proof. intros L H. apply (f_equal (@List.length A)) in H. rewrite skipn_length, app_length in H. lia. Qed.

Section Splitting.
  Variables s sep : text.
  Hypothesis Hsep : sep <> [].
  Lemma sep_pos : (0 < List.length sep)%nat.
  Proof using Hsep. destruct sep; [congruence|cbn; lia]. Qed.
  Lemma incr_some sk cur e : (e < List.length s)%nat ->
    incr s sep sk (mk_iter true cur (Some e)) =
    match find_from sep (skipn e s) e with
    | None => Ok (mk_iter true (skipn e s) None)
    | Some t => let e2 := (t + List.length sep)%nat in
        if sk then let! e3 := skip_seps s sep e2 in
              if (e3 =? List.length s)%nat then Ok (mk_iter true (firstn (t - e) (skipn e s)) None) else Ok (mk_iter true (firstn (t - e) (skipn e s)) (Some e3))
        else Ok (mk_iter true (firstn (t - e) (skipn e s)) (Some e2))
    end.
  Proof using Hsep.
    intros L. unfold incr. cbn [it_on negb it_end]. destruct (Nat.eqb_spec e (List.length s)); [lia|].
    unfold find, substr. destruct (Nat.ltb_spec (List.length s) e); [lia|].
    destruct sep as [|c sp] eqn:E; [congruence|]. rewrite <- E.
    destruct (find_from sep (skipn e s) e); cbn [bind]; [reflexivity|].
    rewrite firstn_all2; [reflexivity|]. rewrite skipn_length. lia.
  Qed.
  Lemma iterate_step fuel sk cur e : iterate (S fuel) s sep sk (mk_iter true cur e) =
    let! it' := incr s sep sk (mk_iter true cur e) in let! r := iterate fuel s sep sk it' in Ok (cur :: r).
  Proof using. reflexivity. Qed.
  Lemma iterate_off fuel sk cur : iterate (S fuel) s sep sk (mk_iter true cur None) = Ok [cur].
  Proof using. cbn. now destruct fuel. Qed.
  Lemma iterate_plain : forall n e cur fuel, (List.length s - e <= n)%nat -> (e <= List.length s)%nat -> (n + 2 <= fuel)%nat ->
    exists ps, pieces sep (skipn e s) ps /\ iterate fuel s sep false (mk_iter true cur (Some e)) = Ok (cur :: ps).
  Proof using Hsep.
    pose proof sep_pos as SP.
    induction n as [|n IH]; intros e cur fuel N L F; (destruct fuel as [|fuel]; [lia|]).
    - assert (e = List.length s) by lia. subst e. rewrite skipn_all. exists [[]]. split; [now apply pieces_empty|].
      destruct fuel as [|fuel]; [lia|]. rewrite iterate_step. unfold incr. cbn [it_on negb it_end]. rewrite Nat.eqb_refl. cbn [bind].
      rewrite iterate_off. reflexivity.
    - destruct (Nat.eq_dec e (List.length s)) as [->|Ne].
      + rewrite skipn_all. exists [[]]. split; [now apply pieces_empty|].
        destruct fuel as [|fuel]; [lia|]. rewrite iterate_step. unfold incr. cbn [it_on negb it_end]. rewrite Nat.eqb_refl. cbn [bind].
        rewrite iterate_off. reflexivity.
      + rewrite iterate_step. rewrite incr_some by lia. pose proof (find_from_spec sep (skipn e s) e) as FS.
        destruct (find_from sep (skipn e s) e) as [t|].
        * destruct FS as (a & b & E & -> & NC). specialize (NC Hsep). cbv zeta. cbn [bind].
          rewrite Nat.add_comm, Nat.add_sub. rewrite E. rewrite firstn_app_exact by reflexivity.
          assert (E2 : skipn (List.length a + e + List.length sep) s = b).
          { replace (List.length a + e + List.length sep)%nat with (e + List.length (a ++ sep))%nat by (rewrite app_length; lia).
            apply skipn_skip. now rewrite <- app_assoc. }
          pose proof (skipn_bound s e a (sep ++ b) L E) as B. rewrite app_length in B.
          destruct (IH (List.length a + e + List.length sep)%nat a fuel) as (ps & P & R); [lia|lia|lia|].
          rewrite E2 in P. exists (a :: ps). split; [now constructor|]. rewrite R. reflexivity.
        * exists [skipn e s]. split; [now constructor|]. cbn [bind]. destruct fuel as [|fuel]; [lia|]. rewrite iterate_off. reflexivity.
  Qed.
  Lemma split_plain : s <> [] -> exists ps, split s sep false = Ok ps /\ pieces sep s ps.
  Proof using Hsep.
    intros Ns. unfold split, begin_. destruct s as [|c r] eqn:E; [congruence|]. rewrite <- E.
    destruct (iterate_plain (List.length s) 0 [] (S (List.length s + 2))) as (ps & P & R); [lia|lia|lia|].
    cbn [bind]. rewrite iterate_step in R. exists ps. split; [|exact P].
    rewrite E in *. destruct (incr (c :: r) sep false (mk_iter true [] (Some 0%nat))) as [it| | | |]; cbn [bind] in *; try discriminate.
    destruct (iterate _ _ _ _ it) as [q| | | |]; cbn [bind] in *; try discriminate. apply Ok_inj in R. congruence.
  Qed.
  (** Skipping *)
  Lemma skip_spec : forall fuel e, (e <= List.length s)%nat -> (List.length s - e < fuel)%nat ->
    exists n e', skip_separators fuel s sep e = Ok e' /\ (e <= e' <= List.length s)%nat /\
      skipn e s = List.concat (repeat sep n) ++ skipn e' s /\ is_prefix sep (skipn e' s) = false.
  Proof using Hsep.
    pose proof sep_pos as SP. induction fuel as [|fuel IH]; intros e L F; [lia|]. cbn [skip_separators].
    destruct (Nat.leb_spec (e + List.length sep) (List.length s)) as [H|H].
    - destruct (is_prefix sep (skipn e s)) eqn:P.
      + apply is_prefix_spec in P as [r P]. pose proof (skipn_skip _ _ _ _ P) as K.
        destruct (IH (e + List.length sep)%nat) as (n & e' & E & B & SS & NP); [lia|lia|].
        exists (S n), e'. split; [exact E|]. split; [lia|]. split; [|exact NP].
        rewrite P, <- K, SS. cbn. now rewrite <- app_assoc.
      + exists 0%nat, e. split; [reflexivity|]. split; [lia|]. split; [reflexivity|exact P].
    - exists 0%nat, e. split; [reflexivity|]. split; [lia|]. split; [reflexivity|].
      destruct (is_prefix sep (skipn e s)) eqn:P; [|reflexivity]. apply is_prefix_spec in P as [r P].
      apply (f_equal (@List.length Z)) in P. rewrite skipn_length, app_length in P. lia.
  Qed.
  Lemma pieces_skips n t ps : pieces sep t ps -> pieces sep (List.concat (repeat sep n) ++ t) (repeat [] n ++ ps).
  Proof using Hsep. intros P. induction n as [|n IH]; cbn; [exact P|]. rewrite <- app_assoc. now apply pieces_skip. Qed.
  Lemma filter_blank n ps : filter nonempty (repeat [] n ++ ps) = filter nonempty ps.
  Proof using. induction n; auto. Qed.
  Lemma iterate_skip : forall n e cur fuel, (List.length s - e <= n)%nat -> (e < List.length s)%nat -> (n + 2 <= fuel)%nat ->
    is_prefix sep (skipn e s) = false ->
    exists ps, pieces sep (skipn e s) ps /\ filter nonempty ps <> [] /\
      iterate fuel s sep true (mk_iter true cur (Some e)) = Ok (cur :: filter nonempty ps).
  Proof using Hsep.
    pose proof sep_pos as SP.
    induction n as [|n IH]; intros e cur fuel N L F NP; [lia|]. destruct fuel as [|fuel]; [lia|]. rewrite iterate_step.
    rewrite incr_some by lia. pose proof (find_from_spec sep (skipn e s) e) as FS.
    destruct (find_from sep (skipn e s) e) as [t|].
    - destruct FS as (a & b & E & -> & NC). specialize (NC Hsep). cbv zeta.
      rewrite (Nat.add_comm e), Nat.add_sub. rewrite E in *. rewrite firstn_app_exact by reflexivity.
      assert (Na : nonempty a = true) by (destruct a; [cbn in NP; now rewrite is_prefix_app in NP|reflexivity]).
      assert (E2 : skipn (List.length a + e + List.length sep) s = b).
      { replace (List.length a + e + List.length sep)%nat with (e + List.length (a ++ sep))%nat by (rewrite app_length; lia).
        apply skipn_skip. now rewrite <- app_assoc. }
      assert (B : (e + List.length a + List.length (sep ++ b) = List.length s)%nat) by (apply skipn_bound; [lia|exact E]). rewrite app_length in B.
      destruct (skip_spec (S (List.length s)) (List.length a + e + List.length sep)%nat) as (k & e3 & K1 & K2 & K3 & K4); [lia|lia|].
      unfold skip_seps. rewrite K1. cbn [bind]. rewrite E2 in K3.
      destruct (Nat.eqb_spec e3 (List.length s)) as [->|Ne].
      + rewrite skipn_all, app_nil_r in K3. cbn [bind]. destruct fuel as [|fuel]; [lia|]. rewrite iterate_off. cbn [bind].
        exists (a :: repeat [] k ++ [[]]). cbn [filter]. rewrite Na, filter_blank. cbn [filter nonempty]. split; [|split; [discriminate|reflexivity]].
        constructor; [exact NC|]. rewrite K3. rewrite <- (app_nil_r (List.concat _)). apply pieces_skips. now apply pieces_empty.
      + destruct (IH e3 a fuel) as (ps & P & NF & R); [lia|lia|lia|exact K4|]. cbn [bind]. rewrite R. cbn [bind].
        exists (a :: repeat [] k ++ ps). cbn [filter]. rewrite Na, filter_blank. split; [|split; [discriminate|reflexivity]].
        constructor; [exact NC|]. rewrite K3. now apply pieces_skips.
    - cbn [bind]. destruct fuel as [|fuel]; [lia|]. rewrite iterate_off. cbn [bind]. exists [skipn e s]. split; [now constructor|].
      cbn [filter]. destruct (skipn e s) eqn:Es; [apply (f_equal (@List.length Z)) in Es; rewrite skipn_length in Es; cbn in Es; lia|].
      cbn [nonempty]. split; [discriminate|reflexivity].
  Qed.
  Lemma split_skip : s <> [] -> exists ps, pieces sep s ps /\
    split s sep true = Ok (match filter nonempty ps with [] => [[]] | q => q end).
  Proof using Hsep.
    intros Ns. unfold split, begin_. destruct s as [|c r] eqn:Es; [congruence|]. rewrite <- Es in *.
    destruct (skip_spec (S (List.length s)) 0) as (k & e & K1 & K2 & K3 & K4); [lia|lia|]. cbn [skipn] in K3.
    unfold skip_seps. rewrite K1. cbn [bind].
    destruct (Nat.eq_dec e (List.length s)) as [->|Ne].
    - rewrite skipn_all, app_nil_r in K3. unfold incr. cbn [it_on negb it_end]. rewrite Nat.eqb_refl. cbn [bind].
      rewrite Nat.add_comm. cbn [Nat.add]. rewrite iterate_off. exists (repeat [] k ++ [[]]). rewrite filter_blank. cbn. split; [|reflexivity].
      rewrite K3. rewrite <- (app_nil_r (List.concat _)). apply pieces_skips. now apply pieces_empty.
    - destruct (iterate_skip (List.length s) e [] (S (List.length s + 2))) as (ps & P & NF & R); [lia|lia|lia|exact K4|].
      exists (repeat [] k ++ ps). rewrite filter_blank. split; [rewrite K3 at 1; now apply pieces_skips|].
      rewrite iterate_step in R.
      destruct (incr s sep true (mk_iter true [] (Some e))) as [it| | | |]; cbn [bind] in *; try discriminate.
      destruct (iterate _ _ _ _ it) as [q| | | |]; cbn [bind] in *; try discriminate. apply Ok_inj in R. inversion R; subst.
      destruct (filter nonempty ps); [congruence|reflexivity].
  Qed.
End Splitting.

Lemma split_nil sep sk : split [] sep sk = Ok [].
Proof. reflexivity. Qed.
Lemma split_chars s : s <> [] -> split s [] false = Ok (map (fun c => [c]) s ++ [[]]).
Proof.
  intros Ns. assert (G : forall n pre r cur fuel, s = pre ++ r -> List.length r = n -> (n + 2 <= fuel)%nat ->
    iterate fuel s [] false (mk_iter true cur (Some (List.length pre))) = Ok (cur :: map (fun c => [c]) r ++ [[]])).
  { induction n as [|n IH]; intros pre r cur fuel E L F; (destruct fuel as [|fuel]; [lia|]); rewrite iterate_step; unfold incr; cbn [it_on negb it_end].
    - destruct r; [|discriminate]. rewrite app_nil_r in E. subst pre. rewrite Nat.eqb_refl. cbn [bind]. destruct fuel as [|fuel]; [lia|].
      rewrite iterate_off. reflexivity.
    - destruct r as [|c r]; [discriminate|]. injection L as L.
      assert (LS : (List.length s = List.length pre + S n)%nat) by (rewrite E, app_length; cbn [List.length]; lia).
      destruct (Nat.eqb_spec (List.length pre) (List.length s)); [lia|].
      unfold substr. destruct (Nat.ltb_spec (List.length s) (List.length pre)); [lia|]. cbn [bind List.length].
      rewrite Nat.add_0_r. replace (List.length pre + 1 - List.length pre)%nat with 1%nat by lia.
      replace (skipn (List.length pre) s) with (c :: r) by (rewrite E; symmetry; now apply skipn_app_exact). cbn [firstn].
      replace (List.length pre + 1)%nat with (List.length (pre ++ [c])) by (rewrite app_length; reflexivity).
      rewrite (IH (pre ++ [c]) r [c] fuel); [reflexivity|now rewrite <- app_assoc|exact L|lia]. }
  unfold split, begin_. destruct s as [|c r] eqn:Es; [congruence|]. rewrite <- Es in *.
  specialize (G (List.length s) [] s [] (S (List.length s + 2)) eq_refl eq_refl ltac:(lia)). cbn [bind]. rewrite iterate_step in G; cbn [List.length] in G.
  rewrite Es in *. destruct (incr (c :: r) [] false (mk_iter true [] (Some 0%nat))) as [it| | | |]; cbn [bind] in *; try discriminate.
  destruct (iterate _ _ _ _ it) as [q| | | |]; cbn [bind] in *; try discriminate. apply Ok_inj in G. congruence.
Qed.
Lemma split_chars_skip s : s <> [] -> split s [] true = Loop.
Proof.
  intros Ns. unfold split, begin_. destruct s as [|c r] eqn:Es; [congruence|]. rewrite <- Es. unfold skip_seps.
  assert (G : forall f, skip_separators f s [] 0 = Loop).
  { induction f as [|f IH]; [reflexivity|]. cbn. exact IH. }
  rewrite G. reflexivity.
Qed.

(** ** Consequences *)
Lemma join_interleave sep l : join sep l = interleave sep l.
Proof.
  unfold join. destruct l as [|a l]; [reflexivity|]. revert a. induction l as [|b l IH]; intros a.
  - cbn. now rewrite app_nil_r.
  - cbn [join_loop app interleave] in *. rewrite <- IH. cbn [join_loop app]. reflexivity.
Qed.
Lemma pieces_nonnil sep t ps : pieces sep t ps -> ps <> [].
Proof. destruct 1; discriminate. Qed.
Lemma pieces_join sep t ps : pieces sep t ps -> interleave sep ps = t.
Proof.
  induction 1 as [t N|a t ps N P IH]; [reflexivity|]. cbn. pose proof (pieces_nonnil _ _ _ P). destruct ps; [congruence|]. now rewrite IH.
Qed.
Lemma pieces_free sep t ps : pieces sep t ps -> Forall (fun p => ~ contains sep p) ps.
Proof.
  induction 1 as [t N|a t ps N P IH]; constructor; auto. intros (x & y & ->). apply N. exists x, (y ++ removelast sep). now rewrite <- !app_assoc.
Qed.
Lemma app_sep_unique sep a t b u : sep <> [] -> ~ contains sep (a ++ removelast sep) -> ~ contains sep (b ++ removelast sep) ->
  a ++ sep ++ t = b ++ sep ++ u -> a = b /\ t = u.
Proof.
  intros S A B E.
  assert (G : forall a b t u, ~ contains sep (a ++ removelast sep) -> ~ contains sep (b ++ removelast sep) -> (List.length a <= List.length b)%nat ->
              a ++ sep ++ t = b ++ sep ++ u -> a = b).
  { clear - S. intros a b t u A B L E. destruct (Nat.eq_dec (List.length a) (List.length b)) as [Q|Q].
    - apply (f_equal (firstn (List.length a))) in E. rewrite !firstn_app_exact in E by auto. exact E.
    - exfalso. apply B. exists a. 
      assert (P : firstn (List.length (b ++ removelast sep)) (a ++ sep ++ t) = b ++ removelast sep).
      { rewrite E. rewrite (app_removelast_last 0 S) at 2. rewrite <- app_assoc, (app_assoc b). now apply firstn_app_exact. }
      exists (firstn (List.length b + List.length (removelast sep) - List.length a - List.length sep) t). rewrite <- P.
      rewrite firstn_app. rewrite (firstn_all2 a) by (rewrite app_length; lia). f_equal.
      rewrite firstn_app, firstn_all2 by (rewrite app_length, removelast_length; destruct sep; [congruence|cbn [List.length]; lia]).
      f_equal. f_equal. rewrite app_length. lia. }
  assert (a = b).
  { destruct (Nat.le_ge_cases (List.length a) (List.length b)) as [L|L]; [|symmetry]; eapply G; eauto. }
  subst b. split; [reflexivity|]. apply app_inv_head in E. now apply app_inv_head in E.
Qed.
(** The pieces of a text are determined. *)
Lemma pieces_unique sep t ps qs : sep <> [] -> pieces sep t ps -> pieces sep t qs -> ps = qs.
Proof.
  intros S P. revert qs. induction P as [t N|a t ps N P IH]; intros qs Q.
  - inversion Q; subst; [reflexivity|]. exfalso. apply N. eexists _, _. reflexivity.
  - inversion Q as [? N' E1|? ? ? N' Q' E1]; subst.
    + exfalso. apply N'. eexists _, _. reflexivity.
    + apply app_sep_unique in E1 as [-> ->]; auto. f_equal. auto.
Qed.
Lemma pieces_fields t ps : pieces [slash] t ps -> ps = fields t.
Proof.
  induction 1 as [t N|a t ps N P IH].
  - symmetry. apply fields_plain. intros I. apply N. apply in_split in I as (x & y & ->). exists x, y. reflexivity.
  - cbn [removelast] in N. rewrite app_nil_r in N. change (a ++ [slash] ++ t) with (a ++ slash :: t). rewrite fields_app, fields_plain.
    + now rewrite IH.
    + intros I. apply N. apply in_split in I as (x & y & ->). exists x, y. reflexivity.
Qed.
Lemma split_slash p : p <> [] -> split p (codes "/") false = Ok (fields p).
Proof.
  intros N. destruct (split_plain p [slash]) as (ps & E & P); [discriminate|exact N|]. apply pieces_fields in P. subst. exact E.
Qed.

(** ** normpath *)
Definition dir_name (c : text) : Prop := plain_name c /\ ~ In slash c.
Lemma nonempty_spec c : nonempty c = true <-> c <> [].
Proof. destruct c; cbn; split; congruence. Qed.
Lemma step_names w c : c <> [] -> ~ In slash c -> Forall dir_name w -> Forall dir_name (step w c).
Proof.
  intros N S F. unfold step. destruct (list_eq_dec Z.eq_dec c (codes ".")) as [|N1]; [exact F|].
  destruct (list_eq_dec Z.eq_dec c (codes "..")) as [|N2]; [destruct F; cbn; auto|]. constructor; [|exact F].
  split; [split; [exact N|split; auto]|exact S].
Qed.
Lemma norm_rel l : forall w, Forall dir_name w -> (forall c, In c l -> ~ In slash c) ->
  (norm_loop w l = UB /\ exists pre post, filter nonempty l = pre ++ codes ".." :: post /\ fold_left step pre w = []) \/
  (norm_loop w l = Ok (fold_left step (filter nonempty l) w) /\
   forall pre post, filter nonempty l = pre ++ codes ".." :: post -> fold_left step pre w <> []).
Proof.
  induction l as [|c l IH]; intros w F S.
  - right. split; [reflexivity|]. intros [|? ?] post E; discriminate.
  - cbn [norm_loop]. destruct c as [|x c].
    + cbn [norm_step]. unfold norm_step. cbn [bind filter nonempty]. replace (str_eqb [] (codes ".") || str_eqb [] []) with true by reflexivity.
      cbn [bind]. apply IH; [exact F|]. intros c' I. apply S. now right.
    + set (n := x :: c) in *. assert (Nn : n <> []) by discriminate. assert (Sn : ~ In slash n) by (apply S; now left).
      assert (Fi : filter nonempty (n :: l) = n :: filter nonempty l) by reflexivity. rewrite Fi.
      assert (S' : forall c, In c l -> ~ In slash c) by (intros c' I; apply S; now right).
      assert (Hs : (n = codes ".." /\ w = [] /\ norm_step w n = UB) \/ (norm_step w n = Ok (step w n) /\ (n = codes ".." -> w <> []))).
      { unfold norm_step, step. destruct (list_eq_dec Z.eq_dec n (codes ".")) as [->|N1].
        - right. split; [reflexivity|discriminate].
        - destruct (str_eqb_spec n (codes ".")); [congruence|]. destruct (str_eqb_spec n []); [congruence|]. cbn [orb].
          destruct (list_eq_dec Z.eq_dec n (codes "..")) as [E|N2].
          + destruct (str_eqb_spec n (codes "..")); [|congruence]. destruct w as [|b w]; [left; auto|]. right.
            inversion F as [|? ? [[B1 [B2 B3]] B4] F']; subst. destruct (str_eqb_spec b (codes "..")); [congruence|].
            destruct (str_eqb_spec b (codes "/")) as [->|]; [exfalso; apply B4; now left|]. split; [reflexivity|discriminate].
          + destruct (str_eqb_spec n (codes "..")); [congruence|]. right. split; [reflexivity|congruence]. }
      destruct Hs as [(-> & -> & ->)|(-> & NW)].
      * left. split; [reflexivity|]. exists [], (filter nonempty l). split; reflexivity.
      * cbn [bind]. destruct (IH (step w n) (step_names w n Nn Sn F) S') as [(E & pre & post & P & Q)|(E & P)].
        -- left. split; [exact E|]. exists (n :: pre), post. split; [now rewrite P|exact Q].
        -- right. split; [exact E|]. intros [|m pre] post H; cbn in H; inversion H; subst; [now apply NW|]. cbn. eapply P. eassumption.
Qed.
Lemma norm_abs l : forall w, Forall dir_name w -> (forall c, In c l -> ~ In slash c) ->
  norm_loop (w ++ [codes "/"]) l = Ok (fold_left step (filter nonempty l) w ++ [codes "/"]).
Proof.
  induction l as [|c l IH]; intros w F S; [reflexivity|].
  assert (S' : forall c, In c l -> ~ In slash c) by (intros c' I; apply S; now right).
  cbn [norm_loop]. destruct c as [|x c].
  - unfold norm_step. replace (str_eqb [] (codes ".") || str_eqb [] []) with true by reflexivity. cbn [bind filter nonempty]. now apply IH.
  - set (n := x :: c) in *. assert (Nn : n <> []) by discriminate. assert (Sn : ~ In slash n) by (apply S; now left).
    assert (Fi : filter nonempty (n :: l) = n :: filter nonempty l) by reflexivity. rewrite Fi. cbn [fold_left].
    assert (Hs : norm_step (w ++ [codes "/"]) n = Ok (step w n ++ [codes "/"])).
    { unfold norm_step, step. destruct (list_eq_dec Z.eq_dec n (codes ".")) as [->|N1]; [reflexivity|].
      destruct (str_eqb_spec n (codes ".")); [congruence|]. destruct (str_eqb_spec n []); [congruence|]. cbn [orb].
      destruct (list_eq_dec Z.eq_dec n (codes "..")) as [E|N2].
      - destruct (str_eqb_spec n (codes "..")); [|congruence]. destruct w as [|b w]; [reflexivity|]. cbn [app tl].
        inversion F as [|? ? [[B1 [B2 B3]] B4] F']; subst. destruct (str_eqb_spec b (codes "..")); [congruence|].
        destruct (str_eqb_spec b (codes "/")) as [->|]; [exfalso; apply B4; now left|]. reflexivity.
      - destruct (str_eqb_spec n (codes "..")); [congruence|]. reflexivity. }
    rewrite Hs. cbn [bind]. apply IH; [now apply step_names|exact S'].
Qed.
Lemma fold_names l : forall w, (forall c, In c l -> c <> [] /\ ~ In slash c) -> Forall dir_name w -> Forall dir_name (fold_left step l w).
Proof.
  induction l as [|c l IH]; intros w S F; [exact F|]. cbn. apply IH; [intros c' I; apply S; now right|].
  destruct (S c (or_introl eq_refl)). now apply step_names.
Qed.
(** Showing a list of names as a path. *)
Lemma fold_append names : Forall (fun c => c <> [] /\ ~ In slash c) names -> forall acc z, z <> slash ->
  fold_left appendpath names (acc ++ [z]) = acc ++ [z] ++ List.concat (map (fun c => slash :: c) names).
Proof.
  induction 1 as [|c names [Nc Sc] _ IH]; intros acc z Hz; [reflexivity|]. cbn [fold_left map List.concat].
  assert (A : appendpath (acc ++ [z]) c = acc ++ [z] ++ slash :: c).
  { unfold appendpath. destruct c as [|x c]; [congruence|]. destruct (acc ++ [z]) eqn:E; [destruct acc; discriminate|]. rewrite <- E. clear E.
    replace (List.length (acc ++ [z]) - 1)%nat with (List.length acc) by (rewrite app_length; cbn; lia). rewrite sc_mid.
    destruct (Z.eqb_spec z 47); [exfalso; now apply Hz|]. destruct (Z.eqb_spec x 47) as [->|]; [exfalso; apply Sc; now left|]. now rewrite <- app_assoc. }
  rewrite A. destruct (exists_last Nc) as (c' & y & ->).
  replace (acc ++ [z] ++ slash :: c' ++ [y]) with ((acc ++ z :: slash :: c') ++ [y]) by (rewrite <- app_assoc; reflexivity).
  rewrite IH.
  - rewrite <- !app_assoc. cbn. rewrite <- !app_assoc. reflexivity.
  - intros ->. apply Sc, in_or_app. right. now left.
Qed.
Lemma interleave_concat sep a l : interleave sep (a :: l) = a ++ List.concat (map (fun c => sep ++ c) l).
Proof.
  revert a. induction l as [|b l IH]; intros a; [cbn; now rewrite app_nil_r|].
  change (interleave sep (a :: b :: l)) with (a ++ sep ++ interleave sep (b :: l)). rewrite IH. cbn. now rewrite <- app_assoc.
Qed.
Definition show_rel (names : list text) : text := match names with [] => codes "." | _ => interleave [slash] names end.
Definition show_abs (names : list text) : text := slash :: interleave [slash] names.
Lemma fold_rel names : names <> [] -> Forall (fun c => c <> [] /\ ~ In slash c) names -> fold_left appendpath names [] = interleave [slash] names.
Proof.
  intros N F. destruct names as [|a names]; [congruence|]. inversion F as [|? ? [Na Sa] F']; subst. cbn [fold_left].
  replace (appendpath [] a) with a by (destruct a; reflexivity). rewrite interleave_concat. destruct (exists_last Na) as (a' & z & ->).
  rewrite fold_append; [now rewrite <- app_assoc|exact F'|]. intros ->. apply Sa, in_or_app. right. now left.
Qed.
Lemma fold_abs names : Forall (fun c => c <> [] /\ ~ In slash c) names -> fold_left appendpath (codes "/" :: names) [] = show_abs names.
Proof.
  intros F. unfold show_abs. cbn [fold_left]. replace (appendpath [] (codes "/")) with [slash] by reflexivity.
  destruct names as [|a names]; [reflexivity|]. inversion F as [|? ? [Na Sa] F']; subst. cbn [fold_left].
  assert (A : appendpath [slash] a = slash :: a).
  { unfold appendpath. destruct a as [|x a]; [congruence|]. cbn [List.length Nat.sub sc nth]. cbn. destruct (Z.eqb_spec x 47) as [->|]; [exfalso; apply Sa; now left|reflexivity]. }
  rewrite A, interleave_concat. destruct (exists_last Na) as (a' & z & ->).
  change (slash :: a' ++ [z]) with ((slash :: a') ++ [z]). rewrite fold_append; [cbn; now rewrite <- app_assoc|exact F'|].
  intros ->. apply Sa, in_or_app. right. now left.
Qed.
Lemma names_ok w : Forall dir_name w -> Forall (fun c => c <> [] /\ ~ In slash c) (rev w).
Proof. intros F. apply Forall_rev. eapply Forall_impl; [|exact F]. intros c [[H _] S]. auto. Qed.
Lemma comp_facts p c : In c (components p) -> c <> [] /\ ~ In slash c.
Proof. apply in_components. Qed.

Lemma normpath_rel p : ~ absolute p ->
  (normpath p = UB /\ climbs p) \/ (normpath p = Ok (show_rel (rev (fold_left step (components p) []))) /\ ~ climbs p).
Proof.
  intros A. unfold normpath. destruct p as [|x p].
  - right. split; [reflexivity|]. intros (pre & post & H & _). destruct pre; discriminate.
  - assert (Hx : x <> 47) by (intros ->; apply A; eexists; reflexivity). cbn [sc nth]. unfold sc. cbn [nth]. destruct (Z.eqb_spec x 47); [congruence|].
    rewrite split_slash by discriminate. cbn [bind].
    destruct (norm_rel (fields (x :: p)) [] ltac:(constructor) (fun c I => in_fields_no_slash _ c I)) as [(E & pre & post & P & Q)|(E & P)].
    + left. rewrite E. split; [reflexivity|]. exists pre, post. auto.
    + right. rewrite E. cbn [bind]. fold (components (x :: p)) in *. split; [|intros (pre & post & H1 & H2); exact (P _ _ H1 H2)].
      set (st := fold_left step (components (x :: p)) []) in *.
      assert (F : Forall dir_name st) by (apply fold_names; [apply comp_facts|constructor]).
      destruct st as [|b st'] eqn:Es; [reflexivity|]. f_equal.
      assert (Nr : rev (b :: st') <> []) by (cbn; intros X; symmetry in X; now apply app_cons_not_nil in X).
      rewrite fold_rel; [|exact Nr|now apply names_ok]. unfold show_rel. now destruct (rev (b :: st')).
Qed.
Lemma normpath_abs p : absolute p -> normpath p = Ok (show_abs (rev (fold_left step (components p) []))).
Proof.
  intros [r ->]. unfold normpath. unfold sc. cbn [nth]. change (slash =? 47) with true. cbv iota.
  rewrite split_slash by discriminate. cbn [bind].
  pose proof (norm_abs (fields (slash :: r)) [] ltac:(constructor) (fun c I => in_fields_no_slash _ c I)) as E. cbn [app] in E. rewrite E.
  fold (components (slash :: r)). set (st := fold_left step (components (slash :: r)) []).
  assert (F : Forall dir_name st) by (apply fold_names; [apply comp_facts|constructor]). cbn [bind].
  destruct (st ++ [codes "/"]) eqn:X; [symmetry in X; now apply app_cons_not_nil in X|]. rewrite <- X. clear X.
  rewrite rev_unit, fold_abs by now apply names_ok. reflexivity.
Qed.
Lemma components_interleave names : Forall (fun c => c <> [] /\ ~ In slash c) names -> components (interleave [slash] names) = names.
Proof.
  induction 1 as [|a l [Na Sa] F IH]; [reflexivity|]. destruct l as [|b l]; [now apply components_plain|].
  change (interleave [slash] (a :: b :: l)) with (a ++ slash :: interleave [slash] (b :: l)).
  rewrite components_app, IH, components_plain by assumption. reflexivity.
Qed.
Lemma fold_plain l : Forall plain_name l -> forall w, fold_left step l w = rev l ++ w.
Proof.
  induction 1 as [|c l (N & N1 & N2) _ IH]; intros w; [reflexivity|]. cbn. rewrite IH, <- app_assoc. f_equal.
  unfold step. destruct (list_eq_dec _ _ _); [congruence|]. destruct (list_eq_dec _ _ _); [congruence|]. reflexivity.
Qed.
Lemma fold_under l : forall u w, (forall pre post, l = pre ++ codes ".." :: post -> fold_left step pre u <> []) ->
  fold_left step l (u ++ w) = fold_left step l u ++ w.
Proof.
  induction l as [|c l IH]; intros u w H; [reflexivity|]. cbn [fold_left].
  assert (Hs : step (u ++ w) c = step u c ++ w).
  { unfold step. destruct (list_eq_dec _ c _); [reflexivity|]. destruct (list_eq_dec _ c _) as [->|]; [|reflexivity].
    destruct u as [|b u]; [|reflexivity]. exfalso. exact (H [] l eq_refl eq_refl). }
  rewrite Hs. apply IH. intros pre post E. apply (H (c :: pre) post). now rewrite E.
Qed.
