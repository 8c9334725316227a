(** C215: what msat --view tells. *)
From Verif Require Import Base BaseFacts IniModel IniProofs GribModel Db1Spec Db1Props ViewModel.
Open Scope string_scope.
Open Scope list_scope.
Open Scope Z_scope.

(** ** What is asked for *)
Section Spec.
Variable D : Type.
Variable num : D -> str.
Definition one_line (s : str) : Prop := ~ In 10 s.
Definition size (z : Z) : Prop := 0 <= z < 2 ^ 31.
Definition shown_domains : list str := [[]; codes "SUBDATASETS"; codes "IMAGE_STRUCTURE"; codes "RPC"].
Definition tidy_md (md : str -> option (list str)) : Prop := forall d l, In d shown_domains -> md d = Some l -> Forall one_line l.
(** Texts of one line, sizes that are int, and types that have a name. *)
Definition tidy_band (b : vband D) : Prop := one_line (b_desc b) /\ one_line (b_unit b) /\ size (b_x b) /\ size (b_y b) /\ 0 <= b_type b <= 11 /\ tidy_md (b_md b).
Definition tidy (d : vset D) : Prop := one_line (d_desc d) /\ one_line (d_proj d) /\ size (d_x d) /\ size (d_y d) /\ Z.of_nat (List.length (d_bands d)) < 2 ^ 31 /\ tidy_md (d_md d) /\ Forall tidy_band (d_bands d).
(** Doubles that are written alike, and what is told of two datasets is the same. *)
Definition alike (a b : D) : Prop := num a = num b.
Definition same_md (f g : str -> option (list str)) : Prop := forall d, In d shown_domains -> f d = g d.
Definition same_stats (s t : option (D * D * D * D)) : Prop :=
  match s, t with
  | None, None => True
  | Some (a1, a2, a3, a4), Some (b1, b2, b3, b4) => alike a1 b1 /\ alike a2 b2 /\ alike a3 b3 /\ alike a4 b4
  | _, _ => False
  end.
Definition same_band (w : bool) (a b : vband D) : Prop :=
  b_desc a = b_desc b /\ b_x a = b_x b /\ b_y a = b_y b /\ b_type a = b_type b /\ alike (b_offset a) (b_offset b) /\ alike (b_scale a) (b_scale b) /\ b_unit a = b_unit b /\
  same_md (b_md a) (b_md b) /\ same_stats (b_stats a w) (b_stats b w).
Definition same_geo (a b : D * D * D * (D * D * D)) : Prop :=
  let '(a0, a1, a2, (a3, a4, a5)) := a in let '(b0, b1, b2, (b3, b4, b5)) := b in alike a0 b0 /\ alike a1 b1 /\ alike a2 b2 /\ alike a3 b3 /\ alike a4 b4 /\ alike a5 b5.
Definition same_set (w : bool) (a b : vset D) : Prop :=
  d_desc a = d_desc b /\ d_x a = d_x b /\ d_y a = d_y b /\ d_proj a = d_proj b /\ same_geo (d_geo a) (d_geo b) /\ same_md (d_md a) (d_md b) /\ Forall2 (same_band w) (d_bands a) (d_bands b).
(** The text of a double is one of letters, digits, signs and dots. *)
Definition number_texts : Prop := forall x c, In c (num x) -> c <> 10 /\ c <> 32 /\ c <> 44.
End Spec.
Arguments tidy {D}. Arguments tidy_band {D}. Arguments same_set {D}. Arguments same_band {D}. Arguments same_stats {D}. Arguments same_geo {D}. Arguments alike {D}. Arguments number_texts {D}.

(** ** Texts and lines *)
Definition unlines (l : list str) : str := flat_map line l.
Lemma cut_at (c : Z) a : forall b s t, ~ In c a -> ~ In c b -> a ++ c :: s = b ++ c :: t -> a = b /\ s = t.
Proof.
  induction a as [|x a IH]; intros [|y b] s t A B E; cbn in *.
  - injection E as E. auto.
  - injection E as E1 E2. exfalso. apply B. now left.
  - injection E as E1 E2. exfalso. apply A. now left.
  - injection E as E1 E2. destruct (IH b s t) as (-> & ->); [tauto|tauto|exact E2|]. now subst.
Qed.
Lemma unlines_inj l : forall l', Forall one_line l -> Forall one_line l' -> unlines l = unlines l' -> l = l'.
Proof.
  induction l as [|s l IH]; intros [|t l'] F F' E; cbn in E; [reflexivity|destruct t; discriminate|destruct s; discriminate|].
  inversion F; subst. inversion F'; subst. unfold line in E. rewrite <- !app_assoc in E. cbn [app] in E. destruct (cut_at 10 s t _ _ H1 H3 E) as (-> & E'). f_equal. now apply IH.
Qed.
Lemma unlines_app a b : unlines (a ++ b) = unlines a ++ unlines b.
Proof. apply flat_map_app. Qed.
Lemma unlines_end l : l <> [] -> exists q, unlines l = q ++ [10].
Proof. intros N. destruct (exists_last N) as (l' & s & ->). exists (unlines l' ++ s). rewrite unlines_app. unfold unlines at 2. cbn [flat_map]. unfold line. now rewrite app_nil_r, app_assoc. Qed.
Lemma print_digits z : size z -> Forall digit (print z) /\ dec_val (print z) = z.
Proof. intros H. unfold size in H. destruct (print_plain z) as (_ & A & B & _); [lia|]. auto. Qed.
Lemma no_digit c t : Forall digit t -> ~ digit c -> ~ In c t.
Proof. intros F N I. rewrite Forall_forall in F. auto. Qed.
Lemma print_inj a b : size a -> size b -> print a = print b -> a = b.
Proof. intros A B E. destruct (print_digits a A) as (_ & <-), (print_digits b B) as (_ & <-). now rewrite E. Qed.
Lemma print_cut c a b s t : ~ digit c -> size a -> size b -> print a ++ c :: s = print b ++ c :: t -> a = b /\ s = t.
Proof.
  intros N A B E. destruct (print_digits a A) as (FA & _), (print_digits b B) as (FB & _). destruct (cut_at c _ _ _ _ (no_digit c _ FA N) (no_digit c _ FB N) E) as (E1 & E2). split; [now apply print_inj|exact E2].
Qed.
Lemma one_line_app a b : one_line a -> one_line b -> one_line (a ++ b).
Proof. unfold one_line. intros A B I. apply in_app_or in I as [I|I]; auto. Qed.
Lemma one_line_print z : size z -> one_line (print z).
Proof. intros H. apply no_digit; [now apply print_digits|unfold digit; lia]. Qed.
(** ** Lines of metadata *)
Definition md_part (p : str) (d : str) (o : option (list str)) : list str :=
  match o with Some l => (p ++ match d with [] => codes "Metadata:" | _ => codes "Metadata (" ++ d ++ codes "):" end) :: map (fun s => p ++ codes "  " ++ s) l | None => [] end.
Definition md_lines (p : str) (md : str -> option (list str)) : list str := flat_map (fun d => md_part p d (md d)) shown_domains.
Lemma dump_items_lines p l : dump_items p l = unlines (map (fun s => p ++ codes "  " ++ s) l).
Proof. unfold dump_items, unlines. induction l as [|s l IH]; [reflexivity|]. cbn [flat_map map]. now rewrite IH. Qed.
Lemma dump_lines md p : dump_metadata md p = unlines (md_lines p md).
Proof.
  unfold dump_metadata, md_lines, shown_domains. cbn [flat_map known_md_domains]. rewrite !unlines_app. rewrite !dump_items_lines || idtac.
  assert (X : forall d, match md d with Some l => line (p ++ match d with [] => codes "Metadata:" | _ => codes "Metadata (" ++ d ++ codes "):" end) ++ dump_items p l | None => [] end = unlines (md_part p d (md d))).
  { intros d. unfold md_part. destruct (md d) as [l|]; [|reflexivity]. rewrite dump_items_lines. reflexivity. }
  rewrite <- !X. cbn [unlines flat_map]. reflexivity.
Qed.
(** What comes after a part does not look like its title or its items. *)
Definition apart (p h : str) (rest : list str) : Prop := match rest with [] => True | x :: _ => x <> h /\ forall s, x <> p ++ codes "  " ++ s end.
Lemma items_inj p h l : forall l' r r', apart p h r -> apart p h r' -> map (fun s => p ++ codes "  " ++ s) l ++ r = map (fun s => p ++ codes "  " ++ s) l' ++ r' -> l = l' /\ r = r'.
Proof.
  induction l as [|s l IH]; intros [|s' l'] r r' A A' E; cbn [map app] in E.
  - auto.
  - subst r. destruct A as (_ & A). now destruct (A s').
  - subst r'. destruct A' as (_ & A'). now destruct (A' s).
  - injection E as E1 E2. apply app_inv_head in E1. injection E1 as ->. destruct (IH l' r r' A A' E2) as (-> & ->). auto.
Qed.
Lemma part_inj p d o o' r r' : let h := p ++ match d with [] => codes "Metadata:" | _ => codes "Metadata (" ++ d ++ codes "):" end in
  apart p h r -> apart p h r' -> md_part p d o ++ r = md_part p d o' ++ r' -> o = o' /\ r = r'.
Proof.
  intros h A A' E. unfold md_part in E. fold h in E. destruct o as [l|], o' as [l'|]; cbn [app] in E.
  - injection E as E. destruct (items_inj p h l l' r r' A A' E) as (-> & ->). auto.
  - subst r'. now destruct A'.
  - subst r. now destruct A.
  - auto.
Qed.
Definition heading (p : str) (d : str) : str := p ++ match d with [] => codes "Metadata:" | _ => codes "Metadata (" ++ d ++ codes "):" end.
(** What comes after all metadata. *)
Definition after (p : str) (rest : list str) : Prop := match rest with [] => True | x :: _ => (forall d, In d shown_domains -> x <> heading p d) /\ forall s, x <> p ++ codes "  " ++ s end.
Lemma md_inj p f g r r' : after p r -> after p r' -> md_lines p f ++ r = md_lines p g ++ r' -> same_md f g /\ r = r'.
Proof.
  intros A A'. unfold md_lines.
  assert (H : forall ds r r', NoDup ds -> incl ds shown_domains -> after p r -> after p r' -> flat_map (fun d => md_part p d (f d)) ds ++ r = flat_map (fun d => md_part p d (g d)) ds ++ r' -> (forall d, In d ds -> f d = g d) /\ r = r').
  { clear A A' r r'. induction ds as [|d ds IH]; intros r r' ND I A A' E; [split; [intros d []|exact E]|]. cbn [flat_map] in E. rewrite <- !app_assoc in E. inversion ND; subst.
    assert (NS : forall (q : str -> option (list str)) x, after p x -> apart p (heading p d) (flat_map (fun d => md_part p d (q d)) ds ++ x)).
    { intros q x AX. clear IH E ND. induction ds as [|d' ds IH]; cbn [flat_map app].
      - destruct x as [|y x]; [exact Logic.I|]. destruct AX as (X1 & X2). split; [apply X1; apply I; now left|exact X2].
      - unfold md_part at 1. destruct (q d') as [l|]; cbn [app].
        + split.
          * fold (heading p d'). unfold heading. intros X. apply app_inv_head in X. apply H1. left.
            assert (I1 : In d' shown_domains) by (apply I; right; now left). assert (I2 : In d shown_domains) by (apply I; now left).
            destruct I1 as [<-|[<-|[<-|[<-|[]]]]], I2 as [<-|[<-|[<-|[<-|[]]]]]; try reflexivity; discriminate.
          * intros s X. apply app_inv_head in X. destruct d'; discriminate.
        + apply IH; [intros x' X'; apply I; destruct X' as [<-|X']; [now left|right; now right]|intros X; apply H1; now right|now inversion H2]. }
    destruct (part_inj p d (f d) (g d) _ _ (NS f r A) (NS g r' A') E) as (E1 & E2). destruct (IH r r' H2) as (F & R); [intros x X; apply I; now right|exact A|exact A'|exact E2|]. split; [|exact R]. intros d0 [<-|J]; auto. }
  apply H; [|apply incl_refl|exact A|exact A']. repeat constructor; cbn; intuition discriminate.
Qed.
(** ** Lines of bands *)
Section Bands.
Variable D : Type.
Variable num : D -> str.
Hypothesis NT : number_texts num.
Variable w : bool.
Definition stat_lines (s : option (D * D * D * D)) : list str :=
  match s with Some (lo, hi, mean, dev) => [codes "  Pixel range: min " ++ num lo ++ codes " max " ++ num hi ++ codes " mean " ++ num mean ++ codes " stddev " ++ num dev] | None => [] end.
Definition five_lines (b : vband D) : list str :=
  [codes "  Size: " ++ print (b_x b) ++ codes "x" ++ print (b_y b); codes "  Type: " ++ type_name (b_type b); codes "  Offset: " ++ num (b_offset b); codes "  Scale: " ++ num (b_scale b); codes "  Unit: " ++ b_unit b].
Fixpoint band_lines (i n : Z) (l : list (vband D)) : list str :=
  match l with
  | [] => []
  | b :: l' => (codes "Raster band " ++ print i ++ codes "/" ++ print n ++ codes ": " ++ b_desc b) :: five_lines b ++ md_lines (codes "  ") (b_md b) ++ stat_lines (b_stats b w) ++ band_lines (i + 1) n l'
  end.
Lemma bands_lines n l : forall i, print_bands num i n l w = unlines (band_lines i n l).
Proof.
  induction l as [|b l IH]; intros i; [reflexivity|]. cbn [print_bands band_lines]. unfold unlines. cbn [flat_map]. fold (unlines (five_lines b ++ md_lines (codes "  ") (b_md b) ++ stat_lines (b_stats b w) ++ band_lines (i + 1) n l)). rewrite !unlines_app, <- dump_lines, <- IH. f_equal. unfold print_band. rewrite <- !app_assoc. unfold five_lines, unlines. cbn [flat_map]. rewrite <- !app_assoc. cbn [app]. do 6 f_equal. unfold stat_lines. destruct (b_stats b w) as [[[[lo hi] mean] dev]|]; cbn [flat_map]; rewrite ?app_nil_r; reflexivity.
Qed.
Lemma num_no a c : c = 10 \/ c = 32 \/ c = 44 -> ~ In c (num a).
Proof. intros C I. apply NT in I. lia. Qed.
Lemma stat_inj s t r r' : match r with x :: _ => hd 0 x = 82 | [] => True end -> match r' with x :: _ => hd 0 x = 82 | [] => True end -> stat_lines s ++ r = stat_lines t ++ r' -> same_stats num s t /\ r = r'.
Proof.
  intros A A' E. unfold stat_lines in E. destruct s as [[[[a1 a2] a3] a4]|], t as [[[[b1 b2] b3] b4]|]; cbn [app] in E.
  - injection E as E R. split; [|exact R].
    cbn [codes] in E. change (codes " max ") with (32 :: codes "max ") in E. change (codes " mean ") with (32 :: codes "mean ") in E. change (codes " stddev ") with (32 :: codes "stddev ") in E. cbn [app] in E.
    destruct (cut_at 32 _ _ _ _ (num_no a1 32 ltac:(auto)) (num_no b1 32 ltac:(auto)) E) as (E1 & F1). injection F1 as F1.
    destruct (cut_at 32 _ _ _ _ (num_no a2 32 ltac:(auto)) (num_no b2 32 ltac:(auto)) F1) as (E2 & F2). injection F2 as F2.
    destruct (cut_at 32 _ _ _ _ (num_no a3 32 ltac:(auto)) (num_no b3 32 ltac:(auto)) F2) as (E3 & F3). injection F3 as F3.
    repeat split; assumption.
  - destruct r' as [|x r']; [discriminate|]. injection E as E _. subst x. discriminate.
  - destruct r as [|x r]; [discriminate|]. injection E as E _. subst x. discriminate.
  - split; [exact I|exact E].
Qed.
Lemma type_inj a b : 0 <= a <= 11 -> 0 <= b <= 11 -> type_name a = type_name b -> a = b.
Proof.
  intros A B. assert (CA : In a [0; 1; 2; 3; 4; 5; 6; 7; 8; 9; 10; 11]) by (cbn; lia). assert (CB : In b [0; 1; 2; 3; 4; 5; 6; 7; 8; 9; 10; 11]) by (cbn; lia). clear A B. revert CA CB. cbn [In].
  intros [<-|[<-|[<-|[<-|[<-|[<-|[<-|[<-|[<-|[<-|[<-|[<-|[]]]]]]]]]]]]] [<-|[<-|[<-|[<-|[<-|[<-|[<-|[<-|[<-|[<-|[<-|[<-|[]]]]]]]]]]]]] E; try reflexivity; discriminate.
Qed.
Lemma size_line_inj p a b a' b' : size a -> size b -> size a' -> size b' -> p ++ print a ++ codes "x" ++ print b = p ++ print a' ++ codes "x" ++ print b' -> a = a' /\ b = b'.
Proof.
  intros A B A' B' E. apply app_inv_head in E. change (codes "x") with [120] in E. cbn [app] in E. destruct (print_cut 120 a a' _ _ ltac:(unfold digit; lia) A A' E) as (E1 & E2). split; [exact E1|now apply print_inj].
Qed.
Lemma bands_inj n n' l : forall l' i, size n -> size n' -> Forall tidy_band l -> Forall tidy_band l' -> band_lines i n l = band_lines i n' l' -> Forall2 (same_band num w) l l'.
Proof.
  induction l as [|b l IH]; intros [|b' l'] i N N' F F' E; try discriminate; [constructor|]. inversion F as [|? ? T F1]; subst. inversion F' as [|? ? T' F1']; subst.
  destruct T as (_ & _ & TX & TY & TT & _), T' as (_ & _ & TX' & TY' & TT' & _).
  cbn [band_lines] in E. unfold five_lines in E. cbn [app] in E. injection E as E0 E1 E2 E3 E4 E5 E6.
  apply app_inv_head in E0. cbn [codes] in E0. change (codes "/") with [47] in E0. change (codes ": ") with [58; 32] in E0. cbn [app] in E0.
  injection E0 as E0. destruct (print_cut 58 n n' _ _ ltac:(unfold digit; lia) N N' E0) as (<- & D0). injection D0 as D0.
  assert (HD : forall j (x : list (vband D)), match band_lines j n x with y :: _ => hd 0 y = 82 | [] => True end) by (intros j [|y x]; [exact I|reflexivity]).
  assert (AF : forall s j x, after (codes "  ") (stat_lines s ++ band_lines j n x)).
  { intros s j x. unfold stat_lines. destruct s as [[[[a1 a2] a3] a4]|]; cbn [app].
    - split; [intros d I; destruct I as [<-|[<-|[<-|[<-|[]]]]]; discriminate|intros t; discriminate].
    - destruct x as [|y x]; [exact I|]. cbn [band_lines]. split; [intros d _; discriminate|intros t; discriminate]. }
  destruct (md_inj (codes "  ") (b_md b) (b_md b') _ _ (AF _ _ _) (AF _ _ _) E6) as (M & E7).
  destruct (stat_inj _ _ _ _ (HD _ _) (HD _ _) E7) as (S & E8).
  destruct (size_line_inj [] (b_x b) (b_y b) (b_x b') (b_y b') TX TY TX' TY' E1) as (X1 & X2).
  constructor; [|apply (IH l' (i + 1)); assumption].
  unfold same_band, alike. repeat (split; [first [assumption|now apply type_inj]|]). exact S.
Qed.
End Bands.
(** ** C215 *)
Section Whole.
Variable D : Type.
Variable num : D -> str.
Hypothesis NT : number_texts num.
Definition geo_row (a b c : D) : str := codes "  " ++ setw10 (num a) ++ codes "," ++ [9] ++ setw10 (num b) ++ codes "," ++ [9] ++ setw10 (num c).
Definition all_lines (d : vset D) (w : bool) : list str :=
  let '(g0, g1, g2, (g3, g4, g5)) := d_geo d in
  [codes "Dataset: " ++ d_desc d; codes "Size: " ++ print (d_x d) ++ codes "x" ++ print (d_y d); codes "Projection: " ++ d_proj d; codes "Geotransform matrix: "; geo_row g0 g1 g2; geo_row g3 g4 g5] ++
  md_lines [] (d_md d) ++ band_lines D num w 1 (Z.of_nat (List.length (d_bands d))) (d_bands d).
Lemma dataset_lines d w : print_dataset num d w = unlines (all_lines d w).
Proof.
  unfold print_dataset, all_lines. destruct (d_geo d) as [[[g0 g1] g2] [[g3 g4] g5]]. rewrite !unlines_app, <- dump_lines, <- bands_lines. unfold unlines. cbn [flat_map]. rewrite <- !app_assoc. reflexivity.
Qed.
Lemma one_line_num a : one_line (num a).
Proof. apply num_no; auto. Qed.
Lemma one_line_setw s : one_line s -> one_line (setw10 s).
Proof. intros H. apply one_line_app; [|exact H]. intros I. apply repeat_spec in I. discriminate. Qed.
Ltac one := repeat first [assumption | apply one_line_num | apply one_line_setw | apply one_line_print | apply one_line_app | (unfold one_line; cbn; intuition discriminate)].
Lemma one_line_type t : one_line (type_name t).
Proof. unfold type_name. repeat (match goal with |- context [if ?b then _ else _] => destruct b end; [unfold one_line; cbn; intuition discriminate|]). unfold one_line; cbn; intuition discriminate. Qed.
Lemma one_line_md p md : one_line p -> tidy_md md -> Forall one_line (md_lines p md).
Proof.
  intros P T. apply Forall_forall. intros x I. unfold md_lines in I. apply in_flat_map in I as (d & J & I). unfold md_part in I. destruct (md d) as [l|] eqn:E; [|contradiction]. specialize (T d l J E). rewrite Forall_forall in T. destruct I as [<-|I].
  - apply one_line_app; [exact P|]. destruct J as [<-|[<-|[<-|[<-|[]]]]]; unfold one_line; cbn; intuition discriminate.
  - apply in_map_iff in I as (s & <- & S). one. now apply T.
Qed.
Lemma one_line_bands w n l : forall i, size n -> i + Z.of_nat (List.length l) <= 2 ^ 31 -> 0 <= i -> Forall tidy_band l -> Forall one_line (band_lines D num w i n l).
Proof.
  induction l as [|b l IH]; intros i N S P F; [constructor|]. inversion F as [|? ? (T1 & T2 & T3 & T4 & _ & T5) F']; subst. cbn [band_lines List.length] in *.
  assert (SI : size i) by (unfold size in *; lia). constructor; [one|]. apply Forall_app. split; [|apply Forall_app; split; [apply one_line_md; [one|exact T5]|apply Forall_app; split]].
  - unfold five_lines. repeat constructor; one. apply one_line_type.
  - unfold stat_lines. destruct (b_stats b w) as [[[[a1 a2] a3] a4]|]; repeat constructor; one.
  - apply IH; [exact N|lia|lia|exact F'].
Qed.
Lemma one_line_all d w : tidy d -> Forall one_line (all_lines d w).
Proof.
  intros (T1 & T2 & T3 & T4 & T5 & T6 & T7). unfold all_lines, geo_row. destruct (d_geo d) as [[[g0 g1] g2] [[g3 g4] g5]]. apply Forall_app. split; [|apply Forall_app; split; [apply one_line_md; [intros []|exact T6]|]].
  - repeat constructor; one.
  - destruct (d_bands d) as [|b l]; [constructor|]. apply one_line_bands; [unfold size; lia|lia|lia|exact T7].
Qed.
Lemma setw_inj a b s t : setw10 (num a) ++ 44 :: s = setw10 (num b) ++ 44 :: t -> num a = num b /\ s = t.
Proof.
  intros E. assert (X : forall x, ~ In 44 (setw10 (num x))). { intros x I. unfold setw10 in I. apply in_app_or in I as [I|I]; [apply repeat_spec in I; discriminate|]. revert I. apply (num_no D num NT). auto. }
  destruct (cut_at 44 _ _ _ _ (X a) (X b) E) as (E1 & E2). split; [|exact E2]. unfold setw10 in E1. revert E1. generalize (10 - List.length (num a))%nat (10 - List.length (num b))%nat. intros n m.
  assert (S : forall x y k, num x = 32 :: repeat 32 k ++ num y -> False). { intros x y k Q. apply (num_no D num NT x 32); [auto|]. rewrite Q. now left. }
  revert m. induction n as [|n IH]; intros [|m] Q; cbn [repeat app] in Q; [exact Q|exfalso; eauto|exfalso; symmetry in Q; eauto|]. injection Q as Q. eauto.
Qed.
Lemma last_inj a b : setw10 (num a) = setw10 (num b) -> num a = num b.
Proof. intros E. apply (setw_inj a b [] []). now rewrite E. Qed.
Lemma row_inj a b c a' b' c' : geo_row a b c = geo_row a' b' c' -> alike num a a' /\ alike num b b' /\ alike num c c'.
Proof.
  unfold geo_row. intros E. apply app_inv_head in E. change (codes ",") with [44] in E. cbn [app] in E. apply setw_inj in E as (E1 & E). injection E as E. apply setw_inj in E as (E2 & E). injection E as E. apply last_inj in E. auto.
Qed.
Lemma bands_after n l : after [] (band_lines D num false 1 n l) /\ after [] (band_lines D num true 1 n l).
Proof. destruct l as [|b l]; [split; exact I|]. cbn [band_lines]. split; (split; [intros d J; destruct J as [<-|[<-|[<-|[<-|[]]]]]; discriminate|intros t; discriminate]). Qed.
(** Everything that is told can be read back from the text: two datasets with the same text are the same in all that is told. *)
Theorem C215_view_partial a b w : tidy a -> tidy b -> print_dataset num a w = print_dataset num b w -> same_set num w a b.
Proof.
  intros TA TB E. rewrite !dataset_lines in E. apply unlines_inj in E; [|now apply one_line_all|now apply one_line_all].
  destruct TA as (_ & _ & AX & AY & AN & _ & AB), TB as (_ & _ & BX & BY & BN & _ & BB). unfold all_lines in E. destruct (d_geo a) as [[[g0 g1] g2] [[g3 g4] g5]] eqn:GA, (d_geo b) as [[[h0 h1] h2] [[h3 h4] h5]] eqn:GB. cbn [app] in E.
  pose proof (f_equal (fun l => nth 4 l []) E : geo_row g0 g1 g2 = geo_row h0 h1 h2) as R1. pose proof (f_equal (fun l => nth 5 l []) E : geo_row g3 g4 g5 = geo_row h3 h4 h5) as R2.
  injection E as E1 E2 E3 E4 E5 E6. clear E4 E5.
  destruct (size_line_inj [] _ _ _ _ AX AY BX BY E2) as (X & Y).
  apply row_inj in R1 as (? & ? & ?), R2 as (? & ? & ?).
  assert (AF : forall n l, after [] (band_lines D num w 1 n l)) by (intros n l; destruct w; apply bands_after).
  destruct (md_inj [] _ _ _ _ (AF _ _) (AF _ _) E6) as (M & E7).
  apply bands_inj in E7; [|exact NT|unfold size; lia|unfold size; lia|exact AB|exact BB].
  unfold same_set. rewrite GA, GB. cbn [same_geo]. tauto.
Qed.
(** And nothing else has a part in the text. *)
Lemma same_md_lines p f g : same_md f g -> md_lines p f = md_lines p g.
Proof. intros H. unfold md_lines, shown_domains. cbn [flat_map]. now rewrite !H by (cbn; auto). Qed.
Lemma same_stat_lines s t : same_stats num s t -> stat_lines D num s = stat_lines D num t.
Proof. unfold stat_lines, alike. destruct s as [[[[a1 a2] a3] a4]|], t as [[[[b1 b2] b3] b4]|]; cbn; unfold alike; try tauto. intros (-> & -> & -> & ->). reflexivity. Qed.
Lemma forall2_length {A B : Type} (R : A -> B -> Prop) l l' : Forall2 R l l' -> List.length l = List.length l'.
Proof. induction 1; cbn; congruence. Qed.
Theorem C215_nothing_else a b w : same_set num w a b -> print_dataset num a w = print_dataset num b w.
Proof.
  clear NT. intros (E1 & E2 & E3 & E4 & E5 & E6 & E7). rewrite !dataset_lines. unfold all_lines. destruct (d_geo a) as [[[g0 g1] g2] [[g3 g4] g5]], (d_geo b) as [[[h0 h1] h2] [[h3 h4] h5]].
  destruct E5 as (G0 & G1 & G2 & G3 & G4 & G5). unfold geo_row, alike in *. rewrite E1, E2, E3, E4, G0, G1, G2, G3, G4, G5, (same_md_lines [] _ _ E6), (forall2_length _ _ _ E7). do 2 f_equal. f_equal.
  generalize (Z.of_nat (List.length (d_bands b))) as n. generalize 1 as i. induction E7 as [|x y l l' S _ IH]; intros i n; [reflexivity|]. destruct S as (S1 & S2 & S3 & S4 & S5 & S6 & S7 & S8 & S9). cbn [band_lines].
  unfold five_lines. unfold alike in *. rewrite S1, S2, S3, S4, S5, S6, S7, (same_md_lines _ _ _ S8), (same_stat_lines _ _ S9), IH. reflexivity.
Qed.
(** The types in the order of gdal.h *)
Definition types_of_gdal : list str := map codes ["GDT_Unknown"; "GDT_Byte"; "GDT_UInt16"; "GDT_Int16"; "GDT_UInt32"; "GDT_Int32"; "GDT_Float32"; "GDT_Float64"; "GDT_CInt16"; "GDT_CInt32"; "GDT_CFloat32"; "GDT_CFloat64"].
Lemma type_named t : 0 <= t <= 11 -> nth_error types_of_gdal (Z.to_nat t) = Some (type_name t).
Proof.
  intros T. assert (C : In t [0; 1; 2; 3; 4; 5; 6; 7; 8; 9; 10; 11]) by (cbn; lia). clear T. cbn [In] in C. repeat (destruct C as [<-|C]; [reflexivity|]). destruct C.
Qed.
(** The band number [k] of [n] has its own lines, with its number, its size and its type, at the start of a line. *)
Theorem C215_band_shown d w k b t : nth_error (d_bands d) k = Some b -> 0 <= b_type b <= 11 -> nth_error types_of_gdal (Z.to_nat (b_type b)) = Some t -> exists before rest,
  print_dataset num d w = before ++ [10] ++ codes "Raster band " ++ print (Z.of_nat k + 1) ++ codes "/" ++ print (Z.of_nat (List.length (d_bands d))) ++ codes ": " ++ b_desc b ++ [10] ++
    codes "  Size: " ++ print (b_x b) ++ codes "x" ++ print (b_y b) ++ [10] ++ codes "  Type: " ++ t ++ [10] ++
    codes "  Offset: " ++ num (b_offset b) ++ [10] ++ codes "  Scale: " ++ num (b_scale b) ++ [10] ++ codes "  Unit: " ++ b_unit b ++ [10] ++ rest.
Proof.
  clear NT. intros N T E. rewrite (type_named _ T) in E. injection E as <-. rewrite dataset_lines. unfold all_lines. destruct (d_geo d) as [[[g0 g1] g2] [[g3 g4] g5]].
  generalize (List.length (d_bands d)) as n. intros n.
  assert (H : forall l i k, nth_error l k = Some b -> exists p r, band_lines D num w i (Z.of_nat n) l = p ++ (codes "Raster band " ++ print (Z.of_nat k + i) ++ codes "/" ++ print (Z.of_nat n) ++ codes ": " ++ b_desc b) :: five_lines D num b ++ r).
  { clear. induction l as [|x l IH]; intros i [|k] N; try discriminate; cbn [nth_error] in N; cbn [band_lines].
    - injection N as ->. exists []. eexists. reflexivity.
    - destruct (IH (i + 1) k N) as (p & r & ->). eexists (_ :: five_lines D num x ++ md_lines (codes "  ") (b_md x) ++ stat_lines D num (b_stats x w) ++ p), r. cbn [app]. rewrite <- !app_assoc. do 5 f_equal. do 4 f_equal. lia. }
  destruct (H _ 1 k N) as (p & r & ->). unfold five_lines. rewrite app_assoc, (app_assoc _ p), unlines_app.
  match goal with |- context [unlines (?x ++ p) ++ _] => assert (L : exists q, unlines (x ++ p) = q ++ [10]) by (apply unlines_end; discriminate) end.
  destruct L as (q & ->). exists q, (unlines r). unfold unlines. cbn [flat_map app]. unfold line. rewrite <- !app_assoc. reflexivity.
Qed.
End Whole.
(** A value with a line break in it looks like two values: [s] and [t] below one another are also one value with a break and two blanks between. *)
Theorem C215_refuted_newline (D : Type) (num : D -> str) (d : vset D) (w : bool) (s t : str) :
  let one := fun x : str => match x with [] => Some [s ++ [10; 32; 32] ++ t] | _ => None end in
  let two := fun x : str => match x with [] => Some [s; t] | _ => None end in
  let with_md m := mk_vset (d_desc d) (d_x d) (d_y d) (d_proj d) (d_geo d) m (d_bands d) in
  print_dataset num (with_md one) w = print_dataset num (with_md two) w /\ ~ same_set num w (with_md one) (with_md two).
Proof.
  cbn zeta. split.
  - unfold print_dataset. cbn [d_desc d_x d_y d_proj d_geo d_md d_bands]. destruct (d_geo d) as [[[g0 g1] g2] [[g3 g4] g5]]. do 6 f_equal. f_equal.
    unfold dump_metadata, dump_items, line. cbn [flat_map known_md_domains app]. rewrite !app_nil_r. cbn. rewrite <- !app_assoc. reflexivity.
  - intros (_ & _ & _ & _ & _ & H & _). specialize (H [] ltac:(cbn; auto)). discriminate.
Qed.
(** Any two types that have no name here look alike: 12 is GDT_UInt64, 13 is GDT_Int64 and 14 is GDT_Int8. *)
Theorem C215_refuted_types (D : Type) (num : D -> str) (b : vband D) (w : bool) (p : str) (t u : Z) : 11 < t -> 11 < u -> t <> u ->
  let with_type x := mk_vband (b_desc b) (b_x b) (b_y b) x (b_offset b) (b_scale b) (b_unit b) (b_md b) (b_stats b) in
  print_band num (with_type t) w p = print_band num (with_type u) w p /\ ~ same_band num w (with_type t) (with_type u).
Proof.
  intros T U N. cbn zeta. split; [|intros (_ & _ & _ & H & _); contradiction].
  assert (X : forall x, 11 < x -> type_name x = codes "(unknown GDALDataType)").
  { intros x X. unfold type_name. repeat (match goal with |- context [?c =? ?k] => replace (c =? k) with false by lia end). reflexivity. }
  unfold print_band. cbn [b_desc b_x b_y b_type b_offset b_scale b_unit b_md b_stats]. now rewrite (X t T), (X u U).
Qed.

(** ** A dataset with two bands *)
Definition demo_md (x : str) : option (list str) := if str_eqb x (codes "msat") then Some [codes "CHANNEL_ID=4"] else if str_eqb x [] then Some [codes "A=1"; codes "B=2"] else None.
Definition demo_band (t : Z) : vband Z := mk_vband (codes "VIS006") 100 50 t 0 1 (codes "K") demo_md (fun w => if w then Some (0, 9, 4, 2) else None).
Definition demo : vset Z := mk_vset (codes "f.grb") 100 50 (codes "GEOGCS[]") (1, 2, 3, (4, 5, 600)) (fun _ => None) [demo_band 1; demo_band 7].
Definition demo_num (z : Z) : str := print (Z.abs z).
Example demo_tidy : tidy demo.
Proof.
  assert (M : tidy_md demo_md). { intros d l I E. unfold demo_md in E. destruct I as [<-|[<-|[<-|[<-|[]]]]]; cbn in E; try discriminate. injection E as <-. repeat constructor; unfold one_line; cbn; intuition discriminate. }
  assert (O : forall s, forallb (fun c => negb (c =? 10)) s = true -> one_line s). { intros s H I. rewrite forallb_forall in H. apply H in I. discriminate. }
  assert (B : forall t, 0 <= t <= 11 -> tidy_band (demo_band t)). { intros t T. split; [apply O; reflexivity|]. split; [apply O; reflexivity|]. unfold size. cbn [demo_band b_x b_y b_type b_md]. repeat (split; [lia|]). exact M. }
  split; [apply O; reflexivity|]. split; [apply O; reflexivity|]. unfold size. cbn [demo d_x d_y d_md d_bands List.length]. repeat (split; [lia|]). split; [intros d l _ E; discriminate|]. constructor; [apply B; lia|]. constructor; [apply B; lia|constructor].
Qed.
Example demo_text : print_dataset demo_num demo true =
  codes "Dataset: f.grb" ++ [10] ++ codes "Size: 100x50" ++ [10] ++ codes "Projection: GEOGCS[]" ++ [10] ++ codes "Geotransform matrix: " ++ [10] ++
  codes "           1," ++ [9] ++ codes "         2," ++ [9] ++ codes "         3" ++ [10] ++ codes "           4," ++ [9] ++ codes "         5," ++ [9] ++ codes "       600" ++ [10] ++
  codes "Raster band 1/2: VIS006" ++ [10] ++ codes "  Size: 100x50" ++ [10] ++ codes "  Type: GDT_Byte" ++ [10] ++ codes "  Offset: 0" ++ [10] ++ codes "  Scale: 1" ++ [10] ++ codes "  Unit: K" ++ [10] ++ codes "  Metadata:" ++ [10] ++ codes "    A=1" ++ [10] ++ codes "    B=2" ++ [10] ++ codes "  Pixel range: min 0 max 9 mean 4 stddev 2" ++ [10] ++
  codes "Raster band 2/2: VIS006" ++ [10] ++ codes "  Size: 100x50" ++ [10] ++ codes "  Type: GDT_Float64" ++ [10] ++ codes "  Offset: 0" ++ [10] ++ codes "  Scale: 1" ++ [10] ++ codes "  Unit: K" ++ [10] ++ codes "  Metadata:" ++ [10] ++ codes "    A=1" ++ [10] ++ codes "    B=2" ++ [10] ++ codes "  Pixel range: min 0 max 9 mean 4 stddev 2" ++ [10].
Proof. reflexivity. Qed.
Example demo_other_type : ~ same_set demo_num false demo (mk_vset (codes "f.grb") 100 50 (codes "GEOGCS[]") (1, 2, 3, (4, 5, 600)) (fun _ => None) [demo_band 1; demo_band 6]).
Proof. intros (_ & _ & _ & _ & _ & _ & H). inversion H as [|? ? ? ? _ H1]. inversion H1 as [|? ? ? ? (_ & _ & _ & HT & _) _]. discriminate. Qed.
Print Assumptions C215_view_partial.
Print Assumptions C215_nothing_else.
Print Assumptions C215_band_shown.
Print Assumptions C215_refuted_newline.
Print Assumptions C215_refuted_types.
