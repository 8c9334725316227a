(** C220: the listing of the header of an HRIT or LRIT file. *)
From Verif Require Import Base BaseFacts IniModel IniProofs MachineModel HeaderModel GribModel Db1Spec Db1Props CodeTextModel MsgModel ConvModel HeadListModel MachineProofs.
Open Scope string_scope.
Open Scope list_scope.
Open Scope Z_scope.

(** ** What is asked for *)
(** A text without a rule of 54 dashes in it, which may have many lines. *)
Definition no_rule (t : str) : Prop := forall p q, t <> p ++ repeat 45 54 ++ q.
Definition one_line (t : str) : Prop := ~ In 10 t.
Definition u8 (z : Z) : Prop := 0 <= z < 2 ^ 8.
Definition u16 (z : Z) : Prop := 0 <= z < 2 ^ 16.
Definition u32 (z : Z) : Prop := 0 <= z < 2 ^ 32.
Definition u64 (z : Z) : Prop := 0 <= z < 2 ^ 64.
Definition i32 (z : Z) : Prop := - 2 ^ 31 <= z < 2 ^ 31.
Definition given {A} (P : A -> Prop) (x : option A) : Prop := match x with Some a => P a | None => True end.
(** The ranges of the fields, the lengths of the parts of an annotation, and texts that do
    not look like other parts of the listing. *)
Definition struct_ok (i : img_struct) : Prop := u8 (is_bpp i) /\ u16 (is_cols i) /\ u16 (is_lines i) /\ u8 (is_comp i).
Definition navig_ok (n : navig) : Prop := one_line (nv_pname n) /\ i32 (nv_cfac n) /\ i32 (nv_lfac n) /\ i32 (nv_coff n) /\ i32 (nv_loff n).
Definition annot_ok (a : annot) : Prop :=
  List.length (an_chan a) = 1%nat /\ List.length (an_version a) = 3%nat /\ List.length (an_sc a) = 6%nat /\ List.length (an_pid1 a) = 12%nat /\ List.length (an_pid2 a) = 9%nat /\
  List.length (an_pid3 a) = 9%nat /\ List.length (an_pid4 a) = 12%nat /\ (List.length (an_flags a) <= 2)%nat.
Definition time_ok (t : cds_short) : Prop := u16 (cds_day t) /\ u32 (cds_msec t).
Definition key_ok (k : Z * Z) : Prop := u8 (fst k) /\ u64 (snd k).
Definition seg_ok (s : seg_id) : Prop := u16 (si_spacecraft s) /\ u8 (si_channel s) /\ u16 (si_seq s) /\ u16 (si_first s) /\ u16 (si_last s) /\ u8 (si_format s).
Definition line_ok (q : line_q) : Prop := i32 (lq_line q) /\ time_ok (lq_time q) /\ u8 (lq_validity q) /\ u8 (lq_radio q) /\ u8 (lq_geo q).
Definition lines_ok (l : list line_q) : Prop := Z.of_nat (List.length l) < 2 ^ 16 /\ Forall line_ok l.
Definition header_ok (h : header) : Prop :=
  u8 (h_typecode h) /\ u32 (h_total h) /\ u64 (h_dfl h) /\ given struct_ok (h_image h) /\ given navig_ok (h_navig h) /\ given no_rule (h_datafunc h) /\ given annot_ok (h_annot h) /\ given time_ok (h_time h) /\
  given (fun a => exists s, upto_nul a = Some s /\ no_rule s) (h_anc h) /\ given key_ok (h_key h) /\ given seg_ok (h_seg h) /\ given lines_ok (h_quality h).
(** The same as far as the listing goes. *)
Definition both {A} (R : A -> A -> Prop) (x y : option A) : Prop := match x, y with Some a, Some b => R a b | None, None => True | _, _ => False end.
Definition same_struct (i j : img_struct) : Prop := is_bpp i = is_bpp j /\ is_cols i = is_cols j /\ is_lines i = is_lines j /\ is_comp i = is_comp j.
Definition same_navig (num : option (list Z) -> str) (n m : navig) : Prop :=
  nv_pname n = nv_pname m /\ nv_cfac n = nv_cfac m /\ nv_lfac n = nv_lfac m /\ nv_coff n = nv_coff m /\ nv_loff n = nv_loff m /\ (nv_pname n = codes "GEOS" -> num (nv_lon n) = num (nv_lon m)).
Definition same_annot (a b : annot) : Prop :=
  an_chan a = an_chan b /\ an_version a = an_version b /\ an_sc a = an_sc b /\ an_pid1 a = an_pid1 b /\ an_pid2 a = an_pid2 b /\ an_pid3 a = an_pid3 b /\ an_pid4 a = an_pid4 b /\ an_flags a = an_flags b.
Definition same_time (t u : cds_short) : Prop := cds_day t = cds_day u /\ cds_msec t = cds_msec u.
Definition same_line_q (p q : line_q) : Prop := lq_line p = lq_line q /\ same_time (lq_time p) (lq_time q) /\ lq_validity p = lq_validity q /\ lq_radio p = lq_radio q /\ lq_geo p = lq_geo q.
(** A line is worth telling if it is in the grid and is missing, corrupted or replaced, or
    worse than usable. *)
Definition troubled (q : line_q) : bool := (1 <=? lq_line q) && ((2 <=? lq_validity q) || (3 <=? lq_radio q) || (3 <=? lq_geo q)).
Definition same_quality (l m : list line_q) : Prop := List.length l = List.length m /\ Forall2 same_line_q (filter troubled l) (filter troubled m).
Definition same_listed (num : option (list Z) -> str) (h k : header) : Prop :=
  h_typecode h = h_typecode k /\ h_total h = h_total k /\ h_dfl h = h_dfl k /\ both same_struct (h_image h) (h_image k) /\ both (same_navig num) (h_navig h) (h_navig k) /\ h_datafunc h = h_datafunc k /\
  both same_annot (h_annot h) (h_annot k) /\ both same_time (h_time h) (h_time k) /\ both (fun a b => upto_nul a = upto_nul b) (h_anc h) (h_anc k) /\ h_key h = h_key k /\ h_seg h = h_seg k /\
  both same_quality (h_quality h) (h_quality k).

(** ** Numbers *)
Lemma cut_at (c : Z) a : forall b s t, ~ In c a -> ~ In c b -> a ++ c :: s = b ++ c :: t -> a = b /\ s = t.
Proof.
  induction a as [|x a IH]; intros [|y b] s t A B E; cbn in *.
  - injection E as E. auto.
  - injection E as E _. exfalso. apply B. auto.
  - injection E as E _. exfalso. apply A. auto.
  - injection E as E1 E2. destruct (IH b s t) as (E3 & E4); auto. subst. auto.
Qed.
Lemma print_no c z : 0 <= z < 10 ^ 19 -> ~ digit c -> ~ In c (print z).
Proof. intros R N I. destruct (print_plain z R) as (_ & F & _). rewrite Forall_forall in F. auto. Qed.
Lemma print_inj a b : 0 <= a < 10 ^ 19 -> 0 <= b < 10 ^ 19 -> print a = print b -> a = b.
Proof. intros A B E. destruct (print_plain a A) as (_ & _ & VA & _), (print_plain b B) as (_ & _ & VB & _). now rewrite VA, VB, E. Qed.
Lemma field_cut n a b r r' : one_line a -> one_line b -> field n a ++ r = field n b ++ r' -> a = b /\ r = r'.
Proof. unfold field, one_line. intros A B E. rewrite <- !app_assoc in E. apply app_inv_head in E. cbn [app] in E. now apply cut_at in E. Qed.
Lemma print_field n a b r r' : 0 <= a < 10 ^ 19 -> 0 <= b < 10 ^ 19 -> field n (print a) ++ r = field n (print b) ++ r' -> a = b /\ r = r'.
Proof. intros A B E. apply field_cut in E as (E & E'); [|apply print_no; [assumption|unfold digit; lia]..]. split; [now apply print_inj|assumption]. Qed.
Lemma coded_field n a b t t' r r' : 0 <= a < 10 ^ 19 -> 0 <= b < 10 ^ 19 -> (a = b -> t = t') -> field n (coded a t) ++ r = field n (coded b t') ++ r' -> a = b /\ r = r'.
Proof.
  intros A B T E. unfold field, coded in E. rewrite <- !app_assoc in E. apply app_inv_head in E. cbn [app] in E. apply cut_at in E as (E & E'); [|apply print_no; [assumption|unfold digit; lia]..].
  apply print_inj in E; [|assumption..]. split; [exact E|]. rewrite (T E) in E'. injection E' as E'. apply app_inv_head in E'. now injection E' as E'.
Qed.
Lemma print_int_no z : i32 z -> one_line (print_int z).
Proof. unfold i32, one_line, print_int. intros R. destruct (Z.ltb_spec z 0); [intros [I|I]; [discriminate|revert I]|]; apply print_no; unfold digit; lia. Qed.
Lemma print_start z : 0 <= z < 10 ^ 19 -> exists c t, print z = c :: t /\ digit c.
Proof. intros R. destruct (print_plain z R) as (N & F & _). destruct (print z) as [|c t]; [contradiction|]. exists c, t. split; [reflexivity|]. now inversion F. Qed.
Lemma print_int_inj a b : i32 a -> i32 b -> print_int a = print_int b -> a = b.
Proof.
  unfold i32, print_int. intros A B E. destruct (Z.ltb_spec a 0), (Z.ltb_spec b 0).
  - injection E as E. apply print_inj in E; lia.
  - destruct (print_start b) as (c & t & P & D); [lia|]. rewrite P in E. injection E as E _. unfold digit in D. lia.
  - destruct (print_start a) as (c & t & P & D); [lia|]. rewrite P in E. injection E as E _. unfold digit in D. lia.
  - apply print_inj in E; lia.
Qed.
Lemma int_field n a b r r' : i32 a -> i32 b -> field n (print_int a) ++ r = field n (print_int b) ++ r' -> a = b /\ r = r'.
Proof. intros A B E. apply field_cut in E as (E & E'); [|now apply print_int_no..]. split; [now apply print_int_inj|assumption]. Qed.
Lemma print64_no z : u64 z -> one_line (print64 z).
Proof.
  unfold u64, one_line, print64. intros R. destruct (Z.ltb_spec z 10); [intros [I|[]]; lia|]. intros I. apply in_app_or in I as [I|[I|[]]]; [revert I; apply print_no; [|unfold digit; lia]|].
  - split; [apply Z.div_pos; lia|apply Z.div_lt_upper_bound; lia].
  - pose proof (Z.mod_pos_bound z 10). lia.
Qed.
Lemma print64_inj a b : u64 a -> u64 b -> print64 a = print64 b -> a = b.
Proof.
  unfold u64, print64. intros A B E.
  assert (R : forall z, 10 <= z < 2 ^ 64 -> 0 <= z / 10 < 10 ^ 19) by (intros z Z0; split; [apply Z.div_pos; lia|apply Z.div_lt_upper_bound; lia]).
  destruct (Z.ltb_spec a 10), (Z.ltb_spec b 10).
  - apply (f_equal (hd 0)) in E. cbn [hd] in E. lia.
  - destruct (print_start (b / 10)) as (c & t & P & _); [apply R; lia|]. rewrite P in E. destruct t; discriminate.
  - destruct (print_start (a / 10)) as (c & t & P & _); [apply R; lia|]. rewrite P in E. destruct t; discriminate.
  - apply app_inj_tail in E as (E & E'). apply print_inj in E; [|apply R; lia..]. rewrite (Z.div_mod a 10), (Z.div_mod b 10) by lia. lia.
Qed.
Lemma field64 n a b r r' : u64 a -> u64 b -> field n (print64 a) ++ r = field n (print64 b) ++ r' -> a = b /\ r = r'.
Proof. intros A B E. apply field_cut in E as (E & E'); [|now apply print64_no..]. split; [now apply print64_inj|assumption]. Qed.
Lemma fixed_field n (a b : str) r r' : List.length a = List.length b -> field n a ++ r = field n b ++ r' -> a = b /\ r = r'.
Proof.
  unfold field. intros L E. rewrite <- !app_assoc in E. apply app_inv_head in E. revert b L E. induction a as [|x a IH]; intros [|y b] L E; try discriminate; cbn [app] in E.
  - injection E as E. auto.
  - injection E as -> E. destruct (IH b) as (E1 & E2); [cbn in L; lia|exact E|]. subst. auto.
Qed.

(** ** Times *)
Lemma print_from_no fuel : forall z acc, ~ In 10 acc -> ~ In 10 (print_from fuel z acc).
Proof.
  induction fuel as [|fuel IH]; intros z acc A; [exact A|]. cbn [print_from]. assert (B : ~ In 10 ((48 + z mod 10) :: acc)) by (intros [I|I]; [pose proof (Z.mod_pos_bound z 10); lia|contradiction]).
  destruct (z <? 10); [exact B|]. now apply IH.
Qed.
Lemma print_line z : ~ In 10 (print z).
Proof. apply print_from_no. intros []. Qed.
Lemma zpad_line w z : ~ In 10 (zpad w z).
Proof.
  assert (R : forall n, ~ In 10 (repeat 48 n)) by (intros n I; apply repeat_spec in I; discriminate).
  unfold zpad. destruct (z <? 0); [intros [I|I]; [discriminate|]|intros I]; apply in_app_or in I as [I|I]; [now apply R in I|now apply print_line in I|now apply R in I|now apply print_line in I].
Qed.
Lemma timestring_line t : one_line (timestring t).
Proof.
  unfold one_line, timestring, gm_text. destruct (civil _) as [[y m] d]. unfold date_text. intros I.
  repeat match goal with H : In 10 (_ ++ _) |- _ => apply in_app_or in H as [H|H] end;
    first [now apply print_line in I | now apply zpad_line in I | cbn in I; repeat (destruct I as [I|I]; [discriminate|]); contradiction].
Qed.
Lemma time_inj a b r r' : time_ok a -> time_ok b -> cds_text a ++ r = cds_text b ++ r' -> same_time a b /\ r = r'.
Proof.
  intros (A1 & A2) (B1 & B2) E. unfold u16, u32 in *. unfold cds_text in E. rewrite <- !app_assoc in E.
  assert (X : forall n x y s s', 0 <= x < 10 ^ 19 -> 0 <= y < 10 ^ 19 -> field n (print x ++ codes " (epoch is 1958-01-01)") ++ s = field n (print y ++ codes " (epoch is 1958-01-01)") ++ s' -> x = y /\ s = s').
  { intros n x y s s' X Y F. apply field_cut in F as (F & F').
    - split; [|exact F']. apply app_inv_tail in F. now apply print_inj in F.
    - intros I. apply in_app_or in I as [I|I]; [now apply print_line in I|]. cbn in I. repeat (destruct I as [I|I]; [discriminate|]). contradiction.
    - intros I. apply in_app_or in I as [I|I]; [now apply print_line in I|]. cbn in I. repeat (destruct I as [I|I]; [discriminate|]). contradiction. }
  apply X in E as (E1 & E); [|lia..]. apply print_field in E as (E2 & E); [|lia..]. apply field_cut in E as (_ & E); [|apply timestring_line..]. split; [split; assumption|assumption].
Qed.

(** ** Records *)
Lemma struct_inj a b r r' : struct_ok a -> struct_ok b -> struct_text a ++ r = struct_text b ++ r' -> same_struct a b /\ r = r'.
Proof.
  intros (A1 & A2 & A3 & A4) (B1 & B2 & B3 & B4) E. unfold u8, u16 in *. unfold struct_text in E. rewrite <- !app_assoc in E.
  apply print_field in E as (E1 & E); [|lia..]. apply print_field in E as (E2 & E); [|lia..]. apply print_field in E as (E3 & E); [|lia..]. apply coded_field in E as (E4 & E); [|lia|lia|intros ->; reflexivity]. repeat split; assumption.
Qed.
Lemma key_inj a b r r' : key_ok a -> key_ok b -> key_text a ++ r = key_text b ++ r' -> a = b /\ r = r'.
Proof.
  destruct a as [a a'], b as [b b']. intros (A1 & A2) (B1 & B2) E. cbn [fst snd] in *. unfold u8 in *. unfold key_text in E. cbn [fst snd] in E. rewrite <- !app_assoc in E.
  apply print_field in E as (E1 & E); [|lia..]. apply field64 in E as (E2 & E); [|assumption..]. subst. auto.
Qed.
Lemma seg_inj a b r r' : seg_ok a -> seg_ok b -> segment_text a ++ r = segment_text b ++ r' -> a = b /\ r = r'.
Proof.
  destruct a as [a1 a2 a3 a4 a5 a6], b as [b1 b2 b3 b4 b5 b6]. intros (A1 & A2 & A3 & A4 & A5 & A6) (B1 & B2 & B3 & B4 & B5 & B6) E. unfold u8, u16 in *. cbn [si_spacecraft si_channel si_seq si_first si_last si_format] in *.
  unfold segment_text in E. cbn [si_spacecraft si_channel si_seq si_first si_last si_format] in E. rewrite <- !app_assoc in E.
  apply coded_field in E as (E1 & E); [|lia|lia|intros ->; reflexivity]. subst b1. apply coded_field in E as (E2 & E); [|lia|lia|intros ->; reflexivity].
  apply print_field in E as (E3 & E); [|lia..]. apply print_field in E as (E4 & E); [|lia..]. apply print_field in E as (E5 & E); [|lia..]. apply coded_field in E as (E6 & E); [|lia|lia|intros ->; reflexivity]. subst. auto.
Qed.
Lemma line_inj a b r r' : line_ok a -> line_ok b -> line_q_text a ++ r = line_q_text b ++ r' -> same_line_q a b /\ r = r'.
Proof.
  intros (A1 & A2 & A3 & A4 & A5) (B1 & B2 & B3 & B4 & B5) E. unfold u8 in *. unfold line_q_text in E. rewrite <- !app_assoc in E.
  apply int_field in E as (E1 & E); [|assumption..]. apply time_inj in E as (E2 & E); [|assumption..].
  apply coded_field in E as (E3 & E); [|lia|lia|intros ->; reflexivity]. apply coded_field in E as (E4 & E); [|lia|lia|intros ->; reflexivity]. apply coded_field in E as (E5 & E); [|lia|lia|intros ->; reflexivity]. split; [unfold same_line_q; repeat (split; [assumption|]); assumption|assumption].
Qed.
(** Texts of many lines, up to the rule that follows. *)
Definition ruled (r : str) : Prop := exists z, r = rule ++ z.
Lemma dashes_first n : forall b u x, b ++ 10 :: u = repeat 45 n ++ x -> exists q, b = repeat 45 n ++ q.
Proof.
  induction n as [|n IH]; intros b u x E; [now exists b|]. destruct b as [|c b]; cbn [repeat app] in E; [discriminate|]. injection E as -> E. destruct (IH b u x E) as (q & ->). now exists q.
Qed.
Lemma no_rule_tail c t : no_rule (c :: t) -> no_rule t.
Proof. intros N p q E. apply (N (c :: p) q). now rewrite E. Qed.
Lemma text_inj a : forall b r r', no_rule a -> no_rule b -> ruled r -> ruled r' -> a ++ 10 :: r = b ++ 10 :: r' -> a = b /\ r = r'.
Proof.
  induction a as [|x a IH]; intros [|y b] r r' A B R R' E; cbn [app] in E.
  - injection E as E. auto.
  - exfalso. injection E as <- E. destruct R as (z & ->). unfold rule, dashes in E. rewrite <- app_assoc in E. destruct (dashes_first 54 b r' _ (eq_sym E)) as (q & Q). apply (B [10] q). now rewrite Q.
  - exfalso. injection E as -> E. destruct R' as (z & ->). unfold rule, dashes in E. rewrite <- app_assoc in E. destruct (dashes_first 54 a r _ E) as (q & Q). apply (A [10] q). now rewrite Q.
  - injection E as -> E. destruct (IH b r r') as (E1 & E2); eauto using no_rule_tail. subst. auto.
Qed.
Lemma text_field n a b r r' : no_rule a -> no_rule b -> ruled r -> ruled r' -> field n a ++ r = field n b ++ r' -> a = b /\ r = r'.
Proof. unfold field. intros A B R R' E. rewrite <- !app_assoc in E. apply app_inv_head in E. cbn [app] in E. now apply text_inj in E. Qed.
Lemma short_no_rule t : (List.length t <= 53)%nat -> no_rule t.
Proof. intros L p q E. apply (f_equal (@List.length Z)) in E. rewrite !app_length, repeat_length in E. lia. Qed.
Lemma annot_inj a b r r' : annot_ok a -> annot_ok b -> ruled r -> ruled r' -> annot_text a ++ r = annot_text b ++ r' -> same_annot a b /\ r = r'.
Proof.
  intros (A1 & A2 & A3 & A4 & A5 & A6 & A7 & A8) (B1 & B2 & B3 & B4 & B5 & B6 & B7 & B8) R R' E. unfold annot_text in E. rewrite <- !app_assoc in E.
  do 7 (apply fixed_field in E as (? & E); [|congruence]). apply text_field in E as (? & E); [|apply short_no_rule; lia|apply short_no_rule; lia|assumption|assumption]. split; [unfold same_annot; repeat (split; [assumption|]); assumption|assumption].
Qed.
Lemma navig_inj num a b r r' : (forall x, one_line (num x)) -> navig_ok a -> navig_ok b -> navig_text num a ++ r = navig_text num b ++ r' -> same_navig num a b /\ r = r'.
Proof.
  intros N (A1 & A2 & A3 & A4 & A5) (B1 & B2 & B3 & B4 & B5) E. unfold navig_text in E. rewrite <- !app_assoc in E.
  apply field_cut in E as (E1 & E); [|assumption..]. rewrite <- E1 in E. unfold same_navig. destruct (str_eqb_spec (nv_pname a) (codes "GEOS")) as [G|G].
  - apply field_cut in E as (E2 & E); [|apply N..]. do 4 (apply int_field in E as (? & E); [|assumption..]). split; [repeat (split; [assumption|]); auto|assumption].
  - cbn [app] in E. do 4 (apply int_field in E as (? & E); [|assumption..]). split; [repeat (split; [assumption|]); intros; contradiction|assumption].
Qed.
Lemma stars_told l z : exists w, flat_map (fun q => if told q then stars ++ line_q_text q else []) l ++ stars ++ z = stars ++ w.
Proof. induction l as [|q l IH]; cbn [flat_map app]; [eauto|]. destruct (told q); [rewrite <- !app_assoc; eauto|exact IH]. Qed.
Lemma told_spec q : told q = troubled q.
Proof. unfold told, troubled. f_equal; [lia|]. f_equal; [f_equal|]; lia. Qed.
Lemma told_flat l : flat_map (fun q => if told q then stars ++ line_q_text q else []) l = flat_map (fun q => stars ++ line_q_text q) (filter troubled l).
Proof. induction l as [|q l IH]; [reflexivity|]. cbn [flat_map filter]. rewrite told_spec. destruct (troubled q); cbn [flat_map]; now rewrite IH. Qed.
Lemma told_inj l : forall m r r', Forall line_ok l -> Forall line_ok m -> ruled r -> ruled r' -> flat_map (fun q => stars ++ line_q_text q) l ++ stars ++ r = flat_map (fun q => stars ++ line_q_text q) m ++ stars ++ r' -> Forall2 same_line_q l m /\ r = r'.
Proof.
  induction l as [|x l IH]; intros [|y m] r r' L M R R' E; cbn [flat_map] in E; rewrite <- ?app_assoc in E; cbn [app] in E.
  - apply app_inv_head in E. split; [constructor|exact E].
  - exfalso. change (stars ++ r = stars ++ line_q_text y ++ flat_map (fun q => stars ++ line_q_text q) m ++ stars ++ r') in E. apply app_inv_head in E. destruct R as (z & ->). discriminate.
  - exfalso. change (stars ++ line_q_text x ++ flat_map (fun q => stars ++ line_q_text q) l ++ stars ++ r = stars ++ r') in E. apply app_inv_head in E. destruct R' as (z & ->). discriminate.
  - apply app_inv_head in E. inversion L; subst. inversion M; subst. apply line_inj in E as (S0 & E); [|assumption..]. destruct (IH m r r') as (S1 & E'); [assumption..|]. split; [now constructor|exact E'].
Qed.
Lemma quality_inj a b r r' : lines_ok a -> lines_ok b -> ruled r -> ruled r' -> quality_text a ++ r = quality_text b ++ r' -> same_quality a b /\ r = r'.
Proof.
  intros (A1 & A2) (B1 & B2) R R' E. unfold quality_text in E. rewrite <- !app_assoc in E. apply print_field in E as (E1 & E); [|lia..]. rewrite !told_flat in E.
  assert (F : forall l, Forall line_ok l -> Forall line_ok (filter troubled l)) by (intros l X; rewrite Forall_forall in *; intros q Q; apply filter_In in Q as [Q _]; auto).
  apply told_inj in E as (E2 & E); [|auto|auto|assumption|assumption]. split; [split; [lia|exact E2]|exact E].
Qed.

(** ** Optional records *)
(** What follows is not the record called [t]. *)
Definition other (t : string) (r : str) : Prop := exists z, r = rule ++ z /\ firstn 54 z <> codes t.
Lemma other_ruled t r : other t r -> ruled r.
Proof. intros (z & E & _). now exists z. Qed.
Lemma other_end t : codes t <> [] -> other t rule.
Proof. intros N. exists []. split; [now rewrite app_nil_r|]. cbn. congruence. Qed.
Lemma first_title t s : List.length (codes t) = 54%nat -> firstn 54 (codes t ++ s) = codes t.
Proof. intros L. rewrite firstn_app, L, Nat.sub_diag, firstn_O, app_nil_r. apply firstn_all2. lia. Qed.
Lemma other_opt {A} t u (f : A -> str) x r : List.length (codes u) = 54%nat -> codes u <> codes t -> other t r -> other t (opt u f x ++ r).
Proof.
  intros L N O. destruct x as [a|]; [|exact O]. cbn [opt]. unfold title. rewrite <- !app_assoc. eexists. split; [reflexivity|]. now rewrite first_title.
Qed.
Lemma opt_inj {A} t (f : A -> str) (P : A -> Prop) (R : A -> A -> Prop) x y r r' : List.length (codes t) = 54%nat ->
  (forall a b, P a -> P b -> f a ++ r = f b ++ r' -> R a b /\ r = r') -> given P x -> given P y -> other t r -> other t r' -> opt t f x ++ r = opt t f y ++ r' -> both R x y /\ r = r'.
Proof.
  intros L I X Y O O' E. destruct x as [a|], y as [b|]; cbn [opt both given app] in *.
  - unfold title in E. rewrite <- !app_assoc in E. do 4 apply app_inv_head in E. auto.
  - exfalso. destruct O' as (z & -> & N). unfold title in E. rewrite <- !app_assoc in E. apply app_inv_head in E. apply N. rewrite <- E. now apply first_title.
  - exfalso. destruct O as (z & -> & N). unfold title in E. rewrite <- !app_assoc in E. apply app_inv_head in E. apply N. rewrite E. now apply first_title.
  - auto.
Qed.
Lemma both_eq {A} (x y : option A) : both eq x y -> x = y.
Proof. destruct x, y; cbn; intros H; subst; auto; contradiction. Qed.
Ltac apart := repeat (apply other_opt; [reflexivity|let Q := fresh in intro Q; vm_compute in Q; discriminate Q|]); apply other_end; discriminate.
Definition anc_text (h : header) : option str := match h_anc h with Some a => upto_nul a | None => None end.
Lemma listing_ok num h : header_ok h -> exists t, listing num h = Ok t.
Proof.
  intros (_ & _ & _ & _ & _ & _ & _ & _ & A & _). unfold listing. destruct (h_anc h) as [a|]; [destruct A as (s & -> & _)|]; cbn [bind]; eauto.
Qed.
(** A header whose texts are in order has a listing, and the listing tells all that is
    asked for. *)
Theorem C220_listing_partial num h k : (forall x, one_line (num x)) -> header_ok h -> header_ok k -> exists t, listing num h = Ok t /\ (listing num k = Ok t -> same_listed num h k).
Proof.
  intros N H K. destruct (listing_ok num h H) as (t & T). exists t. split; [exact T|]. intros T'.
  destruct H as (H1 & H2 & H3 & H4 & H5 & H6 & H7 & H8 & H9 & H10 & H11 & H12). destruct K as (K1 & K2 & K3 & K4 & K5 & K6 & K7 & K8 & K9 & K10 & K11 & K12).
  assert (X : forall g t, given (fun a => exists s, upto_nul a = Some s /\ no_rule s) (h_anc g) -> listing num g = Ok t -> given no_rule (anc_text g) /\ exists y, listing num g = Ok y /\ t = y /\ (match h_anc g with None => Ok None | Some a => match upto_nul a with Some s => Ok (Some s) | None => UB end end) = Ok (anc_text g)).
  { clear. intros g t G E. unfold anc_text. destruct (h_anc g) as [a|] eqn:Q; [destruct G as (s & S1 & S2); rewrite S1|]; split; cbn; eauto. }
  destruct (X h t H9 T) as (HN & _ & _ & _ & HA). destruct (X k t K9 T') as (KN & _ & _ & _ & KA). clear X. unfold listing in T, T'. rewrite HA in T. rewrite KA in T'. cbn [bind] in T, T'. rewrite <- T' in T. clear T' t.
  assert (E : forall x y : str, Ok x = Ok y -> x = y) by congruence. apply E in T. clear E. apply app_inv_head in T. unfold u8, u16, u32 in *.
  apply coded_field in T as (E1 & T); [|lia|lia|intros ->; reflexivity]. apply print_field in T as (E2 & T); [|lia..]. apply field64 in T as (E3 & T); [|assumption..].
  apply (opt_inj _ _ struct_ok same_struct) in T as (E4 & T); [|reflexivity|intros; now apply struct_inj|assumption|assumption|apart|apart].
  apply (opt_inj _ _ navig_ok (same_navig num)) in T as (E5 & T); [|reflexivity|intros; now apply navig_inj|assumption|assumption|apart|apart].
  apply (opt_inj _ _ no_rule eq) in T as (E6 & T); [|reflexivity|intros a b A B Q; apply text_field in Q; auto; eapply other_ruled with (t := "x"); apart|assumption|assumption|apart|apart].
  apply (opt_inj _ _ annot_ok same_annot) in T as (E7 & T); [|reflexivity|intros a b A B Q; apply annot_inj in Q; auto; eapply other_ruled with (t := "x"); apart|assumption|assumption|apart|apart].
  apply (opt_inj _ _ time_ok same_time) in T as (E8 & T); [|reflexivity|intros; now apply time_inj|assumption|assumption|apart|apart].
  apply (opt_inj _ _ no_rule eq) in T as (E9 & T); [|reflexivity|intros a b A B Q; apply text_field in Q; auto; eapply other_ruled with (t := "x"); apart|assumption|assumption|apart|apart].
  apply (opt_inj _ _ key_ok eq) in T as (E10 & T); [|reflexivity|intros; now apply key_inj|assumption|assumption|apart|apart].
  apply (opt_inj _ _ seg_ok eq) in T as (E11 & T); [|reflexivity|intros; now apply seg_inj|assumption|assumption|apart|apart].
  apply (opt_inj _ _ lines_ok same_quality) in T as (E12 & T); [|reflexivity|intros a b A B Q; apply quality_inj in Q; auto; eapply other_ruled with (t := "x"); apart|assumption|assumption|apart|apart].
  unfold same_listed. apply both_eq in E6, E10, E11. repeat (split; [assumption|]). split; [|split; [assumption|split; assumption]].
  clear -E9 HA KA. unfold anc_text in *. destruct (h_anc h) as [a|], (h_anc k) as [b|]; cbn in *; auto.
  - destruct (upto_nul a), (upto_nul b); try discriminate. cbn in E9. now subst.
  - destruct (upto_nul a); [contradiction|discriminate].
  - destruct (upto_nul b); [contradiction|discriminate].
Qed.
Print Assumptions C220_listing_partial.

(** ** Headers that were read *)
Definition numbers_ok (h : header) : Prop :=
  u8 (h_typecode h) /\ u32 (h_total h) /\ u64 (h_dfl h) /\ given struct_ok (h_image h) /\ given (fun n => i32 (nv_cfac n) /\ i32 (nv_lfac n) /\ i32 (nv_coff n) /\ i32 (nv_loff n)) (h_navig h) /\
  given annot_ok (h_annot h) /\ given time_ok (h_time h) /\ given key_ok (h_key h) /\ given seg_ok (h_seg h) /\ given lines_ok (h_quality h).
Definition texts_ok (h : header) : Prop :=
  given (fun n => one_line (nv_pname n)) (h_navig h) /\ given no_rule (h_datafunc h) /\ given (fun a => exists s, upto_nul a = Some s /\ no_rule s) (h_anc h).
Lemma both_ok h : numbers_ok h -> texts_ok h -> header_ok h.
Proof.
  intros (A1 & A2 & A3 & A4 & A5 & A6 & A7 & A8 & A9 & A10) (B1 & B2 & B3). unfold header_ok. repeat (split; [assumption|]). split; [|repeat (split; [assumption|]); assumption].
  destruct (h_navig h); [|exact I]. unfold given, navig_ok in *. tauto.
Qed.
Lemma bind_inv {A B} (x : outcome A) (f : A -> outcome B) r : bind x f = Ok r -> exists a, x = Ok a /\ f a = Ok r.
Proof. destruct x; cbn [bind]; try discriminate. eauto. Qed.
Lemma ok_inj {A} (x y : A) : Ok x = Ok y -> x = y.
Proof. congruence. Qed.
Lemma bytes_part b off n c : bytes_ok b -> bytes_at b off n = Ok c -> bytes_ok c /\ List.length c = n.
Proof.
  unfold bytes_at, bytes_ok. intros B E. destruct (Nat.leb_spec (off + n) (List.length b)); [|discriminate]. injection E as <-. split; [|rewrite firstn_length, skipn_length; lia].
  rewrite Forall_forall in *. intros x X. apply B. rewrite <- (firstn_skipn off b). apply in_or_app. right. rewrite <- (firstn_skipn n (skipn off b)). apply in_or_app. now left.
Qed.
Lemma rd1_range b off v : bytes_ok b -> rd1 b off = Ok v -> u8 v.
Proof. unfold rd1, bytes_ok. intros B E. destruct (nth_error b off) eqn:N; [|discriminate]. injection E as <-. apply nth_error_In in N. rewrite Forall_forall in B. apply B in N. exact N. Qed.
Lemma rdu_range h b off n v : bytes_ok b -> rd_ui h b off n = Ok v -> 0 <= v < 256 ^ Z.of_nat n.
Proof. intros B E. rewrite rd_ui_spec in E. apply bind_inv in E as (c & C & E). injection E as <-. destruct (bytes_part _ _ _ _ B C) as (D & L). rewrite <- L. now apply be_val_range. Qed.
Lemma rdi_range h b off v : bytes_ok b -> rd_i h b off 4 = Ok v -> i32 v.
Proof.
  intros B E. rewrite rd_i_spec in E. apply bind_inv in E as (c & C & E). injection E as <-. destruct (bytes_part _ _ _ _ B C) as (D & L). apply (to_signed_range 32); [lia|]. pose proof (be_val_range c D) as R. rewrite L in R. exact R.
Qed.
Ltac binds E := repeat (let x := fresh "x" in let X := fresh "X" in apply bind_inv in E as (x & X & E)).
Lemma cds_range h b off t : bytes_ok b -> read_cds_short h b off = Ok t -> time_ok t.
Proof. intros B E. unfold read_cds_short in E. binds E. injection E as <-. split; [exact (rdu_range _ _ _ _ _ B X)|exact (rdu_range _ _ _ _ _ B X0)]. Qed.
Lemma lines_range h b n : bytes_ok b -> forall off l, read_line_qs h b off n = Ok l -> List.length l = n /\ Forall line_ok l.
Proof.
  intros B. induction n as [|n IH]; intros off l E; cbn [read_line_qs] in E; [injection E as <-; split; [reflexivity|constructor]|].
  apply bind_inv in E as (q & Q & E). apply bind_inv in E as (qs & QS & E). injection E as <-. destruct (IH _ _ QS) as (L & F). split; [cbn; lia|]. constructor; [|exact F].
  unfold read_line_q in Q. binds Q. injection Q as <-. unfold line_ok. cbn [lq_line lq_time lq_validity lq_radio lq_geo]. split; [exact (rdi_range _ _ _ _ B X)|]. split; [exact (cds_range _ _ _ _ B X0)|].
  split; [exact (rd1_range _ _ _ B X1)|]. split; [exact (rd1_range _ _ _ B X2)|exact (rd1_range _ _ _ B X3)].
Qed.
Lemma annot_range b a : read_annotation b = Ok a -> annot_ok a.
Proof.
  intros E. unfold read_annotation in E. apply bind_inv in E as (tmp & T & E). destruct (upto_nul (tmp ++ [0])) as [s|]; [|discriminate]. binds E. apply ok_inj in E. subst a. unfold substr in *.
  repeat match goal with H : (if (?x <=? ?y)%nat then _ else _) = Ok _ |- _ => destruct (Nat.leb_spec x y); [|discriminate]; apply ok_inj in H; subst end.
  unfold annot_ok. cbn [an_chan an_version an_sc an_pid1 an_pid2 an_pid3 an_pid4 an_flags]. rewrite !firstn_length, !skipn_length. lia.
Qed.
Lemma record_range h hd b hd' l : bytes_ok b -> numbers_ok hd -> read_record h hd b = Ok (hd', l) -> numbers_ok hd'.
Proof.
  intros B N E. unfold read_record in E. apply bind_inv in E as (t & _ & E). unfold fixed in E. unfold numbers_ok in *. destruct N as (N1 & N2 & N3 & N4 & N5 & N6 & N7 & N8 & N9 & N10).
  Ltac one_of B E := apply bind_inv in E as (?l & _ & E); destruct (negb _) in E; [discriminate|]; apply bind_inv in E as (?k & ?K & E); injection E as <- <-.
  destruct (t =? 1); [|destruct (t =? 2); [|destruct (t =? 3); [|destruct (t =? 4); [|destruct (t =? 5); [|destruct (t =? 6); [|destruct (t =? 7); [|destruct (t =? 128); [|destruct (t =? 129); [|discriminate]]]]]]]]].
  - one_of B E. apply bind_inv in K as (v & V & K). injection K as <-. cbn. repeat (split; [assumption|]). split; [|repeat (split; [assumption|]); assumption].
    unfold read_image_struct in V. binds V. destruct (2 ^ 31 <=? _); [discriminate|]. injection V as <-. unfold struct_ok. cbn [is_bpp is_cols is_lines is_comp]. split; [exact (rd1_range _ _ _ B X)|]. split; [exact (rdu_range _ _ _ _ _ B X0)|]. split; [exact (rdu_range _ _ _ _ _ B X1)|exact (rd1_range _ _ _ B X2)].
  - one_of B E. apply bind_inv in K as (v & V & K). injection K as <-. cbn. repeat (split; [assumption|]). split; [|repeat (split; [assumption|]); assumption].
    unfold read_image_navig in V. binds V. pose proof (rdi_range _ _ _ _ B X0). pose proof (rdi_range _ _ _ _ B X1). pose proof (rdi_range _ _ _ _ B X2). pose proof (rdi_range _ _ _ _ B X3).
    repeat match type of V with (if ?c then _ else _) = _ => destruct c | match ?c with _ => _ end = _ => destruct c end; try discriminate; injection V as <-; cbn; auto.
  - apply bind_inv in E as (l' & _ & E). apply bind_inv in E as (v & _ & E). injection E as <- <-. cbn. repeat (split; [assumption|]). assumption.
  - one_of B E. apply bind_inv in K as (v & V & K). injection K as <-. cbn. repeat (split; [assumption|]). split; [now apply annot_range in V|repeat (split; [assumption|]); assumption].
  - one_of B E. apply bind_inv in K as (v & V & K). injection K as <-. cbn. repeat (split; [assumption|]). split; [exact (cds_range _ _ _ _ B V)|repeat (split; [assumption|]); assumption].
  - apply bind_inv in E as (l' & _ & E). apply bind_inv in E as (v & _ & E). injection E as <- <-. cbn. repeat (split; [assumption|]). assumption.
  - one_of B E. apply bind_inv in K as (v & V & K). injection K as <-. cbn. repeat (split; [assumption|]). split; [|repeat (split; [assumption|]); assumption]. unfold read_key in V. binds V. injection V as <-. split; [exact (rd1_range _ _ _ B X)|exact (rdu_range _ _ _ _ _ B X0)].
  - one_of B E. apply bind_inv in K as (v & V & K). injection K as <-. cbn. repeat (split; [assumption|]). split; [|assumption]. unfold read_segment_id in V. binds V. injection V as <-. unfold seg_ok. cbn.
    split; [exact (rdu_range _ _ _ _ _ B X)|]. split; [exact (rd1_range _ _ _ B X0)|]. split; [exact (rdu_range _ _ _ _ _ B X1)|]. split; [exact (rdu_range _ _ _ _ _ B X2)|]. split; [exact (rdu_range _ _ _ _ _ B X3)|exact (rd1_range _ _ _ B X4)].
  - destruct (h_image hd) as [im|] eqn:IM; [|discriminate]. apply bind_inv in E as (v & V & E). apply bind_inv in E as (l' & _ & E). injection E as <- <-. cbn. rewrite IM. repeat (split; [assumption|]).
    destruct (lines_range _ _ _ B _ _ V) as (L & F). split; [|exact F]. destruct N4 as (_ & _ & N4 & _). unfold u16 in N4. lia.
Qed.
Lemma skip_ok (b : list Z) n : bytes_ok b -> bytes_ok (skipn n b).
Proof. unfold bytes_ok. rewrite !Forall_forall. intros B x X. apply B. rewrite <- (firstn_skipn n b). apply in_or_app. now right. Qed.
Lemma first_ok (b : list Z) n : bytes_ok b -> bytes_ok (firstn n b).
Proof. unfold bytes_ok. rewrite !Forall_forall. intros B x X. apply B. rewrite <- (firstn_skipn n b). apply in_or_app. now left. Qed.
Lemma records_range h fuel : forall hd b left hd', bytes_ok b -> numbers_ok hd -> read_records fuel h hd b left = Ok hd' -> numbers_ok hd'.
Proof.
  induction fuel as [|fuel IH]; intros hd b left hd' B N E; cbn [read_records] in E; (destruct (left =? 0); [injection E as <-; exact N|]); [discriminate|].
  apply bind_inv in E as ([hd1 l] & R & E). destruct (l =? 0); [discriminate|]. eapply IH; [|eapply record_range; eassumption|exact E]. now apply skip_ok.
Qed.
(** What the file says is in range by itself: only its texts can spoil the listing. *)
Theorem C220_read num h s s' hd hd' r r' : (forall x, one_line (num x)) -> bytes_ok s -> bytes_ok s' -> read_header h empty_header s = Ok (hd, r) -> read_header h empty_header s' = Ok (hd', r') ->
  texts_ok hd -> texts_ok hd' -> exists t, listing num hd = Ok t /\ (listing num hd' = Ok t -> same_listed num hd hd').
Proof.
  assert (G : forall s hd r, bytes_ok s -> read_header h empty_header s = Ok (hd, r) -> numbers_ok hd).
  { clear. intros s hd r B E. unfold read_header in E. destruct (_ <? 16)%nat; [discriminate|]. apply bind_inv in E as (t & _ & E). destruct (negb _); [discriminate|]. apply bind_inv in E as (pl & _ & E). destruct (negb _); [discriminate|].
    apply bind_inv in E as (ft & FT & E). apply bind_inv in E as (total & TO & E). apply bind_inv in E as (dfl & DF & E). destruct (_ <? _); [discriminate|]. apply bind_inv in E as (hd1 & R & E). injection E as <- <-.
    pose proof (first_ok s 16 B) as B0. eapply records_range; [|  |exact R]; [apply first_ok; now apply skip_ok|]. unfold numbers_ok. cbn. split; [exact (rd1_range _ _ _ B0 FT)|]. split; [exact (rdu_range _ _ _ _ _ B0 TO)|]. split; [exact (rdu_range _ _ _ _ _ B0 DF)|]. tauto. }
  intros N B B' E E' T T'. apply C220_listing_partial; [exact N|apply both_ok; eauto|apply both_ok; eauto].
Qed.
Print Assumptions C220_read.
(** ** What stands where *)
(** Lines of a name and a value. *)
Inductive lines : list (string * (str -> Prop)) -> str -> Prop :=
| lines_nil : lines [] []
| lines_cons n (P : str -> Prop) v l b : P v -> lines l b -> lines ((n, P) :: l) (codes n ++ v ++ [10] ++ b).
Definition title_lines (t : string) : str := repeat 45 54 ++ [10] ++ codes t ++ [10] ++ repeat 45 54 ++ [10].
(** After some mark, these lines. *)
Definition tells (t mark : str) (l : list (string * (str -> Prop))) : Prop := exists p b q, t = p ++ mark ++ b ++ q /\ lines l b.
(** A number; a number below zero; a code and its text. *)
Definition num_is (n : Z) (v : str) : Prop := plain_number v n.
Definition int_is (n : Z) (v : str) : Prop := (0 <= n /\ plain_number v n) \/ (n < 0 /\ exists d, plain_number d (- n) /\ v = 45 :: d).
Definition code_is (n : Z) (v : str) : Prop := exists d x, plain_number d n /\ v = d ++ [32; 40] ++ x ++ [41].
Definition date_is (n : Z) (v : str) : Prop := exists d, plain_number d n /\ v = d ++ codes " (epoch is 1958-01-01)".
Definition any (v : str) : Prop := True.
Definition time_lines (t : cds_short) : list (string * (str -> Prop)) := [("Day from epoch      : ", date_is (cds_day t)); ("Msecs in day        : ", num_is (cds_msec t)); ("Actual date         : ", any)].
Definition line_lines (q : line_q) : list (string * (str -> Prop)) :=
  [("Line Number         : ", int_is (lq_line q))] ++ time_lines (lq_time q) ++ [("Line validity       : ", code_is (lq_validity q)); ("Line radiometric ql : ", code_is (lq_radio q)); ("Line geometric ql   : ", code_is (lq_geo q))].

Lemma num_shown z : 0 <= z < 10 ^ 19 -> num_is z (print z).
Proof. intros R. now apply print_plain. Qed.
Lemma int_shown z : i32 z -> int_is z (print_int z).
Proof.
  unfold i32, int_is, print_int. intros R. destruct (Z.ltb_spec z 0); [right; split; [assumption|]; eexists; split; [apply print_plain; lia|reflexivity]|left; split; [assumption|apply print_plain; lia]].
Qed.
Lemma code_shown z x : 0 <= z < 10 ^ 19 -> code_is z (coded z x).
Proof. intros R. exists (print z), x. split; [now apply print_plain|reflexivity]. Qed.
Lemma num64_shown z : u64 z -> num_is z (print64 z).
Proof.
  unfold u64, num_is, print64. intros R. destruct (Z.ltb_spec z 10) as [L|L].
  - unfold plain_number. split; [discriminate|]. split; [repeat constructor; unfold digit; lia|]. split; [unfold dec_val; cbn [fold_left]; lia|]. destruct (Z.eq_dec z 0) as [->|N]; [now left|right]. intros (r & E). apply (f_equal (hd 0)) in E. cbn [hd] in E. lia.
  - assert (B : 0 <= z / 10 < 10 ^ 19) by (split; [apply Z.div_pos; lia|apply Z.div_lt_upper_bound; lia]). destruct (print_plain (z / 10) B) as (N & F & V & S0). pose proof (Z.mod_pos_bound z 10).
    assert (B' : 1 <= z / 10) by (apply Z.div_le_lower_bound; lia).
    unfold plain_number. split; [destruct (print (z / 10)); discriminate|]. split; [apply Forall_app; split; [assumption|repeat constructor; unfold digit; lia]|].
    split; [rewrite dec_val_app, dec_one, <- V; cbn [List.length]; change (10 ^ Z.of_nat 1) with 10; pose proof (Z.div_mod z 10); lia|]. right. intros (r & E).
    destruct S0 as [S0|S0]; [rewrite S0 in V; cbn in V; lia|]. destruct (print (z / 10)) as [|c t]; [contradiction|]. injection E as -> E. apply S0. now exists t.
Qed.
Lemma lines_field n (P : str -> Prop) v l b : P v -> lines l b -> lines ((n, P) :: l) (field n v ++ b).
Proof. intros H L. unfold field. rewrite <- !app_assoc. now constructor. Qed.
Lemma lines_last n (P : str -> Prop) v : P v -> lines [(n, P)] (field n v).
Proof. intros H. rewrite <- (app_nil_r (field n v)). apply lines_field; [assumption|constructor]. Qed.
Lemma lines_app l b m c : lines l b -> lines m c -> lines (l ++ m) (b ++ c).
Proof. intros L M. induction L; [exact M|]. cbn [app]. rewrite <- !app_assoc. now constructor. Qed.
Lemma time_shown t : time_ok t -> lines (time_lines t) (cds_text t).
Proof.
  intros (A & B). unfold u16, u32 in *. unfold time_lines, cds_text. apply lines_field; [eexists; split; [apply print_plain; lia|reflexivity]|]. apply lines_field; [apply print_plain; lia|]. now apply lines_last.
Qed.
Lemma line_shown q : line_ok q -> lines (line_lines q) (line_q_text q).
Proof.
  intros (A & B & C & D & E). unfold u8 in *. unfold line_lines, line_q_text. cbn [app]. apply lines_field; [now apply int_shown|]. apply lines_app; [now apply time_shown|].
  apply lines_field; [apply code_shown; lia|]. apply lines_field; [apply code_shown; lia|]. apply lines_last. apply code_shown. lia.
Qed.
Lemma tells_first m b q l : lines l b -> tells (m ++ b ++ q) m l.
Proof. intros L. exists [], b, q. now split. Qed.
Lemma tells_after a t m l : tells t m l -> tells (a ++ t) m l.
Proof. intros (p & b & q & -> & L). exists (a ++ p), b, q. split; [now rewrite <- app_assoc|exact L]. Qed.
Lemma tells_before a t m l : tells t m l -> tells (t ++ a) m l.
Proof. intros (p & b & q & -> & L). exists p, b, (q ++ a). split; [now rewrite <- !app_assoc|exact L]. Qed.
Lemma tells_opt {A} t (f : A -> str) x a l r : x = Some a -> lines l (f a) -> tells (opt t f x ++ r) (title_lines t) l.
Proof. intros -> L. cbn [opt]. apply tells_before. exists [], (f a), []. rewrite app_nil_r. split; [unfold title, title_lines, rule, dashes; rewrite <- !app_assoc; reflexivity|exact L]. Qed.
Ltac at_record := lazymatch goal with Q : _ = Some _ |- _ => repeat first [solve [eapply tells_opt; [exact Q|]; shelve] | apply tells_after] end.
(** Every value of the header stands in its record, after its name. *)
Theorem C220_values num h t : header_ok h -> listing num h = Ok t ->
  tells t (title_lines "-                  MSG PRIMARY HEADER                -") [("File Typecode       : ", code_is (h_typecode h)); ("Total Header Length : ", num_is (h_total h)); ("Data Length (bits)  : ", num_is (h_dfl h))] /\
  (forall i, h_image h = Some i -> tells t (title_lines "-             MSG IMAGE STRUCTURE HEADER             -")
     [("Bits per pixel      : ", num_is (is_bpp i)); ("Number of Columns   : ", num_is (is_cols i)); ("Number of Lines     : ", num_is (is_lines i)); ("Compression Flag    : ", code_is (is_comp i))]) /\
  (forall n, h_navig h = Some n -> tells t (title_lines "-            MSG IMAGE NAVIGATION HEADER             -")
     ([("Projection Name     : ", eq (nv_pname n))] ++ (if str_eqb (nv_pname n) (codes "GEOS") then [("Subsatellite Lat.   : ", eq (num (nv_lon n)))] else []) ++
      [("Column scale factor : ", int_is (nv_cfac n)); ("Line scale factor   : ", int_is (nv_lfac n)); ("Column offset       : ", int_is (nv_coff n)); ("Line Offset         : ", int_is (nv_loff n))])) /\
  (forall d, h_datafunc h = Some d -> tells t (title_lines "-            MSG IMAGE DATA FUNCTION HEADER          -") [("", eq d)]) /\
  (forall a, h_annot h = Some a -> tells t (title_lines "-            MSG IMAGE ANNOTATION HEADER             -")
     [("XRIT channel ID     : ", eq (an_chan a)); ("Annotation Version  : ", eq (an_version a)); ("Disseminating S/C   : ", eq (an_sc a)); ("Product ID 1        : ", eq (an_pid1 a));
      ("Product ID 2        : ", eq (an_pid2 a)); ("Product ID 3        : ", eq (an_pid3 a)); ("Product ID 4        : ", eq (an_pid4 a)); ("Flags               : ", eq (an_flags a))]) /\
  (forall u, h_time h = Some u -> tells t (title_lines "-                MSG TIMESTAMP HEADER                -") (time_lines u)) /\
  (forall a s r, h_anc h = Some a -> a = s ++ 0 :: r -> ~ In 0 s -> tells t (title_lines "-              MSG ANCILLARY TEXT HEADER             -") [("", eq s)]) /\
  (forall k, h_key h = Some k -> tells t (title_lines "-                    MSG KEY HEADER                  -") [("Key number          : ", num_is (fst k)); ("Seed                : ", num_is (snd k))]) /\
  (forall s, h_seg h = Some s -> tells t (title_lines "-              MSG HEADER SEGMENT ID                 -")
     [("Spacecraft ID       : ", code_is (si_spacecraft s)); ("Data channel ID     : ", code_is (si_channel s)); ("Segment seq No      : ", num_is (si_seq s));
      ("Planned seq start   : ", num_is (si_first s)); ("Planned seq end     : ", num_is (si_last s)); ("Data format         : ", code_is (si_format s))]) /\
  (forall l, h_quality h = Some l -> tells t (title_lines "-            MSG HEADER SEGMENT QUALITY              -") [("Total number of Lines: ", num_is (Z.of_nat (List.length l)))] /\
     forall q, In q l -> troubled q = true -> tells t (repeat 42 11 ++ [10]) (line_lines q)).
Proof.
  intros (H1 & H2 & H3 & H4 & H5 & H6 & H7 & H8 & H9 & H10 & H11 & H12) T.
  assert (HA : (match h_anc h with None => Ok None | Some a => match upto_nul a with Some s => Ok (Some s) | None => UB end end) = Ok (anc_text h)).
  { unfold anc_text. destruct (h_anc h) as [a|]; [destruct H9 as (s & -> & _)|]; reflexivity. }
  unfold listing in T. rewrite HA in T. cbn [bind] in T. assert (E : forall x y : str, Ok x = Ok y -> x = y) by congruence. apply E in T. clear E HA. unfold u8, u16, u32 in *. subst t.
  split.
  { change (title_lines ?x) with (title x). match goal with |- tells (_ ++ ?a ++ ?b ++ ?c ++ ?r) _ _ => rewrite (app_assoc b c r), (app_assoc a (b ++ c) r) end. apply tells_first.
    apply lines_field; [apply code_shown; lia|]. apply lines_field; [apply print_plain; lia|]. apply lines_last. now apply num64_shown. }
  split; [intros i Q; rewrite Q in H4; destruct H4 as (A1 & A2 & A3 & A4); unfold u8, u16 in *; unshelve at_record; unfold struct_text;
    do 3 (apply lines_field; [apply print_plain; lia|]); apply lines_last, code_shown; lia|].
  split; [intros n Q; rewrite Q in H5; destruct H5 as (A1 & A2 & A3 & A4 & A5); unshelve at_record; unfold navig_text; apply lines_field; [reflexivity|]; apply lines_app;
    [destruct (str_eqb _ _); [now apply lines_last|constructor]|]; do 3 (apply lines_field; [now apply int_shown|]); now apply lines_last, int_shown|].
  split; [intros d Q; unshelve at_record; now apply lines_last|].
  split; [intros a Q; unshelve at_record; unfold annot_text; do 7 (apply lines_field; [reflexivity|]); now apply lines_last|].
  split; [intros u Q; rewrite Q in H8; unshelve at_record; now apply time_shown|].
  split.
  { intros a s r Q -> N. assert (X : anc_text h = Some s). { unfold anc_text. rewrite Q. clear -N. induction s as [|c s IH]; cbn; [reflexivity|]. destruct (Z.eqb_spec c 0) as [->|]; [exfalso; apply N; now left|]. rewrite IH; [reflexivity|]. intros I. apply N. now right. }
    clear Q. rename X into Q. unshelve at_record. now apply lines_last. }
  split; [intros k Q; rewrite Q in H10; destruct H10 as (A1 & A2); unfold u8 in *; unshelve at_record; unfold key_text; apply lines_field; [apply print_plain; lia|]; now apply lines_last, num64_shown|].
  split; [intros s Q; rewrite Q in H11; destruct H11 as (A1 & A2 & A3 & A4 & A5 & A6); unfold u8, u16 in *; unshelve at_record; unfold segment_text;
    do 2 (apply lines_field; [apply code_shown; lia|]); do 3 (apply lines_field; [apply print_plain; lia|]); apply lines_last, code_shown; lia|].
  intros l Q. rewrite Q in H12. destruct H12 as (A1 & A2). rewrite Q. cbn [opt]. split.
  - do 12 apply tells_after. unfold quality_text. rewrite <- !app_assoc. change (title_lines ?x) with (title x). apply tells_first. apply lines_last. apply print_plain. lia.
  - intros q I O. do 12 apply tells_after. rewrite <- !app_assoc. apply tells_after. unfold quality_text. rewrite <- !app_assoc. apply tells_after. rewrite told_flat.
    assert (F : In q (filter troubled l)) by (apply filter_In; auto). apply in_split in F as (x & y & ->). rewrite flat_map_app. cbn [flat_map]. rewrite <- !app_assoc. apply tells_after. apply tells_first. apply line_shown. rewrite Forall_forall in A2. auto.
Qed.
Print Assumptions C220_values.

(** ** What the listing does not tell *)
(** Lines that are in order, and all lines of number 0, are only counted. *)
Theorem C220_refuted_quality num h l m : List.length l = List.length m -> filter troubled l = filter troubled m -> listing num (with_quality h l) = listing num (with_quality h m).
Proof. intros L F. unfold listing, with_quality. cbn. unfold quality_text. rewrite !told_flat, L, F. reflexivity. Qed.
Print Assumptions C220_refuted_quality.
(** An ancillary text without a zero byte is read past its end. *)
Theorem C220_refuted_ancillary num h a : h_anc h = Some a -> ~ In 0 a -> listing num h = UB.
Proof.
  intros A N. unfold listing. rewrite A. assert (U : upto_nul a = None); [|now rewrite U]. clear -N. induction a as [|b a IH]; [reflexivity|]. cbn [upto_nul]. destruct (Z.eqb_spec b 0) as [->|]; [exfalso; apply N; now left|]. rewrite IH; [reflexivity|]. intros I. apply N. now right.
Qed.
Print Assumptions C220_refuted_ancillary.
(** A text can look like another record. *)
Definition key_lines (k : Z * Z) : str := codes "Key number          : " ++ print (fst k) ++ [10] ++ codes "Seed                : " ++ print64 (snd k).
Theorem C220_refuted_forged num h t k : h_annot h = None -> h_time h = None -> h_anc h = None -> h_datafunc h = Some t -> h_key h = Some k ->
  listing num (mk_h (h_typecode h) (h_total h) (h_dfl h) (h_filesize h) (h_image h) (h_navig h) (Some (t ++ [10] ++ title_lines "-                    MSG KEY HEADER                  -" ++ key_lines k)) None None None None (h_seg h) (h_quality h)) = listing num h.
Proof.
  intros A T N D K. unfold listing. cbn [h_typecode h_total h_dfl h_filesize h_image h_navig h_datafunc h_annot h_time h_anc h_key h_seg h_quality]. rewrite A, T, N, D, K. cbn [bind]. f_equal. do 6 f_equal. cbn [opt app]. unfold title, title_lines, key_text, key_lines, field, rule, dashes.
  change (codes "") with (@nil Z). repeat (progress (cbn [app]; rewrite <- ?app_assoc)). reflexivity.
Qed.
Print Assumptions C220_refuted_forged.
Example C220_case :
  let num (_ : option (list Z)) := codes "9.5" in
  let q n v := mk_lq n (mk_cds 1 2 3 4) v 1 1 in
  let h := mk_h 0 100 800 0 (Some (mk_is 10 3712 464 1 0 0)) (Some (mk_nv (codes "GEOS") (Some (codes "9.5")) (-13642337) 1 2 3)) (Some (codes "$HALFTONE:=10" ++ [13; 10] ++ codes "_NAME:=toa"))
             (Some (mk_an [] (codes "H") (codes "000") (codes "MSG1__") (codes "MSG1________") (codes "IR_108___") (codes "000001___") (codes "200611130800") (codes "C_"))) (Some (mk_cds 17848 28800000 0 0)) (Some (codes "note" ++ [0]))
             (Some (1, 2 ^ 64 - 1)) (Some (mk_si 321 9 1 1 8 0)) (Some [q 1 1; q 2 3; q 0 4]) in
  header_ok h /\ (forall x, one_line (num x)) /\ filter troubled [q 1 1; q 2 3; q 0 4] = [q 2 3] /\
  listing num (mk_h 2 16 0 0 None None None None None None (Some (1, 2 ^ 64 - 1)) None None) =
    Ok (title_lines "-                  MSG PRIMARY HEADER                -" ++ codes "File Typecode       : 2 (MSG Alphanumeric Text File)" ++ [10] ++ codes "Total Header Length : 16" ++ [10] ++ codes "Data Length (bits)  : 0" ++ [10] ++
        title_lines "-                    MSG KEY HEADER                  -" ++ codes "Key number          : 1" ++ [10] ++ codes "Seed                : 18446744073709551615" ++ [10] ++ repeat 45 54 ++ [10]).
Proof.
  assert (O : forall t, forallb (fun c => negb (c =? 10)) t = true -> one_line t). { intros t F I. rewrite forallb_forall in F. apply F in I. discriminate. }
  cbv zeta. split; [|split; [intros _; apply O; reflexivity|split; [reflexivity|vm_compute; reflexivity]]].
  unfold header_ok. cbn [h_typecode h_total h_dfl h_filesize h_image h_navig h_datafunc h_annot h_time h_anc h_key h_seg h_quality given].
  split; [unfold u8; lia|]. split; [unfold u32; lia|]. split; [unfold u64; lia|]. split; [unfold struct_ok, u8, u16; cbn; lia|]. split; [unfold navig_ok, i32; cbn [nv_pname nv_cfac nv_lfac nv_coff nv_loff]; split; [apply O; reflexivity|lia]|].
  split; [apply short_no_rule; vm_compute; lia|]. split; [unfold annot_ok; cbn; lia|]. split; [unfold time_ok, u16, u32; cbn; lia|]. split; [eexists; split; [reflexivity|apply short_no_rule; vm_compute; lia]|].
  split; [unfold key_ok, u8, u64; cbn [fst snd]; lia|]. split; [unfold seg_ok, u8, u16; cbn; lia|]. split; [cbn; lia|]. repeat constructor; unfold i32, time_ok, u8, u16, u32; cbn; lia.
Qed.
