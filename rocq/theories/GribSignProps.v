(** C55: signs in the text of a time. *)
From Verif Require Import Base BaseFacts IniModel GeoModel ScanModel GribModel GribProps.
Open Scope string_scope.
Open Scope list_scope.
Open Scope Z_scope.

(** A time whose month has a minus sign of its own, as 2008--03-01 10:20:30 *)
Definition signed_text (y mo d h mi s : Z) : str := dddd y ++ [45; 45] ++ dd mo ++ [45] ++ dd d ++ [32] ++ dd h ++ [58] ++ dd mi ++ [58] ++ dd s.
Lemma scan_int_minus w ds rest : (List.length ds < w)%nat -> ds <> [] -> Forall (fun c => 48 <= c <= 57) ds -> match rest with c :: _ => ~ 48 <= c <= 57 | [] => True end -> scan_int w (45 :: ds ++ rest) = Some (- digits 0 ds, rest).
Proof.
  intros Hw N F R. unfold scan_int. change (strskp (45 :: ds ++ rest)) with (45 :: ds ++ rest). destruct w as [|w]; [lia|]. cbn [Z.eqb Pos.eqb]. rewrite take_digits_app by (assumption || lia). destruct ds as [|c ds]; [contradiction|]. f_equal. f_equal. now rewrite skipn_app, skipn_all, Nat.sub_diag.
Qed.
Lemma scan_free_signed y mo d h mi s : 0 <= y <= 9999 -> two mo -> two d -> two h -> two mi -> two s -> scan_free (signed_text y mo d h mi s) = Some [y; - mo; d; h; mi; s].
Proof.
  intros Y M D H MI S0. unfold scan_free, free_format. change (List.length (signed_text y mo d h mi s)) with 20%nat. unfold signed_text. cbn [scan_fields].
  rewrite (scan_int_digits _ (dddd y)); [|cbn; lia|discriminate|now apply dddd_digits|cbn; lia]. cbn [app]. rewrite scan_char_other by lia.
  rewrite (scan_int_minus _ (dd mo)); [|cbn; lia|discriminate|now apply dd_digits|cbn; lia]. cbn [app]. rewrite scan_char_other by lia.
  rewrite (scan_int_digits _ (dd d)); [|cbn; lia|discriminate|now apply dd_digits|cbn; lia]. cbn [app]. rewrite scan_char_space, strskp_dd by assumption.
  rewrite (scan_int_digits _ (dd h)); [|cbn; lia|discriminate|now apply dd_digits|cbn; lia]. cbn [app]. rewrite scan_char_other by lia.
  rewrite (scan_int_digits _ (dd mi)); [|cbn; lia|discriminate|now apply dd_digits|cbn; lia]. cbn [app]. rewrite scan_char_other by lia.
  rewrite <- (app_nil_r (dd s)). rewrite (scan_int_digits _ (dd s)); [|cbn; lia|discriminate|now apply dd_digits|exact I].
  rewrite (proj2 (dddd_digits y Y)), (proj2 (dd_digits mo M)), (proj2 (dd_digits d D)), (proj2 (dd_digits h H)), (proj2 (dd_digits mi MI)), (proj2 (dd_digits s S0)). reflexivity.
Qed.
(** Such a text is not refused: the library is asked to store a month below zero. *)
Theorem C55_refuted_sign L m y mo d h mi s m1 : g_long L m "editionNumber" = Got 2 -> 0 <= y <= 9999 -> two mo -> two d -> two h -> two mi -> two s -> s_long L m "year" y = Some m1 ->
  (s_long L m1 "month" (- mo) = None -> setTime L true m (signed_text y mo d h mi s) = Ok None) /\
  (forall m2 m3 m4 m5, s_long L m1 "month" (- mo) = Some m2 -> s_long L m2 "day" d = Some m3 -> s_long L m3 "hour" h = Some m4 -> s_long L m4 "minute" mi = Some m5 -> exists m', setTime L true m (signed_text y mo d h mi s) = Ok (Some m')).
Proof.
  intros G Y M D H MI S0 E1. unfold setTime. rewrite scan_free_signed, (get_long_ok _ _ _ _ G) by assumption. replace (forallb int_fits [y; - mo; d; h; mi; s]) with true by (symmetry; unfold two in *; cbn; unfold int_fits; lia). cbn [negb Z.eqb Pos.eqb]. unfold set_long, set_long_unchecked, traced. rewrite E1. split.
  - intros ->. reflexivity.
  - intros m2 m3 m4 m5 -> -> -> ->. eauto.
Qed.
Example signed_case : signed_text 2008 3 1 10 20 30 = codes "2008--03-01 10:20:30" /\ scan_free (codes "2008--03-01 10:20:30") = Some [2008; -3; 1; 10; 20; 30].
Proof. split; reflexivity. Qed.
Print Assumptions C55_refuted_sign.
