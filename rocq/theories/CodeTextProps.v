(** C211: the texts of coded values. *)
From Verif Require Import Base BaseFacts IniModel CodeTextModel.
Open Scope string_scope.
Open Scope list_scope.
Open Scope Z_scope.

(** ** What is asked for *)
(** The codes of the format, each with a word of its name. *)
Definition documented : list (table * list (Z * string)) :=
  [(MSG_image_compression, [(0, "No"); (1, "Lossless"); (2, "Lossy")]);
   (MSG_Eclypse, [(0, "None"); (1, "Sun"); (2, "Moon")]);
   (MSG_Body, [(0, "None"); (1, "Sun"); (2, "Moon"); (3, "and")]);
   (MSG_quality_impact, [(0, "None"); (1, "Radiometric"); (2, "Geometric")]);
   (MSG_type_of_earth_model, [(1, "Ellipsoid")]);
   (MSG_resampling_function, [(1, "Windowed"); (2, "Bicubic"); (3, "neighbour")]);
   (MSG_quality_info_validity, [(0, "Not"); (1, "and Valid"); (2, "Invalid"); (3, "Estimated")]);
   (MSG_SU_Instance, [(1, "Instance"); (2, "Accept Data Seviri"); (3, "Accept Data HKTM"); (4, "Accept Data GERB"); (5, "Accept Data FTP"); (6, "Rcal"); (7, "RQA"); (8, "GQA"); (9, "Visible Channel 0.6"); (10, "Visible Channel 0.8"); (11, "Infrared Channel 1.6"); (12, "Infrared Channel 3.8"); (13, "Vapour Channel 6.2"); (14, "Vapour Channel 7.3"); (15, "Infrared Channel 8.7"); (16, "Infrared Channel 9.7"); (17, "Infrared Channel 10.8"); (18, "Infrared Channel 12.0"); (19, "Infrared Channel 13.4"); (20, "HRV"); (21, "Quicklook"); (22, "LPT0"); (23, "LPT5"); (24, "Send Data HKTM"); (25, "Raw"); (26, "Validated"); (27, "Generated"); (28, "Client"); (29, "Object")]);
   (MSG_SUMode, [(0, "Off"); (1, "Non"); (2, "Real"); (3, "Analysis")]);
   (MSG_SUState, [(0, "Error"); (1, "Nominal"); (2, "Degraded")]);
   (MSG_boolean_status, [(0, "Off"); (1, "On")]);
   (MSG_DHS_Sync, [(0, "Sun"); (1, "North"); (2, "South")]);
   (MSG_DeepSpace_Window_Position, [(0, "No"); (1, "elay 1"); (2, "elay 2"); (3, "elay 3")]);
   (MSG_Refocusing_Direction, [(0, "Up"); (1, "Down")]);
   (MSG_BB_Calibration, [(0, "Hot"); (1, "Ambient"); (2, "Indeterminate")]);
   (MSG_projection_type, [(1, "Geostationary")]);
   (MSG_grid_origin, [(0, "North-West"); (1, "South-West"); (2, "South-East"); (3, "North-East")]);
   (MSG_direction_line, [(0, "North-South"); (1, "South-North")]);
   (MSG_direction_column, [(0, "East-West"); (1, "West-East")]);
   (MSG_horizon_id, [(0, "South"); (1, "North"); (2, "East"); (3, "West")]);
   (MSG_image_quality_flag, [(0, "OK"); (1, "Dubious"); (2, "MPEF")]);
   (MSG_reference_data_flag, [(0, "calculated"); (1, "Meteorological"); (2, "Foreign satellite"); (3, "Both")]);
   (MSG_absolute_calibration_method, [(0, "changed"); (1, "External"); (2, "Vicarious"); (3, "Cross satellite"); (4, "Mixed")]);
   (MSG_satellite_status, [(1, "Operational"); (2, "Standby"); (3, "Commissioning"); (4, "Manouvre"); (5, "Decontamination"); (6, "Safe"); (7, "Dissemination")]);
   (MSG_satellite_manouvre, [(0, "Up"); (1, "Down"); (2, "Attitude"); (3, "N/S"); (4, "E/W"); (5, "Relocation")]);
   (MSG_data_format, [(0, "unformatted"); (1, "JPEG"); (2, "T.4"); (3, "Wavelet")]);
   (MSG_filetype, [(0, "Image"); (1, "GTS"); (2, "Alphanumeric"); (3, "Encryption"); (128, "Prologue"); (129, "Epilogue"); (130, "DCP"); (144, "Binary")]);
   (MSG_segment_validity, [(0, "derived"); (1, "Nominal"); (2, "missing data"); (3, "corrupted"); (4, "interpolated")]);
   (MSG_segment_radiometric_quality, [(0, "derived"); (1, "Nominal"); (2, "Usable"); (3, "Suspect"); (4, "use")]);
   (MSG_segment_geometric_quality, [(0, "derived"); (1, "Nominal"); (2, "Usable"); (3, "Suspect"); (4, "use")])].
(** A text has a word in it. *)
Definition has_word (w s : string) : Prop := exists a b, codes s = a ++ codes w ++ b.

(** ** Deciding *)
Fixpoint starts (w s : list Z) : bool :=
  match w, s with [], _ => true | x :: w', y :: s' => (x =? y) && starts w' s' | _, _ => false end.
Fixpoint word_in (w s : list Z) : bool := starts w s || match s with [] => false | _ :: s' => word_in w s' end.
Fixpoint distinct (l : list string) : bool :=
  match l with [] => true | x :: l' => forallb (fun y => negb (String.eqb x y)) l' && distinct l' end.
Definition table_ok (x : table * list (Z * string)) : bool :=
  let '(t, ws) := x in
  forallb (fun p => existsb (fun q => fst p =? fst q) ws) (tb_cases t)
  && distinct (tb_default t :: map (fun p => text_of t (fst p)) ws)
  && forallb (fun p => word_in (codes (snd p)) (codes (text_of t (fst p)))) ws.
Lemma all_ok : forallb table_ok documented = true.
Proof. reflexivity. Qed.

Lemma distinct_nodup l : distinct l = true -> NoDup l.
Proof.
  induction l as [|x l IH]; cbn; intros H; [constructor|].
  apply andb_true_iff in H as [A B]. constructor; [|auto].
  intros I. rewrite forallb_forall in A. specialize (A x I). rewrite String.eqb_refl in A. discriminate.
Qed.
Lemma switch_default l d c : ~ In c (map fst l) -> switch l d c = d.
Proof.
  induction l as [|[k s] l IH]; cbn; intros H; [reflexivity|].
  replace (c =? k) with false by (symmetry; apply Z.eqb_neq; intros ->; tauto). apply IH. tauto.
Qed.
Lemma starts_app w s : starts w s = true -> exists b, s = w ++ b.
Proof.
  revert s. induction w as [|x w IH]; intros s H; [exists s; reflexivity|].
  destruct s as [|y s]; [discriminate|]. cbn in H. apply andb_true_iff in H as [E H].
  apply Z.eqb_eq in E as ->. destruct (IH s H) as [b ->]. exists b. reflexivity.
Qed.
Lemma word_in_app w s : word_in w s = true -> exists a b, s = a ++ w ++ b.
Proof.
  induction s as [|y s IH]; cbn [word_in]; intros H; apply orb_true_iff in H as [H|H].
  - destruct (starts_app _ _ H) as [b ->]. exists [], b. reflexivity.
  - discriminate.
  - destruct (starts_app _ _ H) as [b E]. exists [], b. exact E.
  - destruct (IH H) as (a & b & ->). exists (y :: a), b. reflexivity.
Qed.
Lemma nodup_map_inj (A B : Type) (f : A -> B) l x y : NoDup (map f l) -> In x l -> In y l -> f x = f y -> x = y.
Proof.
  induction l as [|z l IH]; cbn; intros N I J E; [contradiction|]. inversion N; subst.
  destruct I as [->|I], J as [->|J]; auto.
  - exfalso. apply H1. rewrite E. apply in_map. exact J.
  - exfalso. apply H1. rewrite <- E. apply in_map. exact I.
Qed.

(** ** Theorems *)
(** The text of a documented code has the word of its name. *)
Theorem C211_words t ws c w :
  In (t, ws) documented -> In (c, w) ws -> has_word w (text_of t c).
Proof.
  intros H I. pose proof all_ok as A. rewrite forallb_forall in A. specialize (A _ H). cbn [table_ok] in A.
  apply andb_true_iff in A as [_ A]. rewrite forallb_forall in A. specialize (A _ I). apply word_in_app. exact A.
Qed.
Print Assumptions C211_words.

(** Two codes, whatever their values, have the same text only when they are equal or both
    are undocumented: the code can be read back from the text. *)
Theorem C211_told_apart t ws c c' :
  In (t, ws) documented -> text_of t c = text_of t c' ->
  c = c' \/ (~ In c (map fst ws) /\ ~ In c' (map fst ws)).
Proof.
  intros H E. pose proof all_ok as A. rewrite forallb_forall in A. specialize (A _ H). cbn [table_ok] in A.
  apply andb_true_iff in A as [A _]. apply andb_true_iff in A as [K D]. apply distinct_nodup in D.
  inversion D as [|? ? ND N]; subst.
  assert (Q : forall k, ~ In k (map fst ws) -> text_of t k = tb_default t).
  { intros k NI. apply switch_default. intros I. apply NI. apply in_map_iff in I as (p & <- & I).
    rewrite forallb_forall in K. specialize (K p I). apply existsb_exists in K as (q & J & F).
    apply Z.eqb_eq in F. rewrite F. apply in_map. exact J. }
  assert (R : forall k, In k (map fst ws) -> text_of t k <> tb_default t).
  { intros k I F. apply ND. rewrite <- F. apply in_map_iff in I as (p & <- & I).
    apply (in_map (fun p => text_of t (fst p))) in I. exact I. }
  destruct (in_dec Z.eq_dec c (map fst ws)) as [I|I], (in_dec Z.eq_dec c' (map fst ws)) as [J|J].
  - left. rewrite <- map_map in N. apply (nodup_map_inj _ _ (text_of t) (map fst ws)); assumption.
  - exfalso. apply (R c I). rewrite E. apply Q. exact J.
  - exfalso. apply (R c' J). rewrite <- E. apply Q. exact I.
  - right. split; assumption.
Qed.
Print Assumptions C211_told_apart.

(** ** Cases *)
Example C211_case : text_of MSG_Body 3 = "Sun and Moon" /\ text_of MSG_Body 7 = "Unknown" /\ text_of MSG_Body (-1) = text_of MSG_Body 7.
Proof. repeat split. Qed.
Example C211_documented : List.length documented = 30%nat /\ List.length (List.concat (map snd documented)) = 136%nat.
Proof. split; reflexivity. Qed.
