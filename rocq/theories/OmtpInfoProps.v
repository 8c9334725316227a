(** C219: the listing of OpenMTP files. *)
From Coq Require Import Reals.
From Verif Require Import Base BaseFacts IniModel IniProofs MachineModel HriModel OmtpModel OmtpSpec OmtpProofs OmtpProps CalibModel GribModel OmtpInfoModel.
Open Scope string_scope.
Open Scope list_scope.
Open Scope Z_scope.

(** ** What is asked for *)
(** The lines of the fields: 1 always, 2 of images that are not rectified, 3 of visible
    composites; texts have one line. The fields of odd_accessors and the time of the
    calibration are apart. *)
Definition named : list (Z * string * label) :=
  [(1, "field_name", LOne "Product Type" 1); (1, "year", LOne "Year" 2); (1, "jday", LOne "Jday" 2); (1, "slot", LOne "Slot" 2); (1, "dtype", LOne "Dtype" 2); (1, "date", LOne "Date" 2);
   (1, "time", LOne "Time" 2); (1, "satellite_name", LOne "Satellite Name" 1); (1, "proc", LOne "Proc" 2); (1, "mpef_calibration_coefficient", LOne "CalC0" 2);
   (1, "mpef_calibration_space_count", LOne "Space" 2); (1, "header_2_record_size", LOne "Rec2siz" 2); (1, "image_line_record_size", LOne "Lrecsize" 1);
   (1, "offset_first_pixel_in_line", LOne "Loffset" 2); (1, "rectification_method_name", LOne "Rtmet" 2); (1, "deformation_model", LOne "Dmmod" 2);
   (1, "resampling_method", LOne "Rsmet" 2); (1, "subsatellite_point", LOne "Ssp" 2); (1, "origin", LOne "Origin" 2); (1, "phenomena_index", LOne "Idx" 2);
   (1, "first_line", LOne "Line1" 2); (1, "first_pixel", LOne "Pixel1" 2); (1, "nlines", LOne "Nlines" 2); (1, "npixels", LOne "Npixels" 2); (1, "missing_line_table", LOne "Mlt1" 2);
   (1, "missing_line_table_VISn", LOne "Mlt2" 2); (1, "image_quality", LOne "Imgqua" 2);
   (2, "urect_nominal_end_time", LOne "Int" 2); (2, "urect_processing_performed", LOne "Imp" 2); (2, "urect_special_output", LOne "Spr" 2); (2, "urect_radiometer_refpos", LOne "Rpr" 2);
   (2, "urect_refpos_line_number", LOne "Lre" 2); (2, "urect_scanning_law", LOne "Lb0" 2); (2, "urect_number_of_received_subimage", LOne "Nsi" 2);
   (2, "urect_first_line_in_subimage", LIdx "Fls" 2); (2, "urect_nlines_in_subimage", LIdx "Nsl" 2); (2, "urect_curr_decoded_rad_pos_of_first_line_in_subimage", LIdx "Rdpsim" 2);
   (2, "urec_start_image", LOne "Timef" 2); (2, "urec_end_image", LOne "Timel" 2); (2, "urec_orbit_coord_in_geoframe_start", LIdx "Orbf" 2);
   (2, "urec_orbit_coord_in_geoframe_end", LIdx "Orbl" 2); (2, "urec_horizon_information", LMat "Earco" 3); (2, "urec_time_of_first_pixel", LOne "Htime" 2);
   (2, "urec_status_flags", LIdx "Status" 1); (2, "urec_ir_channel_in_use", LOne "Irchan" 2); (2, "urec_radiometer_step_offset_start", LOne "Lstart" 2);
   (2, "urec_horizon_limit_information", LMat "Horlim" 3); (2, "urec_radiometer_step_south", LOne "Ls" 2); (2, "urec_radiometer_step_north", LOne "Ln" 2); (2, "urec_rmid", LOne "Rmid" 2);
   (2, "urec_tmid", LOne "Tmid" 2); (2, "urec_distance_es", LOne "Distan" 2); (2, "urec_cone_angle_beta_south_obs", LOne "Betaso" 2); (2, "urec_cone_angle_beta_north_obs", LOne "Betano" 2);
   (2, "urec_cone_angle_beta_south_exp", LOne "Betase" 2); (2, "urec_cone_angle_beta_north_exp", LOne "Betane" 2); (2, "urec_etas", LOne "Etas" 2); (2, "urec_etan", LOne "Etan" 2);
   (2, "urec_betasn", LOne "Betasn" 2); (2, "urec_betann", LOne "Betann" 2); (2, "urec_step_parameter_F0_old", LOne "F0old" 2); (2, "urec_step_parameter_F1_old", LOne "F1old" 2);
   (2, "urec_step_parameter_F0_new", LOne "F0new" 2); (2, "urec_step_parameter_F1_new", LOne "F1new" 2); (2, "urec_spin_deviation_fit_const", LOne "S0" 2);
   (2, "urec_spin_deviation_fit_linear", LOne "S1" 2); (2, "urec_spin_deviation_fit_quad", LOne "S2" 2); (2, "urec_standard_deviation_spin_fit", LOne "Sigmas" 2);
   (1, "ngridpoints_deformation_matrix", LOne "Ndgrp" 2); (1, "grid_deformation_start", LOne "Dmstrt" 2); (1, "grid_deformation_end", LOne "Dmend" 2); (1, "grid_deformation_step", LOne "Dmstep" 2);
   (1, "deformation_matrix_x", LMat "Defmax" 105); (1, "deformation_matrix_y", LMat "Defmay" 105); (1, "number_corrected_channels", LOne "Ncor" 2); (1, "chid_first_corrected", LOne "Chid1" 2);
   (1, "line_geometric_correction_EW_1", LIdx "Ewgeo1" 1); (1, "line_geometric_correction_NS_1", LIdx "Nsgeo1" 1); (1, "line_radiometric_correction_offset_1", LIdx "Roff1" 1);
   (1, "line_radiometric_correction_gain_1", LIdx "Rgain1" 1);
   (3, "chid_second_corrected", LOne "Chid2" 2); (3, "line_geometric_correction_EW_2", LIdx "Ewgeo2" 1); (3, "line_geometric_correction_NS_2", LIdx "Nsgeo2" 1);
   (3, "line_radiometric_correction_offset_2", LIdx "Roff2" 1); (3, "line_radiometric_correction_gain_2", LIdx "Rgain2" 1)].
Definition listed (s : Z) (h : list Z) : Prop := s = 1 \/ s = 2 /\ word h 36 <= 3 \/ s = 3 /\ word h 40 = 3.
(** A decimal number with its sign. *)
Definition number (v : Z) : str := if v <? 0 then codes "-" ++ print (- v) else print v.
(** What a line of a field of the bytes [bs] shows. *)
Definition shown (num : okind -> Z -> str) (k : okind) (bs : list Z) (i : nat) : str :=
  match k with
  | OC => match upto_nul bs with Some s => s | None => bs end
  | OF4 | OF8 | OC5 | OC3 => num k (elem_at k bs i)
  | _ => number (elem_at k bs i)
  end.
Definition lines_of (k : okind) (n : Z) : Z := match k with OC => 1 | _ => n end.
(** [l] and [v] are a line of [t]. *)
Definition line_start (p : str) : Prop := p = [] \/ exists q, p = q ++ [10].
Definition has_line (t l v : str) : Prop := exists p q, t = p ++ l ++ v ++ [10] ++ q /\ line_start p.
(** The line of a pixel. *)
Definition pixel_line (show : xr -> str) (table : Z -> xr) (j i : nat) (count : Z) : str :=
  codes "Pixel (" ++ print (Z.of_nat j) ++ codes "," ++ print (Z.of_nat i) ++ codes ")" ++ [9] ++ show (table count) ++ [10].

(** ** The accessors *)
Lemma elems_ok hs h k off n : (off + n * owidth k <= List.length h)%nat -> get_elems hs h k off n = Ok (map (elem_at k (skipn off h)) (seq 0 n)).
Proof.
  intros L. pose proof (get_elems_val hs k (firstn off h) (skipn off h) [] n) as G. specialize (G ltac:(rewrite skipn_length; lia) n 0%nat eq_refl).
  rewrite app_nil_r, firstn_skipn, firstn_length, Nat.mul_0_r, Nat.add_0_r in G. now rewrite Nat.min_l in G by lia.
Qed.
Definition fits (e : string * okind * Z * Z * Z) : bool := let '(_, k, off, n, size) := e in (0 <=? off) && (0 <=? n) && (off + n * Z.of_nat (owidth k) <=? 192999) && (n <=? size).
Lemma accessors_fit : forallb fits accessors = true.
Proof. vm_compute. reflexivity. Qed.
Lemma found_in name k off n size : find_accessor name = Some (k, off, n, size) -> exists m, In (m, k, off, n, size) accessors /\ m = name.
Proof.
  unfold find_accessor. destruct (find _ accessors) as [[[[[m k'] off'] n'] size']|] eqn:F; [|discriminate]. intros E. injection E as <- <- <- <-. apply find_some in F as [I E]. cbn in E. apply String.eqb_eq in E. eauto.
Qed.
Definition known (name : string) : bool := match find_accessor name with Some _ => true | None => false end.
Lemma accessor_ok name hs h : known name = true -> Z.of_nat (List.length h) = 192999 -> exists k off n size, find_accessor name = Some (k, off, n, size) /\
  accessor name hs h = Ok (map (elem_at k (skipn (Z.to_nat off) h)) (seq 0 (Z.to_nat n)) ++ repeat 0 (Z.to_nat (size - n))).
Proof.
  unfold known, accessor. destruct (find_accessor name) as [[[[k off] n] size]|] eqn:F; [|discriminate]. intros _ L. exists k, off, n, size. split; [reflexivity|].
  destruct (found_in _ _ _ _ _ F) as (m & I & _). pose proof accessors_fit as A. rewrite forallb_forall in A. specialize (A _ I). cbn [fits] in A. rewrite elems_ok by nia. reflexivity.
Qed.
Definition entry_known (e : entry) : bool := String.eqb (e_acc e) "" || known (e_acc e).
Lemma entries_known : forallb entry_known (first_entries ++ second_entries ++ third_entries ++ fourth_entries) = true.
Proof. vm_compute. reflexivity. Qed.
Lemma entry_ok num hs h e : entry_known e = true -> Z.of_nat (List.length h) = 192999 -> exists t, entry_text num hs h e = Ok t.
Proof.
  intros K L. unfold entry_text. unfold entry_known in K. destruct (String.eqb (e_acc e) ""); [cbn [bind]; eauto|]. destruct (accessor_ok _ hs h K L) as (k & off & n & size & _ & ->). cbn [bind]. eauto.
Qed.
Lemma entries_ok num hs h l : forallb entry_known l = true -> Z.of_nat (List.length h) = 192999 -> exists t, entries_text num hs h l = Ok t.
Proof.
  intros K L. induction l as [|e l IH]; cbn [entries_text]; [eauto|]. cbn [forallb] in K. apply andb_prop in K as [K1 K2]. destruct (entry_ok num hs h e K1 L) as (a & ->), (IH K2) as (b & ->). cbn [bind]. eauto.
Qed.
Definition all_entries (rect comp : bool) : list entry := first_entries ++ (if rect then [] else second_entries) ++ third_entries ++ (if comp then fourth_entries else []).
Lemma header_eq num hs h : (139 <= List.length h)%nat -> header_text num hs h = entries_text num hs h (all_entries (3 <? word h 36) (word h 40 =? 3)).
Proof. intros L. unfold header_text, is_rectified, is_visible_composite, chan_is. rewrite !int4_word by lia. reflexivity. Qed.
Lemma header_ok num hs h : Z.of_nat (List.length h) = 192999 -> exists t, header_text num hs h = Ok t.
Proof.
  intros L. rewrite header_eq by lia. apply entries_ok; [|assumption]. pose proof entries_known as K. unfold all_entries. rewrite !forallb_app in K. apply andb_prop in K as [K1 K]. apply andb_prop in K as [K2 K]. apply andb_prop in K as [K3 K4].
  rewrite !forallb_app, K1, K3. destruct (3 <? word h 36), (word h 40 =? 3); rewrite ?K2, ?K4; reflexivity.
Qed.
Lemma entries_app num hs h l l' : entries_text num hs h (l ++ l') = let! a := entries_text num hs h l in let! b := entries_text num hs h l' in Ok (a ++ b).
Proof.
  induction l as [|e l IH]; cbn [app entries_text bind]; [destruct (entries_text num hs h l'); reflexivity|]. rewrite IH. destruct (entry_text num hs h e); cbn [bind]; try reflexivity.
  destruct (entries_text num hs h l); cbn [bind]; try reflexivity. destruct (entries_text num hs h l'); cbn [bind]; try reflexivity. now rewrite app_assoc.
Qed.

(** ** Finding lines *)
Definition label_dec (a b : label) : {a = b} + {a <> b}.
Proof. decide equality; (apply string_dec || apply Z.eq_dec || apply Nat.eq_dec). Defined.
Definition entry_dec (a b : entry) : {a = b} + {a <> b}.
Proof. decide equality; (apply string_dec || apply Z.eq_dec || apply label_dec || apply (list_eq_dec Z.eq_dec)). Defined.
Definition ends (e : entry) : bool := if list_eq_dec Z.eq_dec (e_end e) [10] then 1 <=? e_count e else false.
Fixpoint has (starts : bool) (x : entry) (l : list entry) : bool :=
  match l with
  | [] => false
  | e :: l' => (starts && if entry_dec e x then true else false) || has (ends e) x l'
  end.
Lemma flat_last (A : Type) (f : A -> str) l : l <> [] -> (forall a, exists q, f a = q ++ [10]) -> exists q, flat_map f l = q ++ [10].
Proof.
  intros N F. destruct (exists_last N) as (l' & a & ->). destruct (F a) as (q & E). exists (flat_map f l' ++ q). rewrite flat_map_app. cbn [flat_map]. now rewrite app_nil_r, E, app_assoc.
Qed.
Lemma entry_ends num hs h e a : ends e = true -> entry_text num hs h e = Ok a -> exists q, a = q ++ [10].
Proof.
  unfold ends, entry_text. intros E T. destruct (if String.eqb (e_acc e) "" then _ else _) as [vs| | | |]; cbn [bind] in T; try discriminate. injection T as <-.
  destruct (list_eq_dec Z.eq_dec (e_end e) [10]) as [->|]; [|discriminate].
  apply flat_last; [intro N; apply (f_equal (@List.length nat)) in N; rewrite seq_length in N; cbn in N; lia|]. intros i. exists (label_text (e_label e) i ++ value_text num (kind_of (e_acc e)) vs i). now rewrite <- app_assoc.
Qed.
Lemma start_app p q : (exists r, q = r ++ [10]) -> line_start (p ++ q).
Proof. intros (r & ->). right. exists (p ++ r). now rewrite app_assoc. Qed.
Lemma has_text num hs h x l : forall starts q t, has starts x l = true -> (starts = true -> line_start q) -> entries_text num hs h l = Ok t ->
  exists p r a, entry_text num hs h x = Ok a /\ t = p ++ a ++ r /\ line_start (q ++ p).
Proof.
  induction l as [|e l IH]; intros starts q t H S T; [discriminate|]. cbn [has entries_text] in *. destruct (entry_text num hs h e) as [a| | | |] eqn:E; cbn [bind] in T; try discriminate. destruct (entries_text num hs h l) as [b| | | |] eqn:L; cbn [bind] in T; try discriminate. injection T as <-.
  apply orb_prop in H as [H|H].
  - apply andb_prop in H as [H1 H2]. destruct (entry_dec e x) as [->|]; [|discriminate]. exists [], b, a. rewrite app_nil_r. auto.
  - destruct (IH (ends e) (q ++ a) b H) as (p & r & c & C & -> & P); [intros N; apply start_app; now apply (entry_ends num hs h e)|reflexivity|]. exists (a ++ p), r, c. rewrite <- !app_assoc in *. auto.
Qed.
Lemma line_in num hs h x l t i vs : has true x l = true -> entries_text num hs h l = Ok t -> e_end x = [10] -> e_acc x <> "" -> accessor (e_acc x) hs h = Ok vs -> (i < Z.to_nat (e_count x))%nat ->
  has_line t (label_text (e_label x) i) (value_text num (kind_of (e_acc x)) vs i).
Proof.
  intros H T N A V I. destruct (has_text num hs h x l true [] t H (fun _ => or_introl eq_refl) T) as (p & r & a & EA & -> & P). cbn [app] in P. unfold entry_text in EA. apply String.eqb_neq in A. rewrite A, V in EA. cbn [bind] in EA. injection EA as <-.
  set (f := fun i => label_text (e_label x) i ++ value_text num (kind_of (e_acc x)) vs i ++ e_end x). set (n := Z.to_nat (e_count x)) in *.
  assert (SQ : seq 0 n = seq 0 i ++ [i] ++ seq (S i) (n - S i)). { replace n with (i + S (n - S i))%nat at 1 by lia. rewrite seq_app. reflexivity. }
  rewrite SQ, !flat_map_app. cbn [flat_map]. rewrite app_nil_r. exists (p ++ flat_map f (seq 0 i)), (flat_map f (seq (S i) (n - S i)) ++ r). split; [unfold f at 2; rewrite N, <- !app_assoc; reflexivity|].
  destruct i as [|i]; [cbn [seq flat_map]; now rewrite app_nil_r|]. apply start_app. apply flat_last; [discriminate|]. intros j. unfold f. rewrite N. exists (label_text (e_label x) j ++ value_text num (kind_of (e_acc x)) vs j). now rewrite <- app_assoc.
Qed.
Definition named_ok (c : Z * string * label) : bool :=
  let '(s, name, lab) := c in
  match find (fun f => String.eqb (fst (fst f)) name) layout with
  | None => false
  | Some (_, k, n) =>
      let x := mk_entry lab name (lines_of k n) [10] in
      regular name && negb (String.eqb name "") && (if okind_dec (kind_of name) k then true else false) &&
      (has true x (all_entries true false) || negb (s =? 1)) && (has true x (all_entries true true) || (s =? 2)) &&
      (has true x (all_entries false false) || (s =? 3)) && has true x (all_entries false true)
  end.
Lemma named_all : forallb named_ok named = true.
Proof. vm_compute. reflexivity. Qed.

(** ** C219 *)
Lemma c_string_cut bs : c_string bs = match upto_nul bs with Some s => s | None => bs end.
Proof.
  unfold c_string. assert (G : upto_nul (bs ++ [0]) = Some (match upto_nul bs with Some s => s | None => bs end)); [|now rewrite G].
  induction bs as [|c bs IH]; [reflexivity|]. cbn [app upto_nul]. destruct (c =? 0); [reflexivity|]. rewrite IH. now destruct (upto_nul bs).
Qed.
Lemma nth_cut (l : list Z) i n : (i < n)%nat -> nth i (firstn n l) 0 = nth i l 0.
Proof. revert i n. induction l as [|a l IH]; intros [|i] [|n] L; cbn; try reflexivity; try lia. apply IH. lia. Qed.
Lemma elem_bytes bs : forall n, (n <= List.length bs)%nat -> map (elem_at OC bs) (seq 0 n) = firstn n bs.
Proof.
  intros n L. apply (nth_ext _ _ 0 0); [rewrite map_length, seq_length, firstn_length; lia|]. intros i I. rewrite map_length, seq_length in I. rewrite (nth_indep _ 0 (elem_at OC bs 0%nat)) by (rewrite map_length, seq_length; lia). rewrite map_nth, seq_nth by lia. cbn [Nat.add].
  unfold elem_at. change (Z.to_nat (field_size OC 1)) with 1%nat. rewrite Nat.mul_1_l. rewrite nth_cut by lia. rewrite <- (firstn_skipn i bs) at 2. rewrite app_nth2 by (rewrite firstn_length; lia). rewrite firstn_length, Nat.min_l, Nat.sub_diag by lia.
  destruct (skipn i bs) as [|b r] eqn:E; [apply (f_equal (@List.length Z)) in E; rewrite skipn_length in E; cbn in E; lia|]. cbn [firstn nth elem be_val List.length]. change (256 ^ Z.of_nat 0) with 1. lia.
Qed.
Lemma number_text v : int_text v = number v.
Proof. reflexivity. Qed.
Lemma value_shown num k n bs i : Z.of_nat (List.length bs) = field_size k n -> (i < Z.to_nat (lines_of k n))%nat -> value_text num k (map (elem_at k bs) (seq 0 (Z.to_nat n))) i = shown num k bs i.
Proof.
  intros L I. assert (N : k <> OC -> nth i (map (elem_at k bs) (seq 0 (Z.to_nat n))) 0 = elem_at k bs i).
  { intros K. assert (J : (i < Z.to_nat n)%nat) by (destruct k; try contradiction; exact I). rewrite (nth_indep _ 0 (elem_at k bs 0%nat)) by (rewrite map_length, seq_length; lia). rewrite map_nth, seq_nth by lia. reflexivity. }
  destruct k; cbn [value_text shown]; try (rewrite N by discriminate; reflexivity).
  unfold field_size in L. rewrite elem_bytes by lia. rewrite firstn_all2 by lia. apply c_string_cut.
Qed.
(** Every field is on a line of its own under its name: texts up to the first NUL, numbers
    in decimal. *)
Theorem C219_fields num hs bss : packed bss -> exists t, header_text num hs (List.concat bss) = Ok t /\
  forall s name lab k n bs i, In (s, name, lab) named -> listed s (List.concat bss) -> In ((name, k, n), bs) (combine layout bss) -> (i < Z.to_nat (lines_of k n))%nat ->
    has_line t (label_text lab i) (shown num k bs i).
Proof.
  intros P. pose proof (C88_header_size bss P) as L. destruct (header_ok num hs (List.concat bss) L) as (t & T). exists t. split; [exact T|]. intros s name lab k n bs i N V I J.
  pose proof named_all as A. rewrite forallb_forall in A. specialize (A _ N). cbn [named_ok] in A. clear N.
  assert (F : find (fun f : string * okind * Z => String.eqb (fst (fst f)) name) layout = Some (name, k, n)).
  { destruct (find _ layout) as [[[name' k'] n']|] eqn:F; [|discriminate]. apply find_some in F as [F1 F2]. cbn in F2. apply String.eqb_eq in F2. subst name'. apply in_combine_l in I.
    pose proof layout_nodup as ND. clear -F1 I ND. induction layout as [|f l IH]; [contradiction|]. cbn [map] in ND. inversion ND as [|? ? X ND']; subst. destruct F1 as [F1|F1], I as [I|I].
    - congruence.
    - exfalso. apply X. subst f. apply (in_map (fun f => fst (fst f))) in I. exact I.
    - exfalso. apply X. subst f. apply (in_map (fun f => fst (fst f))) in F1. exact F1.
    - auto. }
  rewrite F in A. cbv zeta in A. apply andb_prop in A as [A A7]. apply andb_prop in A as [A A6]. apply andb_prop in A as [A A5]. apply andb_prop in A as [A A4]. apply andb_prop in A as [A A3]. apply andb_prop in A as [A1 A2].
  destruct (okind_dec (kind_of name) k) as [EK|]; [|discriminate]. clear A3. unfold regular in A1. apply andb_prop in A1 as [R1 R2].
  assert (V1 : accessor name hs (List.concat bss) = Ok (map (elem_at k bs) (seq 0 (Z.to_nat n)))).
  { apply C88_accessors_partial; auto; [now apply negb_true_iff|]. intro X. apply negb_true_iff in R2. assert (existsb (String.eqb name) odd_accessors = true); [|congruence]. apply existsb_exists. exists name. split; [assumption|apply String.eqb_refl]. }
  destruct (locate name k n bs layout bss P layout_nodup I) as (_ & _ & _ & _ & W). rewrite header_eq in T by lia.
  rewrite <- (value_shown num k n bs i W J). set (x := mk_entry lab name (lines_of k n) [10]) in *. rewrite <- EK. change lab with (e_label x). change name with (e_acc x).
  apply (line_in num hs (List.concat bss) x (all_entries (3 <? word (List.concat bss) 36) (word (List.concat bss) 40 =? 3)) t i); auto.
  - unfold listed in V. destruct (3 <? word (List.concat bss) 36) eqn:Q1, (word (List.concat bss) 40 =? 3) eqn:Q2; try (apply orb_prop in A4 as [A4|A4]; [exact A4|lia]); try (apply orb_prop in A5 as [A5|A5]; [exact A5|lia]); try (apply orb_prop in A6 as [A6|A6]; [exact A6|lia]); exact A7.
  - cbn [e_acc x]. intro X. apply negb_true_iff in A2. apply String.eqb_neq in A2. contradiction.
  - cbn [e_acc x]. rewrite EK. exact V1.
Qed.
Print Assumptions C219_fields.
Lemma ok_inj {A} (x y : A) : Ok x = Ok y -> x = y.
Proof. congruence. Qed.
(** The day and slot of the calibration share a line. *)
Theorem C219_calibration_time num hs bss d s : packed bss -> In (("mpef_calibration_day", OD3, 1), d) (combine layout bss) -> In (("mpef_calibration_slot", OD2, 1), s) (combine layout bss) ->
  exists t p q, header_text num hs (List.concat bss) = Ok t /\ t = p ++ codes "Calctim" ++ [9; 9] ++ codes "Day " ++ number (elem OD3 d) ++ codes " Slot " ++ number (elem OD2 s) ++ [10] ++ q.
Proof.
  intros P D S. pose proof (C88_header_size bss P) as L. destruct (header_ok num hs (List.concat bss) L) as (t & T). exists t. pose proof T as T0.
  assert (NO : forall x, In x ["mpef_calibration_day"; "mpef_calibration_slot"] -> ~ In x odd_accessors) by (intros x [<-|[<-|[]]] X; repeat (destruct X as [X|X]; [discriminate|]); contradiction).
  pose proof (C88_accessors_partial hs bss _ _ _ _ P D eq_refl (NO _ (or_introl eq_refl))) as VD. pose proof (C88_accessors_partial hs bss _ _ _ _ P S eq_refl (NO _ (or_intror (or_introl eq_refl)))) as VS.
  destruct (locate _ _ _ _ layout bss P layout_nodup D) as (_ & _ & _ & _ & WD). destruct (locate _ _ _ _ layout bss P layout_nodup S) as (_ & _ & _ & _ & WS). clear D S NO P.
  rewrite header_eq in T by lia. unfold all_entries in T. set (r := (if 3 <? word (List.concat bss) 36 then [] else second_entries) ++ third_entries ++ (if word (List.concat bss) 40 =? 3 then fourth_entries else [])) in T.
  change first_entries with (firstn 11 first_entries ++ firstn 3 (skipn 11 first_entries) ++ skipn 14 first_entries) in T. rewrite <- !app_assoc in T. rewrite !entries_app in T.
  destruct (entries_text num hs (List.concat bss) (firstn 11 first_entries)) as [a| | | |]; cbn [bind] in T; try discriminate.
  change (firstn 3 (skipn 11 first_entries)) with [mk_entry (LOne "Calctim" 2) "" 1 (codes "Day "); mk_entry (LOne "" 0) "mpef_calibration_day" 1 []; mk_entry (LOne " Slot " 0) "mpef_calibration_slot" 1 [10]] in T.
  cbn [entries_text] in T. unfold entry_text in T. cbn [e_acc e_label e_count e_end] in T. change (String.eqb "" "") with true in T. change (String.eqb "mpef_calibration_day" "") with false in T. change (String.eqb "mpef_calibration_slot" "") with false in T. cbv iota in T.
  rewrite VD, VS in T. cbn [bind] in T. change (kind_of "mpef_calibration_day") with OD3 in T. change (kind_of "mpef_calibration_slot") with OD2 in T.
  destruct (entries_text num hs (List.concat bss) (skipn 14 first_entries)) as [b| | | |]; cbn [bind] in T; try discriminate. destruct (entries_text num hs (List.concat bss) r) as [c| | | |]; cbn [bind] in T; try discriminate. apply ok_inj in T. rewrite <- T.
  assert (ED : elem_at OD3 d 0 = elem OD3 d) by (unfold elem_at; cbn in WD |- *; change (Z.to_nat (field_size OD3 1)) with 3%nat; cbn [Nat.mul]; rewrite skipn_O, firstn_all2; [reflexivity|lia]).
  assert (ES : elem_at OD2 s 0 = elem OD2 s) by (unfold elem_at; cbn in WS |- *; change (Z.to_nat (field_size OD2 1)) with 2%nat; cbn [Nat.mul]; rewrite skipn_O, firstn_all2; [reflexivity|lia]).
  rewrite <- ED, <- ES. exists a, (b ++ c). split; [rewrite T; exact T0|]. change (Z.to_nat 1) with 1%nat. cbn [seq map flat_map label_text value_text nth]. change (value_text num (kind_of "") [] 0) with (@nil Z). change (value_text num OD3 [elem_at OD3 d 0] 0) with (number (elem_at OD3 d 0)). change (value_text num OD2 [elem_at OD2 s 0] 0) with (number (elem_at OD2 s 0)). change (codes "") with (@nil Z). cbn [repeat]. rewrite ?app_nil_r, ?app_nil_l. rewrite <- !app_assoc. reflexivity.
Qed.
Print Assumptions C219_calibration_time.

(** ** The whole listing *)
Lemma read_file hs fill a h0 f r : file_ok f -> read hs fill (fresh a h0) (file_bytes f ++ r) = Ok (mk_omtp (f_ascii f) (header_of f) (Some (List.concat (map (skipn 32) (f_lines f)))), mk_stream r false).
Proof.
  intros (H & NL & NP & P & LL & FL). destruct (headers_len f H) as (LA & _). destruct (header_ints hs f H) as [E1 E2].
  destruct (concat_pixels (f_npixels f) (f_lines f)) as [C1 C2]; [lia|assumption|].
  unfold read, file_bytes. rewrite <- !app_assoc. rewrite read_ascii_ok by assumption. cbn [bind]. rewrite read_header_ok by assumption. cbn [bind]. unfold read_image, fresh. cbn [o_image]. rewrite E1, E2. cbn [bind].
  replace (int_ok (f_nlines f * f_npixels f)) with true by (unfold int_ok, int_max; nia). replace (f_nlines f * f_npixels f <? 0) with false by nia. cbn [bind].
  replace (Z.to_nat (f_nlines f)) with (List.length (f_lines f)) by lia.
  pose proof (read_lines_ok (f_npixels f) NP (f_lines f) 0 [] (repeat fill (Z.to_nat (f_nlines f * f_npixels f))) r FL eq_refl) as R. cbn [app] in R. rewrite repeat_length in R. rewrite R by nia.
  cbn [bind]. rewrite skipn_all2 by (rewrite repeat_length; nia). now rewrite app_nil_r.
Qed.
Lemma cut_fields (l : list (string * okind * Z)) : forall h : list Z, Forall (fun f => 0 <= field_size (snd (fst f)) (snd f)) l -> Z.of_nat (List.length h) = fold_right (fun f a => field_size (snd (fst f)) (snd f) + a) 0 l ->
  exists bss : list (list Z), Forall2 (fun f bs => Z.of_nat (List.length bs) = field_size (snd (fst f)) (snd f)) l bss /\ List.concat bss = h.
Proof.
  induction l as [|f l IH]; intros h F L; cbn [fold_right] in L.
  - exists []. split; [constructor|]. destruct h; [reflexivity|cbn in L; lia].
  - inversion F as [|? ? F0 F1]; subst. assert (G : 0 <= fold_right (fun f a => field_size (snd (fst f)) (snd f) + a) 0 l) by (clear -F1; induction F1; cbn [fold_right]; lia).
    set (w := field_size (snd (fst f)) (snd f)) in *. destruct (IH (skipn (Z.to_nat w) h) F1) as (bss & B & E); [rewrite skipn_length; lia|].
    exists (firstn (Z.to_nat w) h :: bss). split; [constructor; [|exact B]; rewrite firstn_length; fold w; lia|]. cbn [List.concat]. now rewrite E, firstn_skipn.
Qed.
Lemma fields_of h : Z.of_nat (List.length h) = 192999 -> exists bss, packed bss /\ List.concat bss = h.
Proof.
  intros L. apply cut_fields; [|rewrite L; vm_compute; reflexivity].
  assert (A : forallb (fun f : string * okind * Z => 0 <=? field_size (snd (fst f)) (snd f)) layout = true) by (vm_compute; reflexivity). rewrite forallb_forall in A. apply Forall_forall. intros x I. specialize (A x I). lia.
Qed.
Lemma calibrated neg hs h : (139 <= List.length h)%nat -> exists table, omtp_calibration neg hs h = Ok table.
Proof.
  intros L. unfold omtp_calibration, text_at, OmtpModel.r4_from_char5, OmtpModel.r4_from_char3, chars. cbn [List.length]. rewrite !bytes_at_ok by lia. cbn [bind]. destruct (negb _); [eauto|].
  unfold is_ir_data, is_wv_data, is_vis_data, is_visible_composite, chan_is. rewrite int4_word by lia. cbn [bind]. destruct (_ || _); [eauto|]. destruct (_ || _); [eauto|]. destruct (_ || _); eauto.
Qed.
Lemma greeting num h : (139 <= List.length h)%nat -> exists g, read_text num h = Ok g.
Proof.
  intros L. unfold read_text, text_at, OmtpModel.r4_from_char5, OmtpModel.r4_from_char3, chars. cbn [List.length]. rewrite !bytes_at_ok by lia. cbn [bind]. destruct (negb _); eauto.
Qed.
(** A complete file gives its own text, the lines of its header, and one line for each pixel
    with the value that the calibration gives for its count. *)
Theorem C219_listing num show neg hs fill a h0 f r : file_ok f ->
  exists bss table g t, packed bss /\ sections_kept f (List.concat bss) /\ omtp_calibration neg hs (List.concat bss) = Ok table /\ header_text num hs (List.concat bss) = Ok t /\
  info num show neg hs fill a h0 (file_bytes f ++ r) =
    Ok (g ++ shown num OC (f_ascii f) 0 ++ t ++ flat_map (fun j => flat_map (fun i => pixel_line show table j i (nth (32 + i) (nth j (f_lines f) []) 0)) (seq 0 (Z.to_nat (f_npixels f)))) (seq 0 (Z.to_nat (f_nlines f)))).
Proof.
  intros F. pose proof F as (H & NL & NP & P & LL & FL). pose proof (header_sections f H) as K. destruct (fields_of (header_of f) (proj1 K)) as (bss & B & E). rewrite <- E in K. pose proof (proj1 K) as L.
  destruct (calibrated neg hs (List.concat bss)) as (table & T); [lia|]. destruct (greeting num (List.concat bss)) as (g & G); [lia|]. destruct (header_ok num hs (List.concat bss) L) as (t & HT).
  exists bss, table, g, t. repeat (split; [assumption|]). unfold info. rewrite read_file by assumption. cbn [bind o_header o_image o_ascii]. rewrite <- E, T. cbn [bind]. rewrite G. cbn [bind]. rewrite HT. cbn [bind].
  destruct (header_ints hs f H) as [E1 E2]. rewrite E, E1, E2. cbn [bind shown]. rewrite c_string_cut. do 4 f_equal. unfold image_text.
  destruct (concat_pixels (f_npixels f) (f_lines f)) as [_ C2]; [lia|assumption|].
  rewrite !flat_map_concat_map. f_equal. apply map_ext_in. intros j J. apply in_seq in J. rewrite !flat_map_concat_map. f_equal. apply map_ext_in. intros i I. apply in_seq in I.
  unfold pixel_text, pixel_line. rewrite C2 by lia. reflexivity.
Qed.
Print Assumptions C219_listing.

(** ** What the listing does not tell *)
(** The channel is on no line: only composites differ, by the lines of their second channel. *)
Definition clear_of_channel (e : entry) : bool :=
  match find_accessor (e_acc e) with Some (k, off, n, _) => (off + n * Z.of_nat (owidth k) <=? 40) || (44 <=? off) | None => String.eqb (e_acc e) "" end.
Lemma entries_clear : forallb clear_of_channel (first_entries ++ second_entries ++ third_entries) = true.
Proof. vm_compute. reflexivity. Qed.
Lemma cut_same (p x x' q : list Z) s w : List.length x = List.length x' -> (s + w <= List.length p \/ List.length p + List.length x <= s)%nat -> firstn w (skipn s (p ++ x ++ q)) = firstn w (skipn s (p ++ x' ++ q)).
Proof.
  intros L [C|C].
  - rewrite !skipn_app, !firstn_app, !skipn_length. replace (w - (List.length p - s))%nat with 0%nat by lia. reflexivity.
  - rewrite !skipn_app. rewrite L. rewrite (skipn_all2 x), (skipn_all2 x') by lia. reflexivity.
Qed.
Lemma entry_same num hs p x x' q e : List.length p = 40%nat -> List.length x = 4%nat -> List.length x' = 4%nat -> Z.of_nat (List.length (p ++ x ++ q)) = 192999 -> clear_of_channel e = true ->
  entry_text num hs (p ++ x ++ q) e = entry_text num hs (p ++ x' ++ q) e.
Proof.
  intros LP LX LX' L C. unfold clear_of_channel in C. unfold entry_text. destruct (String.eqb (e_acc e) "") eqn:N; [reflexivity|].
  destruct (find_accessor (e_acc e)) as [[[[k off] n] size]|] eqn:F; [|discriminate].
  assert (K : known (e_acc e) = true) by (unfold known; now rewrite F). assert (L' : Z.of_nat (List.length (p ++ x' ++ q)) = 192999) by (rewrite !app_length in *; lia).
  destruct (accessor_ok (e_acc e) hs _ K L) as (k1 & o1 & n1 & s1 & F1 & A1). destruct (accessor_ok (e_acc e) hs _ K L') as (k2 & o2 & n2 & s2 & F2 & A2).
  rewrite F in F1, F2. injection F1 as <- <- <- <-. injection F2 as <- <- <- <-. rewrite A1, A2. cbn [bind]. 
  destruct (found_in _ _ _ _ _ F) as (m & I & _). pose proof accessors_fit as A. rewrite forallb_forall in A. specialize (A _ I). cbn [fits] in A.
  replace (map (elem_at k (skipn (Z.to_nat off) (p ++ x' ++ q))) (seq 0 (Z.to_nat n))) with (map (elem_at k (skipn (Z.to_nat off) (p ++ x ++ q))) (seq 0 (Z.to_nat n))); [reflexivity|].
  apply map_ext_in. intros i J. apply in_seq in J. unfold elem_at. f_equal. rewrite !skipn_skipn. pose proof (size_width k 1) as W. replace (Z.to_nat (field_size k 1)) with (owidth k) by lia. apply cut_same; [lia|]. rewrite LP, LX. nia.
Qed.
Lemma entries_same num hs p x x' q l : List.length p = 40%nat -> List.length x = 4%nat -> List.length x' = 4%nat -> Z.of_nat (List.length (p ++ x ++ q)) = 192999 -> forallb clear_of_channel l = true ->
  entries_text num hs (p ++ x ++ q) l = entries_text num hs (p ++ x' ++ q) l.
Proof.
  intros LP LX LX' L. induction l as [|e l IH]; [reflexivity|]. cbn [forallb entries_text]. intros C. apply andb_prop in C as [C1 C2]. now rewrite (entry_same num hs p x x' q e), IH.
Qed.
Theorem C219_refuted_channel num hs p x x' q : List.length p = 40%nat -> List.length x = 4%nat -> List.length x' = 4%nat -> Z.of_nat (List.length (p ++ x ++ q)) = 192999 ->
  word (p ++ x ++ q) 40 <> 3 -> word (p ++ x' ++ q) 40 <> 3 -> header_text num hs (p ++ x ++ q) = header_text num hs (p ++ x' ++ q).
Proof.
  intros LP LX LX' L C C'. assert (L' : Z.of_nat (List.length (p ++ x' ++ q)) = 192999) by (rewrite !app_length in *; lia). rewrite !header_eq by lia.
  replace (word (p ++ x' ++ q) 36) with (word (p ++ x ++ q) 36) by (unfold word; rewrite (cut_same p x x' q 36 4) by lia; reflexivity).
  replace (word (p ++ x ++ q) 40 =? 3) with false by lia. replace (word (p ++ x' ++ q) 40 =? 3) with false by lia. apply entries_same; try assumption.
  pose proof entries_clear as E. rewrite !forallb_app in E. apply andb_prop in E as [E1 E]. apply andb_prop in E as [E2 E3]. unfold all_entries. rewrite !forallb_app, E1, E3. cbn [forallb]. destruct (3 <? _); rewrite ?E2; reflexivity.
Qed.
Print Assumptions C219_refuted_channel.
(** Of a histogram the classes from the twentieth on are listed as empty, whatever they
    are. *)
Theorem C219_refuted_histogram num hs bss : packed bss -> word (List.concat bss) 36 <= 3 -> exists t, header_text num hs (List.concat bss) = Ok t /\
  forall i, (20 <= i < 256)%nat -> has_line t (label_text (LIdx "Hist1" 2) i) (codes "0").
Proof.
  intros P R. pose proof (C88_header_size bss P) as L. destruct (header_ok num hs (List.concat bss) L) as (t & T). exists t. split; [exact T|]. intros i I.
  assert (J : exists bs, In (("urect_raw_image_histogram", OI4, 256), bs) (combine layout bss)).
  { assert (M : In ("urect_raw_image_histogram", OI4, 256) layout) by (unfold layout; repeat (first [left; reflexivity | right])).
    clear -P M. unfold packed in P. induction P as [|f bs l bss W P IH]; [contradiction|]. destruct M as [M|M]; [subst f; exists bs; now left|]. destruct (IH M) as (b & B). exists b. now right. }
  destruct J as (bs & J). pose proof (C88_refuted_histogram hs bss _ bs P J) as V. rewrite header_eq in T by lia.
  set (x := mk_entry (LIdx "Hist1" 2) "urect_raw_image_histogram" 256 [10]).
  assert (X : value_text num (kind_of (e_acc x)) (map (elem_at OI4 bs) (seq 0 20) ++ repeat 0 236) i = codes "0").
  { change (kind_of (e_acc x)) with OI4. cbn [value_text]. rewrite app_nth2 by (rewrite map_length, seq_length; lia). rewrite nth_repeat. reflexivity. }
  rewrite <- X. change (LIdx "Hist1" 2) with (e_label x). refine (line_in num hs (List.concat bss) x _ t i _ _ T eq_refl _ V _); [|cbn; discriminate|cbn [e_count x]; lia].
  replace (3 <? word (List.concat bss) 36) with false by lia. destruct (word (List.concat bss) 40 =? 3); vm_compute; reflexivity.
Qed.
Print Assumptions C219_refuted_histogram.

(** ** The program *)
Theorem C219_program num show neg hs fill a h0 prog base version content :
  info_main num show neg hs fill a h0 prog base version None content = Ok (1, codes "Usage : " ++ base ++ codes " OpenMTP_filename" ++ [10]) /\
  info_main num show neg hs fill a h0 prog base version (Some (codes "-V")) content = Ok (0, prog ++ codes " " ++ version ++ [10]) /\
  (forall f name r t, file_ok f -> name <> codes "-V" -> content name = Some (file_bytes f ++ r) -> info num show neg hs fill a h0 (file_bytes f ++ r) = Ok t ->
     info_main num show neg hs fill a h0 prog base version (Some name) content = Ok (0, t)) /\
  (forall f name n, file_ok f -> name <> codes "-V" -> (n < List.length (file_bytes f))%nat -> content name = Some (firstn n (file_bytes f)) ->
     info_main num show neg hs fill a h0 prog base version (Some name) content = Terminate).
Proof.
  split; [reflexivity|]. split; [reflexivity|]. split.
  - intros f name r t F N C T. unfold info_main. destruct (str_eqb_spec name (codes "-V")) as [E|E]; [contradiction|]. rewrite C, T. reflexivity.
  - intros f name n F N B C. unfold info_main. destruct (str_eqb_spec name (codes "-V")) as [E|E]; [contradiction|]. rewrite C. unfold info. rewrite C86_truncated by auto. reflexivity.
Qed.
Print Assumptions C219_program.
(** A name of no file ends the program as an uncaught exception does, with no message. *)
Theorem C219_refuted_missing num show neg hs fill a h0 prog base version name content : name <> codes "-V" -> content name = None ->
  info_main num show neg hs fill a h0 prog base version (Some name) content = Terminate.
Proof.
  intros N C. unfold info_main. destruct (str_eqb_spec name (codes "-V")) as [E|E]; [contradiction|]. now rewrite C.
Qed.
Print Assumptions C219_refuted_missing.
Example C219_case : file_ok (sample_file 0 4) /\ f_nlines (sample_file 0 4) = 2 /\ f_npixels (sample_file 0 4) = 3 /\ label_text (LIdx "Hist1" 2) 25 = codes "Hist1 25" ++ [9; 9] /\
  pixel_line (fun _ => codes "x") (fun _ => Fin 1) 1 2 6 = codes "Pixel (1,2)" ++ [9] ++ codes "x" ++ [10] /\
  (exists bss, packed bss /\ listed 2 (List.concat bss) /\ word (List.concat bss) 40 = 4) /\ codes "nofile" <> codes "-V".
Proof.
  split; [apply sample_ok; auto|]. split; [vm_compute; reflexivity|]. split; [vm_compute; reflexivity|]. split; [vm_compute; reflexivity|]. split; [vm_compute; reflexivity|].
  split; [|vm_compute; discriminate]. pose proof (proj1 (sample_ok 0 4 (or_introl eq_refl) (or_intror eq_refl))) as H. pose proof (header_sections _ H) as (L & K & _). destruct (fields_of _ L) as (bss & P & E). exists bss. split; [exact P|]. rewrite E.
  assert (W : forall o, (o + 4 <= Z.to_nat 5175)%nat -> word (header_of (sample_file 0 4)) o = word (f_sec1 (sample_file 0 4)) o).
  { intros o B. rewrite <- K. unfold word. rewrite <- (firstn_skipn (Z.to_nat 5175) (header_of (sample_file 0 4))) at 1. rewrite skipn_app, firstn_app, skipn_length, firstn_length. replace (4 - _)%nat with 0%nat by lia. now rewrite firstn_O, app_nil_r. }
  split; [right; left; split; [reflexivity|]|]; rewrite W by lia; vm_compute; try reflexivity; discriminate.
Qed.
