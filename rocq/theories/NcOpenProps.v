(** C179: opening any NetCDF file. *)
From Coq Require Import Reals Lra.
From Verif Require Import Base BaseFacts IniModel IniProofs FactsModel FactsSpec GeoModel GeoProps ScanModel ToolModel ToolRunProps SunModel PixModel PixProps StretchFloat GribHrv GribModel GribProps GribCopyProps GribReadProps NcModel NcProps NcCopyProps.
Open Scope string_scope.
Open Scope list_scope.
Open Scope Z_scope.

(** ** Specification *)
(** An image: three dimensions, one moment; the variable "time" is none. *)
Definition image_variable (v : ncvar) : Prop := v_name v <> codes "time" /\ exists ys xs, v_dims v = [1; ys; xs].
(** The elements of a list with a property, in order. *)
Inductive picked {A} (P : A -> Prop) : list A -> list A -> Prop :=
| picked_nil : picked P [] []
| picked_one x l r : P x -> picked P l r -> picked P (x :: l) (x :: r)
| picked_not x l r : ~ P x -> picked P l r -> picked P (x :: l) r.
(** The first attribute with a name. *)
Inductive attribute : list (string * attr) -> string -> option attr -> Prop :=
| attribute_none k : attribute [] k None
| attribute_here k a l : attribute ((k, a) :: l) k (Some a)
| attribute_later k k' a l r : k <> k' -> attribute l k r -> attribute ((k', a) :: l) k r.
Definition absent_or_one (l : list (string * attr)) (k : string) : Prop := attribute l k None \/ exists a, attribute l k (Some a) /\ as_float a = Some 1%R.
Definition fits31 (z : Z) : Prop := 0 <= z < 2 ^ 31.

Lemma attribute_get l k r : attribute l k r <-> get_att l k = r.
Proof.
  split.
  - induction 1 as [k|k a l|k k' a l r N A IH]; cbn [get_att]; [reflexivity|now rewrite String.eqb_refl|]. destruct (String.eqb_spec k' k) as [->|_]; [contradiction|exact IH] || (destruct (String.eqb_spec k k') as [->|_]; [contradiction|exact IH]).
  - intros <-. induction l as [|[k' a] l IH]; [constructor|]. cbn [get_att]. destruct (String.eqb_spec k k') as [->|N] || destruct (String.eqb_spec k' k) as [->|N]; [apply attribute_here|apply attribute_later; [congruence|exact IH]].
Qed.
Lemma is_band_spec v : is_band ["time"] v = true <-> image_variable v.
Proof.
  unfold is_band, image_variable. cbn [existsb]. rewrite orb_false_r, andb_true_iff, negb_true_iff. split.
  - intros [N D]. split; [intros E; rewrite E in N; discriminate|]. destruct (v_dims v) as [|[|[]|] [|ys [|xs []]]]; try discriminate. eauto.
  - intros [N (ys & xs & ->)]. split; [|reflexivity]. destruct (str_eqb_spec (v_name v) (codes "time")); [contradiction|reflexivity].
Qed.
Lemma filter_picked vs : picked image_variable vs (filter (is_band ["time"]) vs).
Proof.
  induction vs as [|v vs IH]; cbn [filter]; [constructor|]. destruct (is_band ["time"] v) eqn:B; constructor; try exact IH; [now apply is_band_spec|]. intros Q. apply is_band_spec in Q. congruence.
Qed.
Lemma one_spec l k : float_one (get_att l k) = true <-> absent_or_one l k.
Proof.
  unfold absent_or_one, float_one. destruct (get_att l k) as [a|] eqn:G.
  - split.
    + intros O. right. exists a. split; [now apply attribute_get|]. unfold num_is_one in O. destruct (as_float a) as [r|]; [|discriminate]. destruct (Req_EM_T r 1); [now subst|discriminate].
    + intros [N|(b & B & F)]; [apply attribute_get in N; congruence|]. apply attribute_get in B. rewrite G in B. apply Some_inj in B. subst b. rewrite F. unfold num_is_one. now destruct (Req_EM_T 1 1).
  - split; [intros _; left; now apply attribute_get|reflexivity].
Qed.
(** The time a file states: that of its attribute, and nonsense without one. *)
Definition states_time (nt : attr -> str) (f : ncfile) (t : str) : Prop :=
  (exists a r y mo d h mi s, attribute (f_attrs f) "Time" (Some a) /\ as_text nt a = iso_text y mo d h mi s ++ 32 :: r /\ t = iso_text y mo d h mi s /\
     0 <= y <= 9999 /\ two mo /\ two d /\ two h /\ two mi /\ two s) \/
  (attribute (f_attrs f) "Time" None /\ t = codes "0000-00-00 00:00:00").
(** A file with a satellite, sampling 1 and a readable time is opened; it shows one
    band for each image, in the order of the file, with the size, values and channel
    of the variable, the satellite and the time it states, and the size of the first
    image. *)
Theorem C179_open_partial : forall nt f a t, attribute (f_attrs f) "Satellite" (Some a) -> absent_or_one (f_attrs f) "SampleX" -> absent_or_one (f_attrs f) "SampleY" -> states_time nt f t ->
  (forall v, In v (f_vars f) -> Forall fits31 (v_dims v)) ->
  exists ds vs, open_nc nt f = Some ds /\ d_time ds = t /\ (as_text nt a <> [] -> d_sat ds = Some (as_text nt a) /\ d_satid ds = spacecraftID (string_of (as_text nt a))) /\
    picked image_variable (f_vars f) vs /\
    Forall2 (fun v b => r_var b = v /\ v_dims v = [1; r_by b; r_bx b] /\
      (forall c, attribute (v_attrs v) "chnum" c -> r_chan b = match c with Some c => as_int c | None => 0 end)) vs (d_bands ds) /\
    (forall v l ys xs, vs = v :: l -> v_dims v = [1; ys; xs] -> d_size ds = Some (xs, ys)).
Proof.
  intros nt f a t SA SX SY ST FD. apply attribute_get in SA. apply one_spec in SX, SY. unfold open_nc. rewrite SA, SX, SY. cbn [negb].
  assert (T : exists l, scan_iso (attr_text nt (f_attrs f) "Time" (codes "0000-00-00 00:00:00 UTC")) = Some l /\ time_text l = t).
  { unfold attr_text. destruct ST as [(b & r & y & mo & d & h & mi & s & B & E & -> & Y & M & D & H & MI & S0)|[B ->]]; apply attribute_get in B; rewrite B.
    - rewrite E, scan_iso_text by assumption. eexists. split; [reflexivity|]. now apply time_text_iso.
    - eexists. split; [vm_compute; reflexivity|vm_compute; reflexivity]. }
  destruct T as (l & -> & TT). eexists _, (filter (is_band ["time"]) (f_vars f)). split; [reflexivity|]. cbn [d_time d_sat d_satid d_bands d_size]. split; [exact TT|].
  split; [intros NE; destruct (as_text nt a); [contradiction|now split]|]. split; [apply filter_picked|].
  set (bug := str_eqb _ _). clearbody bug.
  assert (Fit : forall z, fits31 z -> to_int z = z) by (intros z [R1 R2]; apply to_int_fits; unfold int_fits; lia).
  assert (F2 : forall vs, (forall v, In v vs -> In v (f_vars f) /\ image_variable v) -> Forall2 (fun v b => r_var b = v /\ v_dims v = [1; r_by b; r_bx b] /\
      (forall c, attribute (v_attrs v) "chnum" c -> r_chan b = match c with Some c => as_int c | None => 0 end)) vs (map (read_band "chnum" bug) vs)).
  { induction vs as [|v vs IH]; intros A; constructor; [|apply IH; intros w W; apply A; now right]. destruct (A v (or_introl eq_refl)) as [I [_ (ys & xs & E)]].
    pose proof (FD v I) as FV. rewrite E in FV. inversion FV as [|? ? _ FV1]; subst. inversion FV1 as [|? ? Fy FV2]; subst. inversion FV2 as [|? ? Fx _]; subst.
    unfold read_band. cbn [r_var r_bx r_by r_chan]. unfold dim. rewrite E. cbn [nth]. rewrite !Fit by assumption. split; [reflexivity|]. split; [reflexivity|]. intros c C. apply attribute_get in C. now rewrite C. }
  assert (IN : forall v, In v (filter (is_band ["time"]) (f_vars f)) -> In v (f_vars f) /\ image_variable v) by (intros v I; apply filter_In in I as [I B]; split; [exact I|now apply is_band_spec]).
  split; [now apply F2|]. intros v l' ys xs E D. rewrite E. cbn [map]. unfold read_band. cbn [r_bx r_by]. unfold dim. rewrite D. cbn [nth].
  assert (I : In v (filter (is_band ["time"]) (f_vars f))) by (rewrite E; now left). apply IN in I as [I _]. pose proof (FD v I) as FV. rewrite D in FV.
  inversion FV as [|? ? _ FV1]; subst. inversion FV1 as [|? ? Fy FV2]; subst. inversion FV2 as [|? ? Fx _]; subst. now rewrite !Fit by assumption.
Qed.
Print Assumptions C179_open_partial.
(** Otherwise it is not opened. *)
Theorem C179_not_opened : forall nt f, open_nc nt f <> None -> exists a, attribute (f_attrs f) "Satellite" (Some a) /\ absent_or_one (f_attrs f) "SampleX" /\ absent_or_one (f_attrs f) "SampleY".
Proof.
  intros nt f O. unfold open_nc in O. destruct (get_att (f_attrs f) "Satellite") as [a|] eqn:G; [|contradiction]. exists a. split; [now apply attribute_get|].
  destruct (float_one (get_att (f_attrs f) "SampleX")) eqn:X; [|contradiction]. destruct (float_one (get_att (f_attrs f) "SampleY")) eqn:Y; [|contradiction]. split; now apply one_spec.
Qed.
Print Assumptions C179_not_opened.
(** A file with no image is opened too, with no band and no size of its own. *)
Theorem C179_refuted_no_image : forall nt f a t, attribute (f_attrs f) "Satellite" (Some a) -> absent_or_one (f_attrs f) "SampleX" -> absent_or_one (f_attrs f) "SampleY" -> states_time nt f t ->
  (forall v, In v (f_vars f) -> ~ image_variable v) -> exists ds, open_nc nt f = Some ds /\ d_bands ds = [] /\ d_size ds = None.
Proof.
  intros nt f a t SA SX SY ST NI. apply attribute_get in SA. apply one_spec in SX, SY. unfold open_nc. rewrite SA, SX, SY. cbn [negb].
  assert (T : exists l, scan_iso (attr_text nt (f_attrs f) "Time" (codes "0000-00-00 00:00:00 UTC")) = Some l).
  { unfold attr_text. destruct ST as [(b & r & y & mo & d & h & mi & s & B & E & -> & Y & M & D & H & MI & S0)|[B ->]]; apply attribute_get in B; rewrite B.
    - rewrite E, scan_iso_text by assumption. eexists. reflexivity.
    - eexists. vm_compute. reflexivity. }
  destruct T as (l & ->). assert (E : filter (is_band ["time"]) (f_vars f) = []).
  { destruct (filter (is_band ["time"]) (f_vars f)) as [|v vs] eqn:F; [reflexivity|]. exfalso. assert (I : In v (filter (is_band ["time"]) (f_vars f))) by (rewrite F; now left). apply filter_In in I as [I B]. apply (NI v I). now apply is_band_spec. }
  rewrite E. eexists. split; [reflexivity|]. now split.
Qed.
Print Assumptions C179_refuted_no_image.
(** The case: a satellite image with its time variable, a variable that is no image,
    and a second image of another size. *)
Definition C179_file : ncfile := mk_ncfile [("Satellite", AText (codes "MSG2")); ("Time", AText (iso_text 2006 11 13 12 10 5 ++ 32 :: codes "UTC"))]
  [mk_ncvar (codes "calibration") NcFloat [1024] [] []; mk_ncvar (codes "time") NcInt [1] [] []; mk_ncvar (codes "IR_039") NcShort [1; 1; 2] [("chnum", AInt 4)] [7; 8];
   mk_ncvar (codes "both") NcShort [2; 1; 2] [] [1; 2; 3; 4]; mk_ncvar (codes "HRV") NcShort [1; 2; 3] [("chnum", AInt 12)] [1; 2; 3; 4; 5; 6]].
Example C179_case : forall nt, states_time nt C179_file (iso_text 2006 11 13 12 10 5) /\ absent_or_one (f_attrs C179_file) "SampleX" /\
  option_map (fun ds => (d_size ds, map (fun b => (v_name (r_var b), r_chan b, r_bx b, r_by b)) (d_bands ds))) (open_nc nt C179_file) =
    Some (Some (2, 1), [(codes "IR_039", 4, 2, 1); (codes "HRV", 12, 3, 2)]).
Proof.
  intros nt. split; [|split].
  - left. eexists _, (codes "UTC"), 2006, 11, 13, 12, 10, 5. split; [apply attribute_get; reflexivity|]. split; [reflexivity|]. split; [reflexivity|]. unfold two. lia.
  - left. apply attribute_get. reflexivity.
  - unfold open_nc. cbn [C179_file f_attrs f_vars get_att String.eqb Ascii.eqb Bool.eqb float_one negb]. unfold attr_text. cbn [get_att String.eqb Ascii.eqb Bool.eqb as_text].
    rewrite scan_iso_text by (unfold two; lia). reflexivity.
Qed.
(** A file with images of different sizes is opened with the size of the first, which
    is not that of the other. *)
Theorem C179_refuted_sizes : forall nt f a t v1 v2 l y1 x1 y2 x2, attribute (f_attrs f) "Satellite" (Some a) -> absent_or_one (f_attrs f) "SampleX" -> absent_or_one (f_attrs f) "SampleY" -> states_time nt f t ->
  (forall v, In v (f_vars f) -> Forall fits31 (v_dims v)) -> picked image_variable (f_vars f) (v1 :: v2 :: l) -> v_dims v1 = [1; y1; x1] -> v_dims v2 = [1; y2; x2] -> (y1, x1) <> (y2, x2) ->
  exists ds b1 b2 r, open_nc nt f = Some ds /\ d_bands ds = b1 :: b2 :: r /\ d_size ds = Some (r_bx b1, r_by b1) /\ d_size ds <> Some (r_bx b2, r_by b2).
Proof.
  intros nt f a t v1 v2 l y1 x1 y2 x2 SA SX SY ST FD PK D1 D2 N. destruct (C179_open_partial nt f a t SA SX SY ST FD) as (ds & vs & O & _ & _ & PK' & F & SZ).
  assert (U : forall (xs : list ncvar) r1, picked image_variable xs r1 -> forall r2, picked image_variable xs r2 -> r1 = r2).
  { induction 1 as [|x xs r P K IH|x xs r P K IH]; intros r2 K2; inversion K2; subst; try reflexivity; try contradiction; [f_equal; now apply IH|now apply IH]. }
  rewrite (U _ _ PK' _ PK) in *. inversion F as [|? b1 ? bs (R1 & E1 & _) F1]; subst. inversion F1 as [|? b2 ? r (R2 & E2 & _) F2]; subst.
  exists ds, b1, b2, r. split; [exact O|]. split; [congruence|]. rewrite (SZ _ _ _ _ eq_refl E1). split; [reflexivity|]. intros Q. apply Some_inj in Q. inversion Q. apply N. congruence.
Qed.
Print Assumptions C179_refuted_sizes.
