From Coq Require Import ZArith List Lia Bool String.
From Verif Require Import Base BaseFacts LayoutModel LayoutSpec.
Import ListNotations.
Open Scope Z_scope.

(* the reads of the fields, displaced where the code reads elsewhere *)
Fixpoint mplace (f : fmt) (p : path) (b : Z) : list acc :=
  match f with
  | Leaf w => [(p, b + moved p, w)]
  | Gap _ | Empty => []
  | Cons nm f r => mplace f (N nm :: p) b ++ mplace r p (b + size f)
  | Arr n f => flat_map (fun i => mplace f (I i :: p) (b + i * size f)) (idx n)
  end.

Lemma map_flat_map {A B C} (g : B -> C) (f : A -> list B) l :
  map g (flat_map f l) = flat_map (fun x => map g (f x)) l.
Proof. induction l; cbn; [ reflexivity |]. now rewrite map_app, IHl. Qed.

Lemma mplace_fields f : forall p b, mplace f p b = map displace (fields f p b).
Proof.
  induction f; intros p b; cbn; try reflexivity.
  - now rewrite map_app, IHf1, IHf2.
  - rewrite map_flat_map. apply flat_map_ext; intro i. apply IHf.
Qed.

Lemma idx_S n : 0 <= n -> idx (n + 1) = idx n ++ [n].
Proof.
  intro H. unfold idx. replace (Z.to_nat (n + 1)) with (S (Z.to_nat n)) by lia.
  rewrite seq_S, map_app. cbn. f_equal. f_equal. lia.
Qed.

Lemma calls_from_ok f g q b s p :
  (forall i c, f (I i :: p) c = (mplace g (I i :: p) c, s)) ->
  s = size g ->
  forall n i pos, q = b + pos ->
  calls_from n i f p b pos =
  (flat_map (fun k => mplace g (I (i + Z.of_nat k) :: p) (q + Z.of_nat k * size g)) (seq 0 n), pos + Z.of_nat n * s).
Proof.
  intros Hf Hs n. revert q. induction n as [|n IH]; intros q i pos Hq.
  - cbn. f_equal. lia.
  - cbn [calls_from]. rewrite Hf.
    rewrite (IH (q + s) (i + 1) (pos + s)) by lia.
    cbn [seq flat_map]. f_equal; [| lia]. f_equal.
    + f_equal; [| lia]. f_equal. f_equal. lia.
    + rewrite <- seq_shift, flat_map_concat_map, (flat_map_concat_map _ (map S _)), map_map.
      f_equal. apply map_ext; intro k. f_equal; [| lia]. f_equal. f_equal. lia.
Qed.

Lemma calls_ok nm n f g s p b pos :
  0 <= n ->
  (forall i c, f (I i :: N nm :: p) c = (mplace g (I i :: N nm :: p) c, s)) ->
  s = size g ->
  calls nm n f p b pos = (mplace (Arr n g) (N nm :: p) (b + pos), pos + n * s).
Proof.
  intros Hn Hf Hs. unfold calls.
  rewrite (calls_from_ok f g (b + pos) b s _ Hf Hs) by reflexivity.
  cbn [mplace]. unfold idx. rewrite Z2Nat.id by lia. f_equal.
  rewrite !flat_map_concat_map, map_map. f_equal.
Qed.

Lemma acc_eq (p q : path) (a b w v : Z) : p = q -> a = b -> w = v -> (p, a, w) = (q, b, v).
Proof. now intros -> -> ->. Qed.
Lemma pair_eq {A B} (a b : A) (c d : B) : a = b -> c = d -> (a, c) = (b, d).
Proof. now intros -> ->. Qed.
Lemma cons_eq {A} (a b : A) l m : a = b -> l = m -> a :: l = b :: m.
Proof. now intros -> ->. Qed.
Lemma app_eq {A} (a b l m : list A) : a = b -> l = m -> a ++ l = b ++ m.
Proof. now intros -> ->. Qed.
Lemma mplace_eq f p a b : a = b -> mplace f p a = mplace f p b.
Proof. now intros ->. Qed.


(* Statement by statement: from position pos the statements l perform the
   reads of the format F that starts e bytes after buff, and return k. *)
Section Rules.
Variables (p : path) (b : Z).
Definition does (l : list stm) (pos : Z) (F : fmt) (e k : Z) : Prop :=
  run l p b pos = (mplace F p (b + e), k).

Lemma d_end pos e k : k = pos -> does [] pos Empty e k.
Proof. now intros ->. Qed.
Lemma d_ret k pos e k' : k' = k -> does [ret k] pos Empty e k'.
Proof. now intros ->. Qed.
Lemma d_gap nm w l pos F e k e' :
  e' = e + w -> does l pos F e' k -> does l pos (Cons nm (Gap w) F) e k.
Proof. intros -> H. unfold does in *. rewrite H. cbn [mplace size app].
  apply pair_eq; [ apply mplace_eq; lia | reflexivity ]. Qed.
Lemma d_adv q l pos F e k pos' :
  pos' = pos + q -> does l pos' F e k -> does (adv q :: l) pos F e k.
Proof. intros -> H. unfold does in *. cbn. now rewrite H. Qed.

(* any statement that performs the reads of g *)
Lemma d_step (s : stm) g sz l pos F e k nm pos' e' :
  s p b pos = (mplace g (N nm :: p) (b + e), pos') -> size g = sz -> e' = e + sz ->
  does l pos' F e' k -> does (s :: l) pos (Cons nm g F) e k.
Proof.
  intros Hs <- -> H. unfold does in *. cbn [run]. rewrite Hs, H. cbn [mplace].
  apply pair_eq; [| reflexivity ]. apply app_eq; [ reflexivity | apply mplace_eq; lia ].
Qed.

Lemma s_get nm o w pos e : pos + o = e + moved (N nm :: p) ->
  get nm o w p b pos = (mplace (Leaf w) (N nm :: p) (b + e), pos).
Proof. intro H. unfold get. cbn [mplace].
  apply pair_eq; [| reflexivity ]. apply cons_eq; [| reflexivity ].
  apply acc_eq; [ reflexivity | lia | reflexivity ]. Qed.
Lemma s_getb nm o w pos e : o = e + moved (N nm :: p) ->
  getb nm o w p b pos = (mplace (Leaf w) (N nm :: p) (b + e), pos).
Proof. intro H. unfold getb. cbn [mplace].
  apply pair_eq; [| reflexivity ]. apply cons_eq; [| reflexivity ].
  apply acc_eq; [ reflexivity | lia | reflexivity ]. Qed.
Lemma s_fld nm w pos e pos' : pos = e + moved (N nm :: p) -> pos' = pos + w ->
  fld nm w p b pos = (mplace (Leaf w) (N nm :: p) (b + e), pos').
Proof. intros H ->. unfold fld. cbn [mplace].
  apply pair_eq; [| reflexivity ]. apply cons_eq; [| reflexivity ].
  apply acc_eq; [ reflexivity | lia | reflexivity ]. Qed.
Lemma s_for1 nm n o w pos e : (forall i, pos + o i = e + i * w + moved (I i :: N nm :: p)) ->
  for1 nm n o w p b pos = (mplace (Arr n (Leaf w)) (N nm :: p) (b + e), pos).
Proof.
  intro H. unfold for1. cbn [mplace size]. f_equal. apply flat_map_ext; intro i.
  specialize (H i). apply cons_eq; [| reflexivity ]. apply acc_eq; [ reflexivity | lia | reflexivity ].
Qed.
Lemma s_for1b nm n o w pos e : (forall i, o i = e + i * w + moved (I i :: N nm :: p)) ->
  for1b nm n o w p b pos = (mplace (Arr n (Leaf w)) (N nm :: p) (b + e), pos).
Proof.
  intro H. unfold for1b. cbn [mplace size]. f_equal. apply flat_map_ext; intro i.
  specialize (H i). apply cons_eq; [| reflexivity ]. apply acc_eq; [ reflexivity | lia | reflexivity ].
Qed.
Lemma s_for2 nm n m o w pos e : (forall i j, pos + o i j = e + i * (m * w) + j * w) ->
  for2 nm n m o w p b pos = (mplace (Arr n (Arr m (Leaf w))) (N nm :: p) (b + e), pos).
Proof.
  intro H. unfold for2. cbn [mplace size moved]. f_equal.
  apply flat_map_ext; intro i. apply flat_map_ext; intro j.
  specialize (H i j). apply cons_eq; [| reflexivity ]. apply acc_eq; [ reflexivity | lia | reflexivity ].
Qed.
Lemma s_for3 nm n m l o w pos e :
  (forall i j k, pos + o i j k = e + i * (m * (l * w)) + j * (l * w) + k * w) ->
  for3 nm n m l o w p b pos = (mplace (Arr n (Arr m (Arr l (Leaf w)))) (N nm :: p) (b + e), pos).
Proof.
  intro H. unfold for3. cbn [mplace size moved]. f_equal.
  apply flat_map_ext; intro i. apply flat_map_ext; intro j. apply flat_map_ext; intro k.
  specialize (H i j k). apply cons_eq; [| reflexivity ]. apply acc_eq; [ reflexivity | lia | reflexivity ].
Qed.
Lemma s_call nm f g sz pos e pos' : f (N nm :: p) (b + e) = (mplace g (N nm :: p) (b + e), sz) ->
  pos = e -> pos' = pos + sz -> call nm f p b pos = (mplace g (N nm :: p) (b + e), pos').
Proof. intros H -> ->. unfold call. now rewrite H. Qed.
Lemma s_callp nm f g sz pos e : f (N nm :: p) (b + e) = (mplace g (N nm :: p) (b + e), sz) ->
  pos = e -> callp nm f p b pos = (mplace g (N nm :: p) (b + e), pos).
Proof. intros H ->. unfold callp. now rewrite H. Qed.
Lemma s_callb nm o f g sz pos e : f (N nm :: p) (b + e) = (mplace g (N nm :: p) (b + e), sz) ->
  o = e -> callb nm o f p b pos = (mplace g (N nm :: p) (b + e), pos).
Proof. intros H ->. unfold callb. now rewrite H. Qed.
Lemma s_calla nm o f g sz pos e pos' : f (N nm :: p) (b + e) = (mplace g (N nm :: p) (b + e), sz) ->
  o = e -> pos' = pos + sz -> calla nm o f p b pos = (mplace g (N nm :: p) (b + e), pos').
Proof. intros H -> ->. unfold calla. now rewrite H. Qed.
Lemma s_calls nm n f g sz pos e pos' :
  (forall i c, f (I i :: N nm :: p) c = (mplace g (I i :: N nm :: p) c, sz)) ->
  size g = sz -> 0 <= n -> pos = e -> pos' = pos + n * sz ->
  calls nm n f p b pos = (mplace (Arr n g) (N nm :: p) (b + e), pos').
Proof. intros H Hs Hn -> ->. now apply calls_ok. Qed.
End Rules.

Create HintDb lay.
Ltac num := cbn [moved String.eqb Ascii.eqb Bool.eqb]; lia.
Ltac stp :=
  lazymatch goal with
  | |- does _ _ [] _ Empty _ _ => apply d_end; reflexivity
  | |- does _ _ [ret _] _ Empty _ _ => apply d_ret; reflexivity
  | |- does _ _ (adv ?q :: _) ?pos _ _ _ =>
      let v := eval compute in (pos + q) in apply (d_adv _ _ q _ pos _ _ _ v); [ reflexivity |]
  | |- does _ _ _ _ (Cons _ (Gap ?w) _) ?e _ =>
      let v := eval compute in (e + w) in apply (d_gap _ _ _ w _ _ _ e _ v); [ reflexivity |]
  | |- does ?p ?b (?s :: ?l) ?pos (Cons ?nm ?g ?F) ?e ?k =>
      let sz := eval compute in (size g) in
      let e' := eval compute in (e + sz) in
      let pos' := lazymatch s with
        | fld _ ?w => eval compute in (pos + w)
        | call _ _ => eval compute in (pos + sz)
        | calla _ _ _ => eval compute in (pos + sz)
        | calls _ _ _ => eval compute in (pos + sz)
        | _ => pos end in
      apply (d_step p b s g sz l pos F e k nm pos' e');
      [ lazymatch s with
        | get _ _ _ => apply s_get; num
        | getb _ _ _ => apply s_getb; num
        | fld _ _ => apply s_fld; [ num | reflexivity ]
        | for1 _ _ _ _ => apply s_for1; intro; num
        | for1b _ _ _ _ => apply s_for1b; intro; num
        | for2 _ _ _ _ _ => apply s_for2; intros; num
        | for3 _ _ _ _ _ _ => apply s_for3; intros; num
        | call _ _ => eapply s_call; [ solve [ auto with lay ] | reflexivity | reflexivity ]
        | callp _ _ => eapply s_callp; [ solve [ auto with lay ] | reflexivity ]
        | callb _ _ _ => eapply s_callb; [ solve [ auto with lay ] | lia ]
        | calla _ _ _ => eapply s_calla; [ solve [ auto with lay ] | reflexivity | reflexivity ]
        | calls _ _ _ => eapply s_calls; [ solve [ auto with lay ] | reflexivity | lia | reflexivity | reflexivity ]
        end
      | reflexivity | reflexivity |]
  end.
(* from buff on, position 0 *)
Lemma does_fn l p b F k : does p b l 0 F 0 k -> fn l p b = (mplace F p b, k).
Proof. unfold does, fn. now rewrite Z.add_0_r. Qed.
Ltac layout F R :=
  unfold R; apply does_fn; unfold F, u1, u2, u4, i4, r4, r8;
  cbn [rec fold_right fst snd]; repeat stp.

Lemma cds_short_size : size cds_short_fmt = 6.
Proof. reflexivity. Qed.
Lemma cds_short_ok p b : cds_short_read p b = (mplace cds_short_fmt p b, 6).
Proof. layout cds_short_fmt cds_short_read. Qed.
#[global] Hint Resolve cds_short_ok : lay.

Lemma cds_expanded_size : size cds_expanded_fmt = 10.
Proof. reflexivity. Qed.
Lemma cds_expanded_ok p b : cds_expanded_read p b = (mplace cds_expanded_fmt p b, 10).
Proof. layout cds_expanded_fmt cds_expanded_read. Qed.
#[global] Hint Resolve cds_expanded_ok : lay.

Lemma cds_size : size cds_fmt = 8.
Proof. reflexivity. Qed.
Lemma cds_ok p b : cds_read p b = (mplace cds_fmt p b, 8).
Proof. layout cds_fmt cds_read. Qed.
#[global] Hint Resolve cds_ok : lay.

Lemma cuc_size : size cuc_fmt = 7.
Proof. reflexivity. Qed.
Lemma cuc_ok p b : cuc_read p b = (mplace cuc_fmt p b, 7).
Proof. layout cuc_fmt cuc_read. Qed.
#[global] Hint Resolve cuc_ok : lay.

Lemma generalized_size : size generalized_fmt = 15.
Proof. reflexivity. Qed.
Lemma generalized_ok p b : generalized_read p b = (mplace generalized_fmt p b, 15).
Proof. layout generalized_fmt generalized_read. Qed.
#[global] Hint Resolve generalized_ok : lay.

Lemma MSG_SatelliteDefinition_size : size MSG_SatelliteDefinition_fmt = 7.
Proof. reflexivity. Qed.
Lemma MSG_SatelliteDefinition_ok p b : MSG_SatelliteDefinition_read p b = (mplace MSG_SatelliteDefinition_fmt p b, 7).
Proof. layout MSG_SatelliteDefinition_fmt MSG_SatelliteDefinition_read. Qed.
#[global] Hint Resolve MSG_SatelliteDefinition_ok : lay.

Lemma MSG_SatelliteOperations_size : size MSG_SatelliteOperations_fmt = 28.
Proof. reflexivity. Qed.
Lemma MSG_SatelliteOperations_ok p b : MSG_SatelliteOperations_read p b = (mplace MSG_SatelliteOperations_fmt p b, 28).
Proof. layout MSG_SatelliteOperations_fmt MSG_SatelliteOperations_read. Qed.
#[global] Hint Resolve MSG_SatelliteOperations_ok : lay.

Lemma MSG_orbit_coefficient_size : size MSG_orbit_coefficient_fmt = 396.
Proof. reflexivity. Qed.
Lemma MSG_orbit_coefficient_ok p b : MSG_orbit_coefficient_read p b = (mplace MSG_orbit_coefficient_fmt p b, 396).
Proof. layout MSG_orbit_coefficient_fmt MSG_orbit_coefficient_read. Qed.
#[global] Hint Resolve MSG_orbit_coefficient_ok : lay.

Lemma MSG_Orbit_size : size MSG_Orbit_fmt = 39612.
Proof. reflexivity. Qed.
Lemma MSG_Orbit_ok p b : MSG_Orbit_read p b = (mplace MSG_Orbit_fmt p b, 39612).
Proof. layout MSG_Orbit_fmt MSG_Orbit_read. Qed.
#[global] Hint Resolve MSG_Orbit_ok : lay.

Lemma MSG_AttitudeCoeff_size : size MSG_AttitudeCoeff_fmt = 204.
Proof. reflexivity. Qed.
Lemma MSG_AttitudeCoeff_ok p b : MSG_AttitudeCoeff_read p b = (mplace MSG_AttitudeCoeff_fmt p b, 204).
Proof. layout MSG_AttitudeCoeff_fmt MSG_AttitudeCoeff_read. Qed.
#[global] Hint Resolve MSG_AttitudeCoeff_ok : lay.

Lemma MSG_Attitude_size : size MSG_Attitude_fmt = 20420.
Proof. reflexivity. Qed.
Lemma MSG_Attitude_ok p b : MSG_Attitude_read p b = (mplace MSG_Attitude_fmt p b, 20420).
Proof. layout MSG_Attitude_fmt MSG_Attitude_read. Qed.
#[global] Hint Resolve MSG_Attitude_ok : lay.

Lemma MSG_UTCCorrelation_size : size MSG_UTCCorrelation_fmt = 59.
Proof. reflexivity. Qed.
Lemma MSG_UTCCorrelation_ok p b : MSG_UTCCorrelation_read p b = (mplace MSG_UTCCorrelation_fmt p b, 59).
Proof. layout MSG_UTCCorrelation_fmt MSG_UTCCorrelation_read. Qed.
#[global] Hint Resolve MSG_UTCCorrelation_ok : lay.

Lemma MSG_data_SatelliteStatus_size : size MSG_data_SatelliteStatus_fmt = 60134.
Proof. reflexivity. Qed.
Lemma MSG_data_SatelliteStatus_ok p b : MSG_data_SatelliteStatus_read p b = (mplace MSG_data_SatelliteStatus_fmt p b, 60134).
Proof. layout MSG_data_SatelliteStatus_fmt MSG_data_SatelliteStatus_read. Qed.
#[global] Hint Resolve MSG_data_SatelliteStatus_ok : lay.

Lemma MSG_PlannedAquisitionTime_size : size MSG_PlannedAquisitionTime_fmt = 30.
Proof. reflexivity. Qed.
Lemma MSG_PlannedAquisitionTime_ok p b : MSG_PlannedAquisitionTime_read p b = (mplace MSG_PlannedAquisitionTime_fmt p b, 30).
Proof. layout MSG_PlannedAquisitionTime_fmt MSG_PlannedAquisitionTime_read. Qed.
#[global] Hint Resolve MSG_PlannedAquisitionTime_ok : lay.

Lemma MSG_RadiometerStatus_size : size MSG_RadiometerStatus_fmt = 54.
Proof. reflexivity. Qed.
Lemma MSG_RadiometerStatus_ok p b : MSG_RadiometerStatus_read p b = (mplace MSG_RadiometerStatus_fmt p b, 54).
Proof. layout MSG_RadiometerStatus_fmt MSG_RadiometerStatus_read. Qed.
#[global] Hint Resolve MSG_RadiometerStatus_ok : lay.

Lemma MSG_RadiometerSettings_size : size MSG_RadiometerSettings_fmt = 586.
Proof. reflexivity. Qed.
Lemma MSG_RadiometerSettings_ok p b : MSG_RadiometerSettings_read p b = (mplace MSG_RadiometerSettings_fmt p b, 586).
Proof. layout MSG_RadiometerSettings_fmt MSG_RadiometerSettings_read. Qed.
#[global] Hint Resolve MSG_RadiometerSettings_ok : lay.

Lemma MSG_RadiometerOperations_size : size MSG_RadiometerOperations_fmt = 30.
Proof. reflexivity. Qed.
Lemma MSG_RadiometerOperations_ok p b : MSG_RadiometerOperations_read p b = (mplace MSG_RadiometerOperations_fmt p b, 30).
Proof. layout MSG_RadiometerOperations_fmt MSG_RadiometerOperations_read. Qed.
#[global] Hint Resolve MSG_RadiometerOperations_ok : lay.

Lemma MSG_data_ImageAcquisition_size : size MSG_data_ImageAcquisition_fmt = 700.
Proof. reflexivity. Qed.
Lemma MSG_data_ImageAcquisition_ok p b : MSG_data_ImageAcquisition_read p b = (mplace MSG_data_ImageAcquisition_fmt p b, 700).
Proof. layout MSG_data_ImageAcquisition_fmt MSG_data_ImageAcquisition_read. Qed.
#[global] Hint Resolve MSG_data_ImageAcquisition_ok : lay.

Lemma MSG_Earth_Moon_Sun_Coefficient_size : size MSG_Earth_Moon_Sun_Coefficient_fmt = 140.
Proof. reflexivity. Qed.
Lemma MSG_Earth_Moon_Sun_Coefficient_ok p b : MSG_Earth_Moon_Sun_Coefficient_read p b = (mplace MSG_Earth_Moon_Sun_Coefficient_fmt p b, 140).
Proof. layout MSG_Earth_Moon_Sun_Coefficient_fmt MSG_Earth_Moon_Sun_Coefficient_read. Qed.
#[global] Hint Resolve MSG_Earth_Moon_Sun_Coefficient_ok : lay.

Lemma MSG_Star_Coefficient_size : size MSG_Star_Coefficient_fmt = 2840.
Proof. reflexivity. Qed.
Lemma MSG_Star_Coefficient_ok p b : MSG_Star_Coefficient_read p b = (mplace MSG_Star_Coefficient_fmt p b, 2840).
Proof. 
  unfold MSG_Star_Coefficient_read, fn, MSG_Star_Coefficient_fmt.
  cbn [run rows ret]. rewrite app_nil_r. cbn [mplace]. f_equal. apply flat_map_ext; intro i.
  unfold u1, u2, u4, i4, r4, r8. cbn [rec fold_right fst snd size].
  cbn [run getb callb for1b]. unfold callb. rewrite !cds_short_ok.
  cbn [mplace size moved app fst snd String.eqb Ascii.eqb Bool.eqb].
  rewrite ?cds_short_size, ?app_nil_r.
  repeat first [ apply cons_eq | apply app_eq | apply mplace_eq; lia
               | apply acc_eq; [ reflexivity | lia | reflexivity ]
               | apply flat_map_ext; intro | reflexivity ].
 Qed.
#[global] Hint Resolve MSG_Star_Coefficient_ok : lay.

Lemma MSG_Ephemeris_size : size MSG_Ephemeris_fmt = 326042.
Proof. reflexivity. Qed.
Lemma MSG_Ephemeris_ok p b : MSG_Ephemeris_read p b = (mplace MSG_Ephemeris_fmt p b, 326042).
Proof. layout MSG_Ephemeris_fmt MSG_Ephemeris_read. Qed.
#[global] Hint Resolve MSG_Ephemeris_ok : lay.

Lemma MSG_CelestialBodiesPosition_size : size MSG_CelestialBodiesPosition_fmt = 326042.
Proof. reflexivity. Qed.
Lemma MSG_CelestialBodiesPosition_ok p b : MSG_CelestialBodiesPosition_read p b = (mplace MSG_CelestialBodiesPosition_fmt p b, 326042).
Proof. layout MSG_CelestialBodiesPosition_fmt MSG_CelestialBodiesPosition_read. Qed.
#[global] Hint Resolve MSG_CelestialBodiesPosition_ok : lay.

Lemma MSG_RelationToImage_size : size MSG_RelationToImage_fmt = 16.
Proof. reflexivity. Qed.
Lemma MSG_RelationToImage_ok p b : MSG_RelationToImage_read p b = (mplace MSG_RelationToImage_fmt p b, 16).
Proof. layout MSG_RelationToImage_fmt MSG_RelationToImage_read. Qed.
#[global] Hint Resolve MSG_RelationToImage_ok : lay.

Lemma MSG_data_CelestialEvents_size : size MSG_data_CelestialEvents_fmt = 326058.
Proof. reflexivity. Qed.
Lemma MSG_data_CelestialEvents_ok p b : MSG_data_CelestialEvents_read p b = (mplace MSG_data_CelestialEvents_fmt p b, 326058).
Proof. layout MSG_data_CelestialEvents_fmt MSG_data_CelestialEvents_read. Qed.
#[global] Hint Resolve MSG_data_CelestialEvents_ok : lay.

Lemma MSG_grid_size : size MSG_grid_fmt = 17.
Proof. reflexivity. Qed.
Lemma MSG_grid_ok p b : MSG_grid_read p b = (mplace MSG_grid_fmt p b, 17).
Proof. layout MSG_grid_fmt MSG_grid_read. Qed.
#[global] Hint Resolve MSG_grid_ok : lay.

Lemma MSG_coverage_IR_size : size MSG_coverage_IR_fmt = 16.
Proof. reflexivity. Qed.
Lemma MSG_coverage_IR_ok p b : MSG_coverage_IR_read p b = (mplace MSG_coverage_IR_fmt p b, 16).
Proof. layout MSG_coverage_IR_fmt MSG_coverage_IR_read. Qed.
#[global] Hint Resolve MSG_coverage_IR_ok : lay.

Lemma MSG_coverage_HRV_size : size MSG_coverage_HRV_fmt = 32.
Proof. reflexivity. Qed.
Lemma MSG_coverage_HRV_ok p b : MSG_coverage_HRV_read p b = (mplace MSG_coverage_HRV_fmt p b, 32).
Proof. layout MSG_coverage_HRV_fmt MSG_coverage_HRV_read. Qed.
#[global] Hint Resolve MSG_coverage_HRV_ok : lay.

Lemma MSG_ProjectionDescription_size : size MSG_ProjectionDescription_fmt = 5.
Proof. reflexivity. Qed.
Lemma MSG_ProjectionDescription_ok p b : MSG_ProjectionDescription_read p b = (mplace MSG_ProjectionDescription_fmt p b, 5).
Proof. layout MSG_ProjectionDescription_fmt MSG_ProjectionDescription_read. Qed.
#[global] Hint Resolve MSG_ProjectionDescription_ok : lay.

Lemma MSG_Level1_5ImageProduction_size : size MSG_Level1_5ImageProduction_fmt = 14.
Proof. reflexivity. Qed.
Lemma MSG_Level1_5ImageProduction_ok p b : MSG_Level1_5ImageProduction_read p b = (mplace MSG_Level1_5ImageProduction_fmt p b, 14).
Proof. layout MSG_Level1_5ImageProduction_fmt MSG_Level1_5ImageProduction_read. Qed.
#[global] Hint Resolve MSG_Level1_5ImageProduction_ok : lay.

Lemma MSG_data_ImageDescription_size : size MSG_data_ImageDescription_fmt = 101.
Proof. reflexivity. Qed.
Lemma MSG_data_ImageDescription_ok p b : MSG_data_ImageDescription_read p b = (mplace MSG_data_ImageDescription_fmt p b, 101).
Proof. layout MSG_data_ImageDescription_fmt MSG_data_ImageDescription_read. Qed.
#[global] Hint Resolve MSG_data_ImageDescription_ok : lay.

Lemma MSG_Image_Calibration_size : size MSG_Image_Calibration_fmt = 16.
Proof. reflexivity. Qed.
Lemma MSG_Image_Calibration_ok p b : MSG_Image_Calibration_read p b = (mplace MSG_Image_Calibration_fmt p b, 16).
Proof. layout MSG_Image_Calibration_fmt MSG_Image_Calibration_read. Qed.
#[global] Hint Resolve MSG_Image_Calibration_ok : lay.

Lemma MSG_ExtractedBBData_size : size MSG_ExtractedBBData_fmt = 32.
Proof. reflexivity. Qed.
Lemma MSG_ExtractedBBData_ok p b : MSG_ExtractedBBData_read p b = (mplace MSG_ExtractedBBData_fmt p b, 32).
Proof. layout MSG_ExtractedBBData_fmt MSG_ExtractedBBData_read. Qed.
#[global] Hint Resolve MSG_ExtractedBBData_ok : lay.

Lemma MSG_IMPF_CAL_Data_size : size MSG_IMPF_CAL_Data_fmt = 32.
Proof. reflexivity. Qed.
Lemma MSG_IMPF_CAL_Data_ok p b : MSG_IMPF_CAL_Data_read p b = (mplace MSG_IMPF_CAL_Data_fmt p b, 32).
Proof. layout MSG_IMPF_CAL_Data_fmt MSG_IMPF_CAL_Data_read. Qed.
#[global] Hint Resolve MSG_IMPF_CAL_Data_ok : lay.

Lemma MSG_RPSummary_size : size MSG_RPSummary_fmt = 72.
Proof. reflexivity. Qed.
Lemma MSG_RPSummary_ok p b : MSG_RPSummary_read p b = (mplace MSG_RPSummary_fmt p b, 72).
Proof. layout MSG_RPSummary_fmt MSG_RPSummary_read. Qed.
#[global] Hint Resolve MSG_RPSummary_ok : lay.

Lemma MSG_RadProcMTFAdaptation_size : size MSG_RadProcMTFAdaptation_fmt = 5376.
Proof. reflexivity. Qed.
Lemma MSG_RadProcMTFAdaptation_ok p b : MSG_RadProcMTFAdaptation_read p b = (mplace MSG_RadProcMTFAdaptation_fmt p b, 5376).
Proof. layout MSG_RadProcMTFAdaptation_fmt MSG_RadProcMTFAdaptation_read. Qed.
#[global] Hint Resolve MSG_RadProcMTFAdaptation_ok : lay.

Lemma MSG_MPEFCalFeedback_size : size MSG_MPEFCalFeedback_fmt = 384.
Proof. reflexivity. Qed.
Lemma MSG_MPEFCalFeedback_ok p b : MSG_MPEFCalFeedback_read p b = (mplace MSG_MPEFCalFeedback_fmt p b, 384).
Proof. layout MSG_MPEFCalFeedback_fmt MSG_MPEFCalFeedback_read. Qed.
#[global] Hint Resolve MSG_MPEFCalFeedback_ok : lay.

Lemma MSG_BlackBodyDataUsed_size : size MSG_BlackBodyDataUsed_fmt = 967.
Proof. reflexivity. Qed.
Lemma MSG_BlackBodyDataUsed_ok p b : MSG_BlackBodyDataUsed_read p b = (mplace MSG_BlackBodyDataUsed_fmt p b, 967).
Proof. layout MSG_BlackBodyDataUsed_fmt MSG_BlackBodyDataUsed_read. Qed.
#[global] Hint Resolve MSG_BlackBodyDataUsed_ok : lay.

Lemma MSG_data_RadiometricProc_size : size MSG_data_RadiometricProc_fmt = 20815.
Proof. reflexivity. Qed.
Lemma MSG_data_RadiometricProc_ok p b : MSG_data_RadiometricProc_read p b = (mplace MSG_data_RadiometricProc_fmt p b, 20815).
Proof. layout MSG_data_RadiometricProc_fmt MSG_data_RadiometricProc_read. Qed.
#[global] Hint Resolve MSG_data_RadiometricProc_ok : lay.

Lemma MSG_OptAxisDistances_size : size MSG_OptAxisDistances_fmt = 336.
Proof. reflexivity. Qed.
Lemma MSG_OptAxisDistances_ok p b : MSG_OptAxisDistances_read p b = (mplace MSG_OptAxisDistances_fmt p b, 336).
Proof. layout MSG_OptAxisDistances_fmt MSG_OptAxisDistances_read. Qed.
#[global] Hint Resolve MSG_OptAxisDistances_ok : lay.

Lemma MSG_EarthModel_size : size MSG_EarthModel_fmt = 25.
Proof. reflexivity. Qed.
Lemma MSG_EarthModel_ok p b : MSG_EarthModel_read p b = (mplace MSG_EarthModel_fmt p b, 25).
Proof. layout MSG_EarthModel_fmt MSG_EarthModel_read. Qed.
#[global] Hint Resolve MSG_EarthModel_ok : lay.

Lemma MSG_data_GeometricProc_size : size MSG_data_GeometricProc_fmt = 17653.
Proof. reflexivity. Qed.
Lemma MSG_data_GeometricProc_ok p b : MSG_data_GeometricProc_read p b = (mplace MSG_data_GeometricProc_fmt p b, 17653).
Proof. layout MSG_data_GeometricProc_fmt MSG_data_GeometricProc_read. Qed.
#[global] Hint Resolve MSG_data_GeometricProc_ok : lay.

Lemma MSG_GPConfigItemVersion_size : size MSG_GPConfigItemVersion_fmt = 4.
Proof. reflexivity. Qed.
Lemma MSG_GPConfigItemVersion_ok p b : MSG_GPConfigItemVersion_read p b = (mplace MSG_GPConfigItemVersion_fmt p b, 4).
Proof. layout MSG_GPConfigItemVersion_fmt MSG_GPConfigItemVersion_read. Qed.
#[global] Hint Resolve MSG_GPConfigItemVersion_ok : lay.

Lemma MSG_MirrorParameters_size : size MSG_MirrorParameters_fmt = 24.
Proof. reflexivity. Qed.
Lemma MSG_MirrorParameters_ok p b : MSG_MirrorParameters_read p b = (mplace MSG_MirrorParameters_fmt p b, 24).
Proof. layout MSG_MirrorParameters_fmt MSG_MirrorParameters_read. Qed.
#[global] Hint Resolve MSG_MirrorParameters_ok : lay.

Lemma MSG_HKTMParameters_size : size MSG_HKTMParameters_fmt = 3480.
Proof. reflexivity. Qed.
Lemma MSG_HKTMParameters_ok p b : MSG_HKTMParameters_read p b = (mplace MSG_HKTMParameters_fmt p b, 3480).
Proof. layout MSG_HKTMParameters_fmt MSG_HKTMParameters_read. Qed.
#[global] Hint Resolve MSG_HKTMParameters_ok : lay.

Lemma MSG_SUConfiguration_size : size MSG_SUConfiguration_fmt = 44.
Proof. reflexivity. Qed.
Lemma MSG_SUConfiguration_ok p b : MSG_SUConfiguration_read p b = (mplace MSG_SUConfiguration_fmt p b, 44).
Proof. layout MSG_SUConfiguration_fmt MSG_SUConfiguration_read. Qed.
#[global] Hint Resolve MSG_SUConfiguration_ok : lay.

Lemma MSG_SUDetail_size : size MSG_SUDetail_fmt = 51.
Proof. reflexivity. Qed.
Lemma MSG_SUDetail_ok p b : MSG_SUDetail_read p b = (mplace MSG_SUDetail_fmt p b, 51).
Proof. layout MSG_SUDetail_fmt MSG_SUDetail_read. Qed.
#[global] Hint Resolve MSG_SUDetail_ok : lay.

Lemma MSG_EqualisationParms_size : size MSG_EqualisationParms_fmt = 12.
Proof. reflexivity. Qed.
Lemma MSG_EqualisationParms_ok p b : MSG_EqualisationParms_read p b = (mplace MSG_EqualisationParms_fmt p b, 12).
Proof. layout MSG_EqualisationParms_fmt MSG_EqualisationParms_read. Qed.
#[global] Hint Resolve MSG_EqualisationParms_ok : lay.

Lemma MSG_BlackBodyDataWarmStart_size : size MSG_BlackBodyDataWarmStart_fmt = 4480.
Proof. reflexivity. Qed.
Lemma MSG_BlackBodyDataWarmStart_ok p b : MSG_BlackBodyDataWarmStart_read p b = (mplace MSG_BlackBodyDataWarmStart_fmt p b, 4480).
Proof. layout MSG_BlackBodyDataWarmStart_fmt MSG_BlackBodyDataWarmStart_read. Qed.
#[global] Hint Resolve MSG_BlackBodyDataWarmStart_ok : lay.

Lemma MSG_WarmStartParms_size : size MSG_WarmStartParms_fmt = 17232.
Proof. reflexivity. Qed.
Lemma MSG_WarmStartParms_ok p b : MSG_WarmStartParms_read p b = (mplace MSG_WarmStartParms_fmt p b, 17232).
Proof. 
  unfold MSG_WarmStartParms_read. apply does_fn. unfold MSG_WarmStartParms_fmt, r8, r4.
  cbn [rec fold_right fst snd]. do 4 stp.
  (* the two halves of ScanningLawVariation *)
  assert (H : forall l F k, does p b l 12248 F 12248 k ->
     does p b (geti "ScanningLawVariation" 0 0 4 :: geti "ScanningLawVariation" 1 4 4 :: adv 8 :: l) 12240
          (Cons "ScanningLawVariation" (Arr 2 (Leaf 4)) F) 12240 k).
  { intros l F k H. unfold does in *. cbn [run geti adv]. change (12240 + 8) with 12248.
    rewrite H. cbn [mplace size moved]. change (idx 2) with [0; 1].
    cbn [flat_map app String.eqb Ascii.eqb Bool.eqb].
    apply pair_eq; [| reflexivity].
    apply cons_eq; [ apply acc_eq; [ reflexivity | lia | reflexivity ] |].
    apply cons_eq; [ apply acc_eq; [ reflexivity | lia | reflexivity ] |].
    apply mplace_eq. lia. }
  apply H. repeat stp.
 Qed.
#[global] Hint Resolve MSG_WarmStartParms_ok : lay.

Lemma MSG_data_IMPFConfiguration_size : size MSG_data_IMPFConfiguration_fmt = 19786.
Proof. reflexivity. Qed.
Lemma MSG_data_IMPFConfiguration_ok p b : MSG_data_IMPFConfiguration_read p b = (mplace MSG_data_IMPFConfiguration_fmt p b, 19786).
Proof. layout MSG_data_IMPFConfiguration_fmt MSG_data_IMPFConfiguration_read. Qed.
#[global] Hint Resolve MSG_data_IMPFConfiguration_ok : lay.

Lemma MSG_ActualScanningSummary_size : size MSG_ActualScanningSummary_fmt = 14.
Proof. reflexivity. Qed.
Lemma MSG_ActualScanningSummary_ok p b : MSG_ActualScanningSummary_read p b = (mplace MSG_ActualScanningSummary_fmt p b, 14).
Proof. layout MSG_ActualScanningSummary_fmt MSG_ActualScanningSummary_read. Qed.
#[global] Hint Resolve MSG_ActualScanningSummary_ok : lay.

Lemma MSG_RadiometerBehaviour_size : size MSG_RadiometerBehaviour_fmt = 12.
Proof. reflexivity. Qed.
Lemma MSG_RadiometerBehaviour_ok p b : MSG_RadiometerBehaviour_read p b = (mplace MSG_RadiometerBehaviour_fmt p b, 12).
Proof. layout MSG_RadiometerBehaviour_fmt MSG_RadiometerBehaviour_read. Qed.
#[global] Hint Resolve MSG_RadiometerBehaviour_ok : lay.

Lemma MSG_ReceptionSummaryStats_size : size MSG_ReceptionSummaryStats_fmt = 192.
Proof. reflexivity. Qed.
Lemma MSG_ReceptionSummaryStats_ok p b : MSG_ReceptionSummaryStats_read p b = (mplace MSG_ReceptionSummaryStats_fmt p b, 192).
Proof. layout MSG_ReceptionSummaryStats_fmt MSG_ReceptionSummaryStats_read. Qed.
#[global] Hint Resolve MSG_ReceptionSummaryStats_ok : lay.

Lemma MSG_L15ImageValidity_size : size MSG_L15ImageValidity_fmt = 6.
Proof. reflexivity. Qed.
Lemma MSG_L15ImageValidity_ok p b : MSG_L15ImageValidity_read p b = (mplace MSG_L15ImageValidity_fmt p b, 6).
Proof. layout MSG_L15ImageValidity_fmt MSG_L15ImageValidity_read. Qed.
#[global] Hint Resolve MSG_L15ImageValidity_ok : lay.

Lemma MSG_ActualL15CoverageVIS_IR_size : size MSG_ActualL15CoverageVIS_IR_fmt = 16.
Proof. reflexivity. Qed.
Lemma MSG_ActualL15CoverageVIS_IR_ok p b : MSG_ActualL15CoverageVIS_IR_read p b = (mplace MSG_ActualL15CoverageVIS_IR_fmt p b, 16).
Proof. layout MSG_ActualL15CoverageVIS_IR_fmt MSG_ActualL15CoverageVIS_IR_read. Qed.
#[global] Hint Resolve MSG_ActualL15CoverageVIS_IR_ok : lay.

Lemma MSG_ActualL15CoverageHRV_size : size MSG_ActualL15CoverageHRV_fmt = 32.
Proof. reflexivity. Qed.
Lemma MSG_ActualL15CoverageHRV_ok p b : MSG_ActualL15CoverageHRV_read p b = (mplace MSG_ActualL15CoverageHRV_fmt p b, 32).
Proof. layout MSG_ActualL15CoverageHRV_fmt MSG_ActualL15CoverageHRV_read. Qed.
#[global] Hint Resolve MSG_ActualL15CoverageHRV_ok : lay.

Lemma MSG_data_ImageProdStats_size : size MSG_data_ImageProdStats_fmt = 340.
Proof. reflexivity. Qed.
Lemma MSG_data_ImageProdStats_ok p b : MSG_data_ImageProdStats_read p b = (mplace MSG_data_ImageProdStats_fmt p b, 340).
Proof. layout MSG_data_ImageProdStats_fmt MSG_data_ImageProdStats_read. Qed.
#[global] Hint Resolve MSG_data_ImageProdStats_ok : lay.

Lemma MSG_HorizonObservation_size : size MSG_HorizonObservation_fmt = 65.
Proof. reflexivity. Qed.
Lemma MSG_HorizonObservation_ok i p b : MSG_HorizonObservation_read (I i :: N "ExtractedHorizons" :: p) b = (mplace MSG_HorizonObservation_fmt (I i :: N "ExtractedHorizons" :: p) b, 65).
Proof. layout MSG_HorizonObservation_fmt MSG_HorizonObservation_read. Qed.
#[global] Hint Resolve MSG_HorizonObservation_ok : lay.

Lemma MSG_StarObservation_size : size MSG_StarObservation_fmt = 66.
Proof. reflexivity. Qed.
Lemma MSG_StarObservation_ok i p b : MSG_StarObservation_read (I i :: N "ExtractedStars" :: p) b = (mplace MSG_StarObservation_fmt (I i :: N "ExtractedStars" :: p) b, 66).
Proof. layout MSG_StarObservation_fmt MSG_StarObservation_read. Qed.
#[global] Hint Resolve MSG_StarObservation_ok : lay.

Lemma MSG_LandmarkObservation_size : size MSG_LandmarkObservation_fmt = 82.
Proof. reflexivity. Qed.
Lemma MSG_LandmarkObservation_ok i p b : MSG_LandmarkObservation_read (I i :: N "ExtractedLandmarks" :: p) b = (mplace MSG_LandmarkObservation_fmt (I i :: N "ExtractedLandmarks" :: p) b, 82).
Proof. layout MSG_LandmarkObservation_fmt MSG_LandmarkObservation_read. Qed.
#[global] Hint Resolve MSG_LandmarkObservation_ok : lay.

Lemma MSG_data_NavigExtrResult_size : size MSG_data_NavigExtrResult_fmt = 5680.
Proof. reflexivity. Qed.
Lemma MSG_data_NavigExtrResult_ok p b : MSG_data_NavigExtrResult_read p b = (mplace MSG_data_NavigExtrResult_fmt p b, 5680).
Proof. layout MSG_data_NavigExtrResult_fmt MSG_data_NavigExtrResult_read. Qed.
#[global] Hint Resolve MSG_data_NavigExtrResult_ok : lay.

Lemma MSG_L10RadQuality_size : size MSG_L10RadQuality_fmt = 7348.
Proof. reflexivity. Qed.
Lemma MSG_L10RadQuality_ok p b : MSG_L10RadQuality_read p b = (mplace MSG_L10RadQuality_fmt p b, 7348).
Proof. layout MSG_L10RadQuality_fmt MSG_L10RadQuality_read. Qed.
#[global] Hint Resolve MSG_L10RadQuality_ok : lay.

Lemma MSG_L15RadQuality_size : size MSG_L15RadQuality_fmt = 5220.
Proof. reflexivity. Qed.
Lemma MSG_L15RadQuality_ok p b : MSG_L15RadQuality_read p b = (mplace MSG_L15RadQuality_fmt p b, 5220).
Proof. layout MSG_L15RadQuality_fmt MSG_L15RadQuality_read. Qed.
#[global] Hint Resolve MSG_L15RadQuality_ok : lay.

Lemma MSG_data_RadiometricQuality_size : size MSG_data_RadiometricQuality_fmt = 371256.
Proof. reflexivity. Qed.
Lemma MSG_data_RadiometricQuality_ok p b : MSG_data_RadiometricQuality_read p b = (mplace MSG_data_RadiometricQuality_fmt p b, 371256).
Proof. layout MSG_data_RadiometricQuality_fmt MSG_data_RadiometricQuality_read. Qed.
#[global] Hint Resolve MSG_data_RadiometricQuality_ok : lay.

Lemma MSG_Accuracy_size : size MSG_Accuracy_fmt = 49.
Proof. reflexivity. Qed.
Lemma MSG_Accuracy_ok p b : MSG_Accuracy_read p b = (mplace MSG_Accuracy_fmt p b, 49).
Proof. layout MSG_Accuracy_fmt MSG_Accuracy_read. Qed.
#[global] Hint Resolve MSG_Accuracy_ok : lay.

Lemma MSG_Residuals_size : size MSG_Residuals_fmt = 41.
Proof. reflexivity. Qed.
Lemma MSG_Residuals_ok p b : MSG_Residuals_read p b = (mplace MSG_Residuals_fmt p b, 41).
Proof. layout MSG_Residuals_fmt MSG_Residuals_read. Qed.
#[global] Hint Resolve MSG_Residuals_ok : lay.

Lemma MSG_GeometricQualityStatus_size : size MSG_GeometricQualityStatus_fmt = 6.
Proof. reflexivity. Qed.
Lemma MSG_GeometricQualityStatus_ok p b : MSG_GeometricQualityStatus_read p b = (mplace MSG_GeometricQualityStatus_fmt p b, 6).
Proof. layout MSG_GeometricQualityStatus_fmt MSG_GeometricQualityStatus_read. Qed.
#[global] Hint Resolve MSG_GeometricQualityStatus_ok : lay.

Lemma MSG_data_GeometricQuality_size : size MSG_data_GeometricQuality_fmt = 2916.
Proof. reflexivity. Qed.
Lemma MSG_data_GeometricQuality_ok p b : MSG_data_GeometricQuality_read p b = (mplace MSG_data_GeometricQuality_fmt p b, 2916).
Proof. layout MSG_data_GeometricQuality_fmt MSG_data_GeometricQuality_read. Qed.
#[global] Hint Resolve MSG_data_GeometricQuality_ok : lay.

Lemma MSG_Timeliness_size : size MSG_Timeliness_fmt = 12.
Proof. reflexivity. Qed.
Lemma MSG_Timeliness_ok p b : MSG_Timeliness_read p b = (mplace MSG_Timeliness_fmt p b, 12).
Proof. layout MSG_Timeliness_fmt MSG_Timeliness_read. Qed.
#[global] Hint Resolve MSG_Timeliness_ok : lay.

Lemma MSG_Completeness_size : size MSG_Completeness_fmt = 10.
Proof. reflexivity. Qed.
Lemma MSG_Completeness_ok p b : MSG_Completeness_read p b = (mplace MSG_Completeness_fmt p b, 10).
Proof. layout MSG_Completeness_fmt MSG_Completeness_read. Qed.
#[global] Hint Resolve MSG_Completeness_ok : lay.

Lemma MSG_data_TimelinComple_size : size MSG_data_TimelinComple_fmt = 132.
Proof. reflexivity. Qed.
Lemma MSG_data_TimelinComple_ok p b : MSG_data_TimelinComple_read p b = (mplace MSG_data_TimelinComple_fmt p b, 132).
Proof. layout MSG_data_TimelinComple_fmt MSG_data_TimelinComple_read. Qed.
#[global] Hint Resolve MSG_data_TimelinComple_ok : lay.
