(** C95 independence of input files, C96 band selection, C97 output names. *)
From Verif Require Import Base BaseFacts IniModel GeoModel FactsModel ToolModel GeoProps ToolProps.
From Coq Require Import QArith.
Open Scope list_scope.
Open Scope Z_scope.

(** ** C95. Independence of input files. *)
(** Every file processed as if it were the only one, with the options as given
    on the command line; stops at the first failure. *)
Fixpoint each (o : opts) (t : trans) (files : list (option dset)) : outcome (list tres * Z) :=
  match files with
  | [] => Ok ([], 0)
  | f :: l =>
      let! r := run o t [f] in
      if snd r =? 0 then let! rest := each o t l in Ok (fst r ++ fst rest, snd rest) else Ok r
  end.
Definition same_shape (X Y N : Z) (f : option dset) : Prop := match f with Some d => xs d = X /\ ys d = Y /\ count d = N | None => True end.

Section Same.
Variables (X Y N : Z) (o : opts) (t : trans).
Hypothesis fresh : bands t = [].
Definition scaled : bool := let '(tx, ty) := scaled_size (o_maxx o) (o_maxy o) X Y in negb (tx =? X) && negb (ty =? Y).
Definition scaled_out : option (osz * osz) := let '(tx, ty) := scaled_size (o_maxx o) (o_maxy o) X Y in Some (Pixels tx, Pixels ty).
Definition filled : rect := if (rw (win t) =? 0) && (rh (win t) =? 0) then mk_rect (rx (win t)) (ry (win t)) X Y else win t.
(** How the members may have changed after some files. *)
Definition inv (t' : trans) : Prop :=
  proj t' = proj t /\ (outsize t' = outsize t \/ (scaled = true /\ outsize t' = scaled_out)) /\
  (win t' = win t \/ win t' = filled \/ o_area o <> None \/ proj_given (proj t) = true) /\
  (o_bands o <> [] \/ (bDefBands t' = bDefBands t /\ (bands t' = [] \/ (0 < N /\ bands t' = first_bands N)))).

Definition agree (r r' : outcome (tres * trans)) : Prop :=
  match r with
  | Ok (Null, _) => exists x, r' = Ok (Null, x)
  | Ok (_, _) => r' = r
  | _ => r' = r
  end.
Lemma agree_refl r : agree r r.
Proof. destruct r as [[[| |v] x]| | | |]; cbn; eauto. Qed.
Lemma first_bands_len n : 0 <= n -> Z.of_nat (List.length (first_bands n)) = n.
Proof. intros H. unfold first_bands. rewrite map_length, seq_length. lia. Qed.
Lemma first_bands_nil n : 0 < n -> first_bands n <> [].
Proof. intros H C. pose proof (first_bands_len n ltac:(lia)). rewrite C in H0. cbn in H0. lia. Qed.

Lemma check_same d u u' : count d = N -> win u' = win u -> proj u' = proj u -> outsize u' = outsize u -> bDefBands u' = bDefBands u ->
  (bands u' = bands u \/ (bands u = [] /\ 0 < N /\ bands u' = first_bands N)) -> check_bands u' d = check_bands u d.
Proof.
  intros C W P O D [B|(B & NP & B')].
  - unfold check_bands. now rewrite B, W, P, O, D.
  - unfold check_bands. rewrite B, B'. destruct (first_bands N) as [|b l] eqn:F; [now apply first_bands_nil in F|]. rewrite <- F, C. destruct (Z.eqb_spec N 0); [lia|].
    replace (existsb (fun b0 => (b0 <? 1) || (N <? b0)) (first_bands N)) with false.
    + rewrite first_bands_len by lia. rewrite Z.eqb_refl, andb_true_r, W, P, O, D. reflexivity.
    + symmetry. destruct (existsb _ _) eqn:E; [|reflexivity]. apply existsb_exists in E as (c & I & J). apply first_bands_in in I. lia.
Qed.
Lemma check_win u d w : check_bands (set_win u w) d = match check_bands u d with Some v => Some (set_win v w) | None => None end.
Proof. unfold check_bands, set_win. cbn [bands bDefBands win proj outsize]. destruct (bands u); [destruct (count d =? 0)|destruct (existsb _ _)]; reflexivity. Qed.
Lemma set_win_id u : set_win u (win u) = u.
Proof. destruct u as [u1 u2 u3 u4 u5]; reflexivity. Qed.
Lemma set_set u a b : set_win (set_win u a) b = set_win u b.
Proof. reflexivity. Qed.
Lemma fill_set u d : exists w, fill_win u d = set_win u w.
Proof. unfold fill_win. destruct (_ && _); [eexists; reflexivity|exists (win u); symmetry; apply set_win_id]. Qed.

Lemma translate_same d u u' : xs d = X -> ys d = Y -> count d = N -> proj u' = proj u -> outsize u' = outsize u -> bDefBands u' = bDefBands u ->
  (bands u' = bands u \/ (bands u = [] /\ 0 < N /\ bands u' = first_bands N)) ->
  (win u' = win u \/ win u' = win (fill_win u d) \/ proj_given (proj u) = true) -> agree (translate u d) (translate u' d).
Proof.
  intros XS YS C P O D B W. destruct (proj_given (proj u)) eqn:PG.
  - unfold translate. destruct (fill_set u d) as (w & FW). destruct (fill_set u' d) as (w' & FW'). rewrite FW, FW', !check_win.
    assert (K : check_bands (set_win u' (win u)) d = check_bands u d) by (apply check_same; auto). rewrite check_win in K.
    destruct (check_bands u d) as [v|] eqn:CU, (check_bands u' d) as [v'|] eqn:CU'; try discriminate; [|cbn; eauto]. injection K as K.
    assert (PV : proj v = proj u) by (apply check_bands_ok in CU; tauto). assert (PV' : proj v' = proj u) by (apply check_bands_ok in CU'; rewrite <- P; tauto). cbn [set_win proj]. rewrite PV, PV', PG.
    assert (E : forall z, set_win v' z = set_win v z). { intros z. rewrite <- (set_set v' (win u) z). rewrite K. reflexivity. }
    destruct (negb _); [cbn; eauto|]. destruct (proj_window _ _) as [z| | | |]; cbn [bind]; try (cbn; reflexivity). rewrite !set_set, E. destruct (window_ok false z d) as [[|]| | | |]; cbn [bind]; try (cbn; reflexivity); [apply agree_refl|cbn; eauto].
  - destruct W as [W|[W|]]; [| |discriminate].
    + unfold translate. assert (K : check_bands (fill_win u' d) d = check_bands (fill_win u d) d).
      { apply check_same; auto; unfold fill_win; rewrite W; destruct (_ && _); cbn [win proj outsize bDefBands bands]; auto. }
      rewrite K. destruct (check_bands (fill_win u d) d); [apply agree_refl|cbn; eauto].
    + unfold translate. assert (FF : win (fill_win u' d) = win (fill_win u d)).
      { unfold fill_win in W |- *. destruct ((rw (win u) =? 0) && (rh (win u) =? 0)) eqn:Z0.
        - cbn [win] in W. rewrite W. cbn [rw rh rx ry]. destruct ((xs d =? 0) && (ys d =? 0)); cbn [win]; [reflexivity|exact W].
        - rewrite W, Z0. exact W. }
      assert (K : check_bands (fill_win u' d) d = check_bands (fill_win u d) d).
      { destruct (fill_set u d) as (w & FW). destruct (fill_set u' d) as (w' & FW'). rewrite FW, FW' in *. cbn [set_win win] in FF. subst w'. apply check_same; cbn [set_win win proj outsize bDefBands bands]; auto. }
      rewrite K. destruct (check_bands (fill_win u d) d); [apply agree_refl|cbn; eauto].
Qed.

(** One more file: same result, members still related. *)
Definition pick (d : dset) (u : trans) : trans := match o_bands o with [] => u | _ => let sel := select_bands d (o_bands o) in mk_trans sel (def_bands d sel) (win u) (proj u) (outsize u) end.
Lemma step_shape u d : step o u d = match o_bands o, select_bands d (o_bands o) with
  | _ :: _, [] => Ok (Skip, u)
  | _, _ => let! a := match o_area o with
                      | None => Ok (Some (pick d u))
                      | Some f => let! w := area_window (xs d) (ys d) (f d) in Ok (match w with Some w => Some (set_win (pick d u) w) | None => None end)
                      end in
            match a with
            | None => Ok (Fail, pick d u)
            | Some v => let! r := translate (scale_if_needed o v d) d in match fst r with Null => UB | res => Ok (Result res, snd r) end
            end end.
Proof. unfold step, pick. destruct (o_bands o) as [|b l]; [reflexivity|]. destruct (select_bands d (b :: l)); reflexivity. Qed.

Definition same_result (r r' : outcome (step_result * trans)) : Prop :=
  match r with
  | Ok (s, _) => exists u, r' = Ok (s, u) /\ inv u
  | _ => r' = r
  end.
Lemma scale_win u d w : scale_if_needed o (set_win u w) d = set_win (scale_if_needed o u d) w.
Proof. unfold scale_if_needed, set_win. destruct (scaled_size _ _ _ _) as [tx ty]. destruct (_ && _); reflexivity. Qed.
Lemma scale_fields u d : let v := scale_if_needed o u d in bands v = bands u /\ bDefBands v = bDefBands u /\ win v = win u /\ proj v = proj u.
Proof. unfold scale_if_needed. destruct (scaled_size _ _ _ _) as [tx ty]. destruct (_ && _); cbn; auto. Qed.
Lemma scale_out u d : xs d = X -> ys d = Y -> outsize (scale_if_needed o u d) = if scaled then scaled_out else outsize u.
Proof. intros A B. unfold scale_if_needed, scaled, scaled_out. rewrite A, B. destruct (scaled_size _ _ X Y) as [tx ty]. destruct (_ && _); reflexivity. Qed.
Lemma pick_fields u d : win (pick d u) = win u /\ proj (pick d u) = proj u /\ outsize (pick d u) = outsize u.
Proof. unfold pick. destruct (o_bands o); cbn; auto. Qed.

Lemma translate_inv d u r u2 : xs d = X -> ys d = Y -> count d = N -> r <> Null -> translate u d = Ok (r, u2) ->
  proj u2 = proj u /\ outsize u2 = outsize u /\ (proj_given (proj u) = true \/ win u2 = win (fill_win u d)) /\ (bands u = [] -> bDefBands u2 = bDefBands u /\ bands u2 = first_bands N) /\ 0 < N.
Proof.
  intros XS YS C NN T. apply translate_ok in T as [|(t1 & K & S & F & I & B)]; [contradiction|]. destruct (fill_set u d) as (w & FW). pose proof (check_bands_ok _ _ _ K) as (K1 & K2 & K3 & K4 & K5 & K6 & K7).
  rewrite FW in *. cbn [set_win proj outsize bands bDefBands win] in *. rewrite S. cbn [set_win proj outsize bands bDefBands win]. split; [exact K2|]. split; [exact K3|].
  split; [destruct (proj_given (proj u)); [now left|right]; rewrite (F eq_refl); exact K1|]. split; [intros E; destruct (K6 E) as [K8 K9]; rewrite C in K8; auto|].
  destruct (bands t1) as [|b l] eqn:BB; [contradiction|]. specialize (K4 b (or_introl eq_refl)). lia.
Qed.

Lemma step_same d u : xs d = X -> ys d = Y -> count d = N -> inv u -> same_result (step o t d) (step o u d).
Proof.
  intros XS YS C (IP & IO & IW & IB). rewrite !step_shape.
  destruct (pick_fields t d) as (PT1 & PT2 & PT3). destruct (pick_fields u d) as (PU1 & PU2 & PU3).
  assert (BK : o_bands o <> [] -> bands (pick d t) = bands (pick d u) /\ bDefBands (pick d t) = bDefBands (pick d u)) by (unfold pick; destruct (o_bands o); [contradiction|cbn; auto]).
  assert (BE : o_bands o = [] -> pick d t = t /\ pick d u = u) by (unfold pick; intros ->; auto).
  assert (BB : bDefBands (pick d u) = bDefBands (pick d t) /\ (bands (pick d u) = bands (pick d t) \/ (bands (pick d t) = [] /\ 0 < N /\ bands (pick d u) = first_bands N))).
  { destruct (o_bands o) as [|b l] eqn:OB; [|destruct (BK ltac:(discriminate)); auto]. destruct (BE eq_refl) as [-> ->]. destruct IB as [IB|(IB1 & [IB2|[IB2 IB3]])]; [contradiction| |]; rewrite fresh; auto. }
  assert (SKIP : same_result (Ok (Skip, t)) (Ok (Skip, u))) by (cbn; exists u; split; [reflexivity|]; exact (conj IP (conj IO (conj IW IB)))).
  assert (MAIN : same_result
    (let! a := match o_area o with None => Ok (Some (pick d t)) | Some f => let! w := area_window (xs d) (ys d) (f d) in Ok (match w with Some w => Some (set_win (pick d t) w) | None => None end) end in
     match a with None => Ok (Fail, pick d t) | Some v => let! r := translate (scale_if_needed o v d) d in match fst r with Null => UB | res => Ok (Result res, snd r) end end)
    (let! a := match o_area o with None => Ok (Some (pick d u)) | Some f => let! w := area_window (xs d) (ys d) (f d) in Ok (match w with Some w => Some (set_win (pick d u) w) | None => None end) end in
     match a with None => Ok (Fail, pick d u) | Some v => let! r := translate (scale_if_needed o v d) d in match fst r with Null => UB | res => Ok (Result res, snd r) end end)).
  { assert (GO : forall v v', outsize v = outsize t -> outsize v' = outsize u -> proj v = proj t -> proj v' = proj t -> bDefBands v' = bDefBands v -> (o_bands o = [] -> bands v = [] /\ bDefBands v = bDefBands t) ->
      (bands v' = bands v \/ (bands v = [] /\ 0 < N /\ bands v' = first_bands N)) -> (win v' = win v \/ win v' = win (fill_win v d) \/ proj_given (proj t) = true) -> (o_area o <> None \/ win v = win t) ->
      same_result (let! r := translate (scale_if_needed o v d) d in match fst r with Null => UB | res => Ok (Result res, snd r) end) (let! r := translate (scale_if_needed o v' d) d in match fst r with Null => UB | res => Ok (Result res, snd r) end)).
    { intros v v' O1 O2 P1 P2 D1 FR B1 W1 A1. destruct (scale_fields v d) as (S1 & S2 & S3 & S4). destruct (scale_fields v' d) as (S1' & S2' & S3' & S4').
      assert (AG : agree (translate (scale_if_needed o v d) d) (translate (scale_if_needed o v' d) d)).
      { apply translate_same; auto; rewrite ?S1, ?S1', ?S2, ?S2', ?S3, ?S3', ?S4, ?S4'; auto; try congruence.
        - rewrite !scale_out by assumption. destruct scaled eqn:SC; [reflexivity|]. rewrite O1, O2. destruct IO as [IO|[IO _]]; [exact IO|discriminate].
        - destruct W1 as [W1|[W1|W1]]; [auto| |rewrite P1; auto]. right; left. rewrite W1. unfold fill_win. rewrite S3. destruct (_ && _); cbn [win]; auto. }
      destruct (translate (scale_if_needed o v d) d) as [[r x]| | | |] eqn:TR; cbn [agree] in AG; try (rewrite AG; cbn; reflexivity). cbn [bind fst snd]. destruct r as [| |vd].
      - destruct AG as (x' & ->). cbn. reflexivity.
      - rewrite AG. cbn [bind fst snd same_result]. exists x. split; [reflexivity|]. apply (translate_inv d) in TR as (T1 & T2 & T3 & T4 & T5); auto; [|discriminate]. rewrite S4 in T1, T3. rewrite scale_out in T2 by assumption. rewrite S1, S2 in T4.
        split; [congruence|]. split; [destruct scaled; [right; auto|left; congruence]|]. split.
        + destruct T3 as [T3|T3]; [rewrite <- P1; auto|]. destruct A1 as [A1|A1]; [auto|]. right; left. rewrite T3. unfold fill_win, filled. rewrite S3, A1, XS, YS. destruct (_ && _); cbn [win]; auto. congruence.
        + destruct (o_bands o) as [|b l] eqn:OB; [right|left; discriminate]. destruct (FR eq_refl) as [F1 F2]. destruct (T4 F1) as [T6 T7]. split; [congruence|]. right. auto.
      - rewrite AG. cbn [bind fst snd same_result]. exists x. split; [reflexivity|]. apply (translate_inv d) in TR as (T1 & T2 & T3 & T4 & T5); auto; [|discriminate]. rewrite S4 in T1, T3. rewrite scale_out in T2 by assumption. rewrite S1, S2 in T4.
        split; [congruence|]. split; [destruct scaled; [right; auto|left; congruence]|]. split.
        + destruct T3 as [T3|T3]; [rewrite <- P1; auto|]. destruct A1 as [A1|A1]; [auto|]. right; left. rewrite T3. unfold fill_win, filled. rewrite S3, A1, XS, YS. destruct (_ && _); cbn [win]; auto. congruence.
        + destruct (o_bands o) as [|b l] eqn:OB; [right|left; discriminate]. destruct (FR eq_refl) as [F1 F2]. destruct (T4 F1) as [T6 T7]. split; [congruence|]. right. auto. }
    destruct BB as [BB1 BB2]. assert (FR : o_bands o = [] -> bands (pick d t) = [] /\ bDefBands (pick d t) = bDefBands t) by (intros E; destruct (BE E) as [-> _]; auto).
    destruct (o_area o) as [f|] eqn:OA.
    - destruct (area_window (xs d) (ys d) (f d)) as [[w|]| | | |]; cbn [bind]; try (cbn; reflexivity).
      + apply GO; cbn [set_win bands bDefBands win proj outsize]; try congruence; auto. left. congruence.
      + cbn [same_result]. exists (pick d u). split; [reflexivity|]. split; [congruence|]. split; [rewrite PU3; exact IO|]. split; [rewrite OA; right; right; left; discriminate|]. destruct (o_bands o) eqn:OB; [right|left; discriminate]. destruct (BE eq_refl) as [_ ->]. destruct IB as [IB|IB]; [contradiction|exact IB].
    - cbn [bind]. apply GO; try congruence; auto. rewrite PU1, PT1. destruct IW as [IW|[IW|[IW|IW]]]; [auto| |contradiction|auto]. right; left. rewrite IW. unfold filled, fill_win. rewrite PT1, XS, YS. destruct (_ && _); cbn [win]; auto. }
  destruct (o_bands o) as [|b l] eqn:OB; [exact MAIN|]. destruct (select_bands d (b :: l)); [exact SKIP|exact MAIN].
Qed.

Lemma inv_t : inv t.
Proof. split; [reflexivity|]. split; [now left|]. split; [now left|]. destruct (o_bands o); [right|left; discriminate]. split; [reflexivity|]. now left. Qed.
Lemma run_each files : (forall f, In f files -> same_shape X Y N f) -> forall u, inv u -> run o u files = each o t files.
Proof.
  induction files as [|[d|] l IH]; intros S u I; cbn [run each]; [reflexivity| |cbn; reflexivity].
  assert (SD : same_shape X Y N (Some d)) by (apply S; now left). cbn in SD. destruct SD as (S1 & S2 & S3). pose proof (step_same d u S1 S2 S3 I) as R.
  assert (SL : forall f, In f l -> same_shape X Y N f) by (intros f F; apply S; now right).
  destruct (step o t d) as [[s x]| | | |]; cbn [same_result] in R; try (rewrite R; cbn [bind]; reflexivity). destruct R as (u' & -> & I'). cbn [bind fst snd]. destruct s as [| |r].
  - cbn [bind fst snd Z.eqb]. rewrite (IH SL u' I'). destruct (each o t l) as [[a b]| | | |]; reflexivity.
  - cbn. reflexivity.
  - cbn [bind fst snd Z.eqb]. rewrite (IH SL u' I'). destruct (each o t l) as [[a b]| | | |]; reflexivity.
Qed.
End Same.

(** Files of the same size and number of bands are processed independently. *)
Theorem C95_same_shape_partial o t X Y N files : bands t = [] -> (forall f, In f files -> same_shape X Y N f) -> run o t files = each o t files.
Proof. intros F S. apply (run_each X Y N o t F files S t). now apply inv_t. Qed.
Print Assumptions C95_same_shape_partial.
(** Not so for others: a larger file is cut to the size of the one before. *)
Definition opts0 : opts := mk_opts [] None 0 0.
Definition plain (d : dset) : Prop := 0 < xs d < 2 ^ 31 /\ 0 < ys d < 2 ^ 31 /\ 0 < count d.
Lemma first_file d : plain d -> step opts0 trans0 d = Ok (Result Itself, mk_trans (first_bands (count d)) true (mk_rect 0 0 (xs d) (ys d)) (0, 0, 0, 0)%Q None).
Proof.
  intros (X & Y & C). unfold step. cbn [o_bands opts0 o_area bind]. unfold scale_if_needed. cbn [o_maxx o_maxy opts0]. unfold scaled_size. cbn [Z.eqb negb andb]. rewrite !Z.eqb_refl. cbn [negb andb].
  unfold translate, fill_win. cbn [trans0 win rw rh no_rect Z.eqb andb bands bDefBands rx ry proj outsize]. unfold check_bands. cbn [bands]. destruct (Z.eqb_spec (count d) 0); [lia|]. cbn [proj]. unfold proj_given. cbn.
  unfold verify, window_ok. cbn [win rx ry rw rh]. cbn [Z.ltb Z.compare orb andb]. replace ((xs d <=? 0) || (ys d <=? 0)) with false by lia. rewrite !Z.add_0_l. replace (int_fits (xs d)) with true by (unfold int_fits; lia). replace (int_fits (ys d)) with true by (unfold int_fits; lia). cbn [negb]. rewrite !Z.ltb_irrefl. cbn [negb bind].
  unfold build, nothing_to_do. cbn [bDefBands win rx ry rw rh outsize]. rewrite !Z.eqb_refl. cbn. reflexivity.
Qed.
Theorem C95_refuted_cut d1 d2 : plain d1 -> plain d2 -> count d1 = count d2 -> xs d1 <= xs d2 -> ys d1 <= ys d2 -> xs d1 <> xs d2 \/ ys d1 <> ys d2 ->
  run opts0 trans0 [Some d2] = Ok ([Itself], 0) /\ exists v, run opts0 trans0 [Some d1; Some d2] = Ok ([Itself; Virtual v], 0) /\ v_xs v = xs d1 /\ v_ys v = ys d1 /\ v_win v = mk_rect 0 0 (xs d1) (ys d1).
Proof.
  intros P1 P2 C LX LY D. cbn [run]. rewrite !first_file by assumption. cbn [bind fst snd]. split; [reflexivity|]. destruct P1 as (X1 & Y1 & C1). destruct P2 as (X2 & Y2 & C2).
  unfold step. cbn [o_bands opts0 o_area bind]. unfold scale_if_needed. cbn [o_maxx o_maxy opts0]. unfold scaled_size. cbn [Z.eqb negb andb]. rewrite !Z.eqb_refl. cbn [negb andb].
  unfold translate, fill_win. cbn [win rw rh bands bDefBands rx ry proj outsize]. replace ((xs d1 =? 0) && (ys d1 =? 0)) with false by lia.
  rewrite (check_same (count d2) d2 (mk_trans [] true (mk_rect 0 0 (xs d1) (ys d1)) (0, 0, 0, 0)%Q None)); [|reflexivity|reflexivity|reflexivity|reflexivity|reflexivity|right; cbn [bands]; rewrite C; auto].
  unfold check_bands. cbn [bands]. destruct (Z.eqb_spec (count d2) 0); [lia|]. cbn [proj]. unfold proj_given. cbn.
  unfold verify, window_ok. cbn [win rx ry rw rh]. cbn [Z.ltb Z.compare orb andb]. replace ((xs d1 <=? 0) || (ys d1 <=? 0)) with false by lia. rewrite !Z.add_0_l. replace (int_fits (xs d1)) with true by (unfold int_fits; lia). replace (int_fits (ys d1)) with true by (unfold int_fits; lia). cbn [negb]. replace (xs d2 <? xs d1) with false by lia. replace (ys d2 <? ys d1) with false by lia. cbn [negb bind].
  unfold build, nothing_to_do. cbn [bDefBands win rx ry rw rh outsize]. replace (true && (0 =? 0) && (0 =? 0) && (xs d1 =? xs d2) && (ys d1 =? ys d2) && true) with false by lia. cbn [bind fst snd]. eexists. split; [reflexivity|]. auto.
Qed.
Print Assumptions C95_refuted_cut.
(** And a smaller one, or one with fewer bands, crashes. *)
Theorem C95_refuted_crash d1 d2 : plain d1 -> plain d2 -> xs d2 < xs d1 \/ count d2 < count d1 -> run opts0 trans0 [Some d2] = Ok ([Itself], 0) /\ run opts0 trans0 [Some d1; Some d2] = UB.
Proof.
  intros P1 P2 D. cbn [run]. rewrite !first_file by assumption. cbn [bind fst snd]. split; [reflexivity|]. destruct P1 as (X1 & Y1 & C1). destruct P2 as (X2 & Y2 & C2).
  unfold step. cbn [o_bands opts0 o_area bind]. unfold scale_if_needed. cbn [o_maxx o_maxy opts0]. unfold scaled_size. cbn [Z.eqb negb andb]. rewrite !Z.eqb_refl. cbn [negb andb].
  unfold translate, fill_win. cbn [win rw rh bands bDefBands rx ry proj outsize]. replace ((xs d1 =? 0) && (ys d1 =? 0)) with false by lia.
  unfold check_bands. cbn [bands]. destruct (first_bands (count d1)) as [|b l] eqn:F; [now apply first_bands_nil in F|]. rewrite <- F. destruct (existsb _ _) eqn:E; [reflexivity|].
  assert (L : ~ count d2 < count d1). { intros L. assert (I : In (count d1) (first_bands (count d1))) by (apply first_bands_in; lia). assert (existsb (fun b0 => (b0 <? 1) || (count d2 <? b0)) (first_bands (count d1)) = true) by (apply existsb_exists; exists (count d1); split; [exact I|lia]). congruence. }
  destruct D as [D|D]; [|contradiction]. cbn [proj]. unfold proj_given. cbn. unfold verify, window_ok. cbn [win rx ry rw rh]. cbn [Z.ltb Z.compare orb andb]. replace ((xs d1 <=? 0) || (ys d1 <=? 0)) with false by lia. rewrite !Z.add_0_l. replace (int_fits (xs d1)) with true by (unfold int_fits; lia). cbn [negb]. replace (xs d2 <? xs d1) with true by lia. reflexivity.
Qed.
Print Assumptions C95_refuted_crash.
Definition hrv : dset := mk_dset 11136 11136 [codes "HRV"] None.
Definition vis : dset := mk_dset 3712 3712 [codes "VIS006"] None.
Example C95_case : plain hrv /\ plain vis /\ run opts0 trans0 [Some hrv; Some vis] = UB /\ run opts0 trans0 [Some vis; Some vis; None] = Ok ([Itself; Itself], 1) /\
  run (mk_opts [codes "VIS006"] None 1280 1280) trans0 [Some hrv; Some vis] = Ok ([Virtual (mk_vds 1280 1280 (mk_rect 0 0 3712 3712) [1] None)], 0).
Proof. repeat split; vm_compute; reflexivity. Qed.

(** ** C96. Band selection. *)
(** Decimal value of a string of digits. *)
Fixpoint decimal (s : str) : Z := match s with [] => 0 | c :: s' => (c - 48) * 10 ^ Z.of_nat (List.length s') + decimal s' end.
Definition all_digits (s : str) : Prop := s <> [] /\ Forall (fun c => 48 <= c <= 57) s.
(** The first band with a description. *)
Definition first_named (d : dset) (name : str) (i : Z) : Prop :=
  1 <= i <= count d /\ nth_error (names d) (Z.to_nat (i - 1)) = Some name /\ forall j, 1 <= j < i -> nth_error (names d) (Z.to_nat (j - 1)) <> Some name.
Lemma str_eqb_eq a b : str_eqb a b = true <-> a = b.
Proof. unfold str_eqb. destruct (list_eq_dec Z.eq_dec a b); split; congruence. Qed.
Lemma rbindex_from_spec l name : forall i, 1 <= i -> (rbindex_from i l name = 0 /\ ~ In name l) \/
  exists k, rbindex_from i l name = i + Z.of_nat k /\ nth_error l k = Some name /\ forall j, (j < k)%nat -> nth_error l j <> Some name.
Proof.
  induction l as [|e l IH]; intros i I; cbn [rbindex_from]; [left; auto|]. destruct (str_eqb e name) eqn:E.
  - apply str_eqb_eq in E. subst. right. exists 0%nat. split; [lia|]. split; [reflexivity|lia].
  - assert (N : e <> name) by (intros C; apply str_eqb_eq in C; congruence). destruct (IH (i + 1) ltac:(lia)) as [[A B]|(k & A & B & C)].
    + left. split; [exact A|]. intros [D|D]; contradiction.
    + right. exists (S k). split; [lia|]. split; [exact B|]. intros [|j] J; [cbn; congruence|]. cbn. apply C. lia.
Qed.
Lemma rbindex_spec d name : (rbindex_by_name d name = 0 /\ ~ In name (names d)) \/ (rbindex_by_name d name <> 0 /\ first_named d name (rbindex_by_name d name)).
Proof.
  unfold rbindex_by_name. destruct (rbindex_from_spec (names d) name 1 ltac:(lia)) as [A|(k & A & B & C)]; [now left|right]. rewrite A. split; [lia|]. assert (K : (k < List.length (names d))%nat) by (apply nth_error_Some; congruence).
  split; [unfold count; lia|]. split; [replace (Z.to_nat (1 + Z.of_nat k - 1)) with k by lia; exact B|]. intros j J. apply C. lia.
Qed.
Lemma digits_app acc s : Forall (fun c => 48 <= c <= 57) s -> digits acc s = acc * 10 ^ Z.of_nat (List.length s) + decimal s.
Proof.
  revert acc. induction s as [|c s IH]; intros acc F; cbn [digits decimal List.length]; [cbn; lia|]. inversion F as [|? ? F1 F2]; subst. replace ((48 <=? c) && (c <=? 57)) with true by lia. rewrite IH by assumption.
  rewrite Nat2Z.inj_succ, Z.pow_succ_r by lia. nia.
Qed.
Lemma digit_run_all s : Forall (fun c => 48 <= c <= 57) s -> digit_run s = s.
Proof. induction s as [|c s IH]; intros F; [reflexivity|]. inversion F; subst. cbn [digit_run]. unfold isdigit. replace ((48 <=? c) && (c <=? 57)) with true by lia. now rewrite IH. Qed.
Lemma strtoul_digits s : all_digits s -> strtoul s = (if 2 ^ 64 <=? decimal s then 2 ^ 64 - 1 else decimal s, List.length s).
Proof.
  intros [N F]. destruct s as [|c s]; [contradiction|]. inversion F as [|? ? F1 F2]; subst. unfold strtoul. assert (K : strskp (c :: s) = c :: s). { cbn [strskp]. unfold isspace. now replace (((9 <=? c) && (c <=? 13)) || (c =? 32)) with false by lia. }
  rewrite K. replace (c =? 45) with false by lia. replace (c =? 43) with false by lia. rewrite digit_run_all by assumption. rewrite digits_app by assumption. rewrite Z.mul_0_l, Z.add_0_l, Nat.sub_diag, !Nat.add_0_l. reflexivity.
Qed.
(** Items that strtoul reads completely: spaces, a sign, digits. *)
Lemma digit_run_prefix s : exists r, s = digit_run s ++ r /\ Forall (fun c => 48 <= c <= 57) (digit_run s).
Proof. induction s as [|c s (r & E & F)]; cbn [digit_run]; [exists []; auto|]. destruct (isdigit c) eqn:D; [|exists (c :: s); auto]. exists r. split; [cbn; now rewrite <- E|]. constructor; [unfold isdigit in D; lia|exact F]. Qed.
Lemma strskp_len s : (List.length (strskp s) <= List.length s)%nat.
Proof. induction s as [|c s IH]; cbn [strskp]; [lia|]. destruct (isspace c); cbn [List.length]; lia. Qed.
Definition starts_plain (s : str) : Prop := match s with c :: _ => isspace c = false /\ c <> 43 /\ c <> 45 | [] => False end.
Lemma strtoul_used s : starts_plain s -> snd (strtoul s) = List.length s -> all_digits s.
Proof.
  destruct s as [|c s]; [contradiction|]. intros (S1 & S2 & S3). unfold strtoul. cbn [strskp]. rewrite S1. destruct (Z.eqb_spec c 45); [contradiction|]. destruct (Z.eqb_spec c 43); [contradiction|].
  destruct (digit_run_prefix (c :: s)) as (r & E & F). destruct (digit_run (c :: s)) as [|x l] eqn:D; [cbn; discriminate|]. cbn [snd]. intros L. rewrite Nat.sub_diag in L. rewrite E in L. rewrite app_length in L. destruct r; [|cbn [List.length] in L; lia]. rewrite app_nil_r in E. rewrite E. split; [discriminate|exact F].
Qed.
(** The meaning of one item: a number names the band with that index, anything
    else the first band with that description (a leading bang is dropped);
    unknown names select nothing. *)
Inductive means (d : dset) : str -> list Z -> Prop :=
  | m_empty : means d [] []
  | m_index s : all_digits s -> means d s [decimal s]
  | m_name c s i : ~ all_digits (c :: s) -> c <> 33 -> first_named d (c :: s) i -> means d (c :: s) [i]
  | m_bang s i : first_named d s i -> means d (33 :: s) [i]
  | m_unknown c s : ~ all_digits (c :: s) -> c <> 33 -> ~ In (c :: s) (names d) -> means d (c :: s) []
  | m_bang_unknown s : ~ In s (names d) -> means d (33 :: s) [].
Definition usable (s : str) : Prop := s = [] \/ (starts_plain s /\ (all_digits s -> decimal s < 2 ^ 31)).
Lemma decimal_nonneg s : Forall (fun c => 48 <= c <= 57) s -> 0 <= decimal s.
Proof. induction s as [|c s IH]; intros F; cbn [decimal]; [lia|]. inversion F; subst. specialize (IH H2). pose proof (Z.pow_nonneg 10 (Z.of_nat (List.length s)) ltac:(lia)). nia. Qed.
Theorem C96_items_partial d l : Forall usable l -> exists parts, Forall2 (means d) l parts /\ select_bands d l = List.concat parts.
Proof.
  induction 1 as [|s l U _ (parts & P & E)]; [exists []; split; [constructor|reflexivity]|]. exists (band_of d s :: parts). split; [|cbn [select_bands flat_map List.concat]; now f_equal]. constructor; [|exact P]. clear P E parts l.
  destruct U as [->|[SP B]]; [constructor|]. destruct s as [|c s]; [contradiction|]. unfold band_of. destruct (strtoul (c :: s)) as [idx used] eqn:ST. destruct (Nat.eqb_spec used (List.length (c :: s))) as [L|L].
  - assert (A : all_digits (c :: s)) by (apply strtoul_used; [exact SP|now rewrite ST]). rewrite strtoul_digits in ST by exact A. specialize (B A). pose proof (decimal_nonneg _ (proj2 A)) as NN. set (v := decimal (c :: s)) in *. replace (2 ^ 64 <=? v) with false in ST by (symmetry; apply Z.leb_gt; lia). injection ST as <- _. rewrite to_int_fits by (unfold int_fits; lia). now constructor.
  - assert (A : ~ all_digits (c :: s)) by (intros A; rewrite strtoul_digits in ST by exact A; injection ST as _ <-; contradiction).
    destruct (Z.eqb_spec c 33) as [->|NB].
    + destruct (rbindex_spec d s) as [[R R']|[R R']]; [rewrite R; now constructor|]. destruct (Z.eqb_spec (rbindex_by_name d s) 0); [contradiction|]. now constructor.
    + destruct (rbindex_spec d (c :: s)) as [[R R']|[R R']]; [rewrite R; now constructor|]. destruct (Z.eqb_spec (rbindex_by_name d (c :: s)) 0); [contradiction|]. now constructor.
Qed.
Print Assumptions C96_items_partial.
(** The indices of --band are reduced modulo 2^32: a number that is no band
    selects one. *)
Theorem C96_refuted_wrap d s : all_digits s -> 2 ^ 32 <= decimal s < 2 ^ 64 -> band_of d s = [to_int (decimal s mod 2 ^ 32)].
Proof.
  intros A B. unfold band_of. pose proof (strtoul_digits s A) as ST. destruct s as [|c s]; [destruct A; contradiction|]. rewrite ST. rewrite Nat.eqb_refl. replace (2 ^ 64 <=? decimal (c :: s)) with false by lia.
  f_equal. unfold to_int. f_equal. rewrite Zplus_mod_idemp_l. reflexivity.
Qed.
Print Assumptions C96_refuted_wrap.
(** Recognising the unchanged order. *)
Theorem C96_default_order d l : def_bands d l = true <-> List.length l = List.length (names d) /\ forall k, (k < List.length l)%nat -> nth k l 0 = Z.of_nat k + 1.
Proof.
  unfold def_bands. assert (L : List.length (first_bands (count d)) = List.length (names d)) by (unfold first_bands, count; rewrite map_length, seq_length; lia).
  assert (NT : forall k, (k < List.length (names d))%nat -> nth k (first_bands (count d)) 0 = Z.of_nat k + 1).
  { intros k K. unfold first_bands. rewrite (nth_indep _ 0 (Z.of_nat 0)) by (rewrite map_length, seq_length; unfold count; lia). rewrite map_nth, seq_nth by (unfold count; lia). lia. }
  destruct (list_eq_dec Z.eq_dec l (first_bands (count d))) as [->|NE]; split; try discriminate.
  - intros _. split; [exact L|]. intros k K. apply NT. lia.
  - reflexivity.
  - intros [A B]. exfalso. apply NE. apply (nth_ext _ _ 0 0); [lia|]. intros k K. rewrite B, NT by lia. reflexivity.
Qed.
Print Assumptions C96_default_order.
Definition three : dset := mk_dset 10 10 [codes "VIS006"; codes "2"; codes "IR_108"] None.
Example C96_case : select_bands three [codes "IR_108"; codes "1"; codes "!2"; codes "none"; codes "3"] = [3; 1; 2; 3] /\ Forall usable [codes "IR_108"; codes "1"; codes "!2"; codes "none"; codes "3"] /\
  band_of three (codes "4294967297") = [1] /\ band_of three (codes "-4294967295") = [1] /\ def_bands three [1; 2; 3] = true.
Proof.
  split; [vm_compute; reflexivity|]. split; [|repeat split; vm_compute; reflexivity]. repeat (apply Forall_cons; [right; split; [vm_compute; repeat split; discriminate|intros _; vm_compute; reflexivity]|]). apply Forall_nil.
Qed.

(** ** C97. Output names. *)
Lemma escape_clean s c : In c (escapeSpacesAndDots s) -> c <> 32 /\ c <> 46.
Proof. unfold escapeSpacesAndDots. rewrite in_map_iff. intros (x & <- & _). destruct ((x =? 32) || (x =? 46)) eqn:E; lia. Qed.
Lemma escape_len s : List.length (escapeSpacesAndDots s) = List.length s.
Proof. apply map_length. Qed.
Lemma format_time_clean s c : ~ In 46 s -> In c (format_time s) -> c <> 32 /\ c <> 46 /\ c <> 45 /\ c <> 58.
Proof.
  intros N H. unfold format_time in H. apply in_flat_map in H as (x & X & I). assert (XS : In x s) by (rewrite <- (firstn_skipn 16 s); apply in_or_app; now left).
  assert (x <> 46) by congruence. destruct ((x =? 45) || (x =? 58)) eqn:A; [contradiction|]. destruct (Z.eqb_spec x 32); destruct I as [<-|[]]; lia.
Qed.
(** No spaces or dots, whatever the metadata. *)
Theorem C97_clean ds rb c : (forall s, datetime ds = Some s -> ~ In 46 s) -> In c (output_file_name ds rb) -> c <> 32 /\ c <> 46.
Proof.
  intros D. unfold output_file_name. rewrite !in_app_iff. intros [H|[H|[H|[H|[H|H]]]]].
  - now apply escape_clean in H.
  - destruct H as [<-|[]]; lia.
  - now apply escape_clean in H.
  - destruct H as [<-|[]]; lia.
  - destruct rb as [b|]; [|contradiction]. rewrite !in_app_iff in H. destruct H as [H|[H|H]]; [|now apply escape_clean in H|destruct H as [<-|[]]; lia].
    destruct (escapeSpacesAndDots (codes (channelLevel _ _))) as [|x l] eqn:E; [contradiction|]. rewrite in_app_iff in H. destruct H as [H|[<-|[]]]; [|lia]. rewrite <- E in H. now apply escape_clean in H.
  - destruct (datetime ds) as [s|]; [|contradiction]. apply format_time_clean in H; [tauto|now apply D].
Qed.
Print Assumptions C97_clean.
(** A time as the drivers write it: YYYY-MM-DD HH:MM:SS. *)
Inductive iso : str -> str -> Prop :=
  iso_intro y1 y2 y3 y4 m1 m2 d1 d2 h1 h2 n1 n2 s1 s2 : Forall (fun c => 48 <= c <= 57) [y1; y2; y3; y4; m1; m2; d1; d2; h1; h2; n1; n2; s1; s2] ->
  iso [y1; y2; y3; y4; 45; m1; m2; 45; d1; d2; 32; h1; h2; 58; n1; n2; 58; s1; s2] [y1; y2; y3; y4; m1; m2; d1; d2; 95; h1; h2; n1; n2].
Lemma format_iso s f : iso s f -> format_time s = f.
Proof.
  intros [y1 y2 y3 y4 m1 m2 d1 d2 h1 h2 n1 n2 s1 s2 F]. unfold format_time. cbn [firstn flat_map app]. repeat match goal with H : Forall _ (_ :: _) |- _ => inversion H; subst; clear H end.
  repeat match goal with |- context [(?c =? 45) || (?c =? 58)] => is_var c; replace ((c =? 45) || (c =? 58)) with false by lia; replace (c =? 32) with false by lia end. reflexivity.
Qed.
(** The name ends with the compact time, and images of different minutes have
    different names. *)
Theorem C97_time ds rb s f : datetime ds = Some s -> iso s f -> exists p, output_file_name ds rb = p ++ f.
Proof.
  intros D I. unfold output_file_name. rewrite D, (format_iso s f I). eexists. rewrite !app_assoc. reflexivity.
Qed.
Print Assumptions C97_time.
Theorem C97_distinct a b rb s1 f1 s2 f2 : datetime a = Some s1 -> datetime b = Some s2 -> iso s1 f1 -> iso s2 f2 -> firstn 16 s1 <> firstn 16 s2 -> output_file_name a rb <> output_file_name b rb.
Proof.
  intros D1 D2 I1 I2 N E. apply N. clear N. assert (F : f1 = f2).
  { destruct (C97_time a rb s1 f1 D1 I1) as (p & P). destruct (C97_time b rb s2 f2 D2 I2) as (q & Q). rewrite P, Q in E. assert (L : List.length f1 = List.length f2) by (destruct I1, I2; reflexivity).
    assert (LP : List.length p = List.length q) by (apply (f_equal (@List.length Z)) in E; rewrite !app_length in E; lia). apply (f_equal (skipn (List.length p))) in E. rewrite skipn_app_exact in E by reflexivity. rewrite skipn_app_exact in E by lia. exact E. }
  destruct I1, I2. cbn [firstn]. injection F as -> -> -> -> -> -> -> -> -> -> -> ->. reflexivity.
Qed.
Print Assumptions C97_distinct.
Definition md : metadata := mk_metadata (Some (codes "55")) (Some (codes "MSG1")) (Some (codes "2007-11-01 12:15:00")).
Example C97_case : output_file_name md (Some (mk_band_metadata (Some (codes "9")) (Some (codes "IR 10.8")))) = codes "MSG1_Seviri_1_5_IR_10_8_20071101_1215" /\ iso (codes "2007-11-01 12:15:00") (codes "20071101_1215").
Proof. split; [vm_compute; reflexivity|]. apply (iso_intro 50 48 48 55 49 49 48 49 49 50 49 53 48 48). repeat constructor; vm_compute; discriminate. Qed.
