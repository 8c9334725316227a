(** C194 the options of msat, C195 --around, C196 --copymd. *)
From Verif Require Import Base BaseFacts IniModel IniProofs GeoModel FactsModel ToolModel GeoProps ToolProps ToolRunProps MsatCmdModel.
From Coq Require Import QArith Qround Qabs Lqa.
Open Scope list_scope.
Open Scope Z_scope.

(** ** C194 *)
(** A number as a user writes it. *)
Definition space (c : Z) : Prop := 9 <= c <= 13 \/ c = 32.
Definition numeral (s : str) (v : Z) : Prop := exists ws sign ds, s = ws ++ sign ++ ds /\ Forall space ws /\ all_digits ds /\
  ((sign = [] \/ sign = [43]) /\ v = decimal ds \/ sign = [45] /\ v = - decimal ds).
Definition nodigit (r : str) : Prop := match r with c :: _ => ~ 48 <= c <= 57 | [] => True end.
Definition int_value (v : Z) : Prop := - 2 ^ 31 <= v < 2 ^ 31.
Lemma strskp_split s : exists ws, s = ws ++ strskp s /\ Forall space ws.
Proof. induction s as [|c s (ws & E & F)]; cbn [strskp]; [exists []; auto|]. destruct (isspace c) eqn:S; [|exists []; auto]. exists (c :: ws). split; [cbn; now rewrite <- E|]. constructor; [unfold isspace in S; unfold space; lia|exact F]. Qed.
Lemma strskp_app ws s : Forall space ws -> match s with c :: _ => ~ space c | [] => True end -> strskp (ws ++ s) = s.
Proof.
  induction 1 as [|c ws C _ IH]; intros H; cbn [app strskp].
  - destruct s as [|c s]; [reflexivity|]. cbn [strskp]. replace (isspace c) with false; [reflexivity|]. unfold isspace, space in *. lia.
  - replace (isspace c) with true by (unfold isspace, space in *; lia). now apply IH.
Qed.
Lemma digit_run_app ds r : Forall (fun c => 48 <= c <= 57) ds -> nodigit r -> digit_run (ds ++ r) = ds.
Proof.
  induction 1 as [|c ds C _ IH]; intros N; cbn [app digit_run].
  - destruct r as [|c r]; [reflexivity|]. cbn [digit_run]. unfold isdigit. cbn in N. now replace ((48 <=? c) && (c <=? 57)) with false by lia.
  - unfold isdigit. replace ((48 <=? c) && (c <=? 57)) with true by lia. now rewrite IH.
Qed.
Lemma digit_run_rest s : nodigit (skipn (List.length (digit_run s)) s).
Proof. induction s as [|c s IH]; cbn [digit_run]; [exact I|]. destruct (isdigit c) eqn:D; [exact IH|]. cbn. unfold isdigit in D. lia. Qed.
Lemma skipn_run s : s = digit_run s ++ skipn (List.length (digit_run s)) s.
Proof. induction s as [|c s IH]; cbn [digit_run]; [reflexivity|]. destruct (isdigit c); [|reflexivity]. cbn. now rewrite <- IH. Qed.
Lemma int_fits_iff v : int_fits v = true <-> int_value v.
Proof. unfold int_fits, int_value. lia. Qed.
Lemma scan_d_spec s v r : scan_d s = Ok (Some (v, r)) <-> exists t, s = t ++ r /\ numeral t v /\ nodigit r /\ int_value v.
Proof.
  split.
  - unfold scan_d. destruct (strskp_split s) as (ws & E & F). remember (strskp s) as u eqn:U. clear U.
    assert (G : forall neg sign r', u = sign ++ r' -> (neg = false /\ (sign = [] \/ sign = [43]) \/ neg = true /\ sign = [45]) ->
      match digit_run r' with [] => Ok None | ds => let w := if neg : bool then - digits 0 ds else digits 0 ds in if int_fits w then Ok (Some (w, skipn (List.length ds) r')) else UB end = Ok (Some (v, r)) ->
      exists t, s = t ++ r /\ numeral t v /\ nodigit r /\ int_value v).
    { intros neg sign r' EU SG. pose proof (skipn_run r') as SR. pose proof (digit_run_rest r') as DR. destruct (digit_run_prefix r') as (_ & _ & FD). destruct (digit_run r') as [|d ds] eqn:D; [discriminate|]. cbv zeta. remember (if neg then - digits 0 (d :: ds) else digits 0 (d :: ds)) as x eqn:HV. symmetry in HV.
      destruct (int_fits x) eqn:FI; [|discriminate]. intros H. apply Ok_inj, Some_inj in H. injection H as -> HR. exists (ws ++ sign ++ d :: ds). subst r. split; [rewrite E, EU; rewrite SR at 1; now rewrite <- !app_assoc|].
      split; [|split; [exact DR|now apply int_fits_iff]]. exists ws, sign, (d :: ds). split; [reflexivity|]. split; [exact F|]. split; [split; [discriminate|exact FD]|].
      rewrite digits_app in HV by exact FD. rewrite Z.mul_0_l, Z.add_0_l in HV. destruct SG as [(-> & SG)|(-> & SG)]; [left|right]; now split. }
    destruct u as [|c u]; [intros H; cbn in H; discriminate|]. destruct (Z.eqb_spec c 45) as [->|]; [apply (G true [45] u); auto|]. destruct (Z.eqb_spec c 43) as [->|]; [apply (G false [43] u); auto|]. apply (G false [] (c :: u)); auto.
  - intros (t & -> & (ws & sign & ds & -> & W & (N & D) & V) & ND & I). unfold scan_d. rewrite <- !app_assoc. rewrite strskp_app; [|exact W|].
    2: { destruct ds as [|d ds]; [contradiction|]. inversion D; subst. destruct V as [([->| ->] & _)|(-> & _)]; cbn; unfold space; lia. }
    pose proof (digit_run_app ds r D ND) as R. assert (L : skipn (List.length ds) (ds ++ r) = r) by (rewrite skipn_app, skipn_all, Nat.sub_diag; reflexivity). assert (DV : digits 0 ds = decimal ds) by (rewrite digits_app by exact D; lia).
    assert (C : match ds with c :: _ => 48 <= c <= 57 | [] => False end) by (destruct ds; [contradiction|now inversion D]).
    destruct V as [([->| ->] & V)|(-> & V)]; cbn [app].
    + destruct ds as [|d ds]; [contradiction|]. change ((d :: ds) ++ r) with (d :: (ds ++ r)) in *. cbv iota beta. destruct (Z.eqb_spec d 45); [lia|]. destruct (Z.eqb_spec d 43); [lia|]. cbv iota beta. rewrite R. cbv zeta. rewrite DV, <- V. apply int_fits_iff in I. rewrite I. now rewrite L.
    + cbn [Z.eqb Pos.eqb]. rewrite R. destruct ds as [|d ds]; [contradiction|]. cbv zeta. rewrite DV, <- V. apply int_fits_iff in I. rewrite I. now rewrite L.
    + cbn [Z.eqb Pos.eqb]. rewrite R. destruct ds as [|d ds]; [contradiction|]. cbv zeta. rewrite DV, <- V. apply int_fits_iff in I. rewrite I. now rewrite L.
Qed.
Lemma comma_spec s r : comma s = Some r <-> s = 44 :: r.
Proof. unfold comma. destruct s as [|c s]; [split; discriminate|]. destruct (Z.eqb_spec c 44) as [->|N]; split; intros H; try discriminate; [apply Some_inj in H; now subst|now injection H as ->|injection H as H _; contradiction]. Qed.
Lemma scan_more_spec x v r : scan_more x = Ok (Some (v, r)) <-> exists u s, x = Some (u, 44 :: s) /\ scan_d s = Ok (Some (v, r)).
Proof.
  unfold scan_more. split.
  - destruct x as [(u, s)|]; [|discriminate]. destruct (comma s) as [s'|] eqn:C; [|discriminate]. apply comma_spec in C as ->. intros H. now exists u, s'.
  - intros (u & s & -> & H). cbn [comma Z.eqb Pos.eqb]. exact H.
Qed.
Lemma some_pair {A B} (x : option (A * B)) : x <> None -> exists v r, x = Some (v, r).
Proof. destruct x as [(v, r)|]; [eauto|congruence]. Qed.
(** --area sets the window given as left, width, top, height. *)
Theorem C194_area s w : area s = Ok (Some w) <-> exists a b c d r, s = a ++ [44] ++ b ++ [44] ++ c ++ [44] ++ d ++ r /\
  numeral a (rx w) /\ numeral b (rw w) /\ numeral c (ry w) /\ numeral d (rh w) /\ nodigit r /\ int_value (rx w) /\ int_value (rw w) /\ int_value (ry w) /\ int_value (rh w).
Proof.
  unfold area. split.
  - destruct (scan_d s) as [a| | | |] eqn:A; try discriminate. cbn [bind]. destruct (scan_more a) as [b| | | |] eqn:B; try discriminate. cbn [bind]. destruct (scan_more b) as [c| | | |] eqn:C; try discriminate. cbn [bind]. destruct (scan_more c) as [d| | | |] eqn:D; try discriminate. cbn [bind].
    intros H. destruct d as [(vd, rd)|]; [|discriminate]. apply Ok_inj, Some_inj in H. subst w.
    apply scan_more_spec in D as (vc & sc & -> & D). apply scan_more_spec in C as (vb & sb & -> & C). apply scan_more_spec in B as (va & sa & -> & B).
    apply scan_d_spec in A as (ta & -> & A1 & A2 & A3). apply scan_d_spec in B as (tb & -> & B1 & B2 & B3). apply scan_d_spec in C as (tc & -> & C1 & C2 & C3). apply scan_d_spec in D as (te & -> & D1 & D2 & D3).
    exists ta, tb, tc, te, rd. cbn [val rx ry rw rh]. split; [reflexivity|]. tauto.
  - intros (a & b & c & d & r & -> & A & B & C & D & R & I1 & I2 & I3 & I4).
    assert (SA : scan_d (a ++ [44] ++ b ++ [44] ++ c ++ [44] ++ d ++ r) = Ok (Some (rx w, [44] ++ b ++ [44] ++ c ++ [44] ++ d ++ r))) by (apply scan_d_spec; exists a; split; [reflexivity|]; split; [assumption|]; split; [cbn; lia|assumption]).
    rewrite SA. cbn [bind scan_more app comma Z.eqb Pos.eqb].
    assert (SB : scan_d (b ++ 44 :: c ++ 44 :: d ++ r) = Ok (Some (rw w, 44 :: c ++ 44 :: d ++ r))) by (apply scan_d_spec; exists b; split; [reflexivity|]; split; [assumption|]; split; [cbn; lia|assumption]).
    rewrite SB. cbn [bind scan_more comma Z.eqb Pos.eqb].
    assert (SC : scan_d (c ++ 44 :: d ++ r) = Ok (Some (ry w, 44 :: d ++ r))) by (apply scan_d_spec; exists c; split; [reflexivity|]; split; [assumption|]; split; [cbn; lia|assumption]).
    rewrite SC. cbn [bind scan_more comma Z.eqb Pos.eqb].
    assert (SD : scan_d (d ++ r) = Ok (Some (rh w, r))) by (apply scan_d_spec; exists d; split; [reflexivity|]; auto).
    rewrite SD. cbn [bind val]. now destruct w.
Qed.
Print Assumptions C194_area.
(** What follows the fourth number is ignored. *)
Theorem C194_refuted_rest s w x : area s = Ok (Some w) -> nodigit x -> area (s ++ x) = Ok (Some w).
Proof.
  intros H X. apply C194_area in H as (a & b & c & d & r & -> & A & B & C & D & R & I). apply C194_area. exists a, b, c, d, (r ++ x). split; [now rewrite <- !app_assoc|]. split; [exact A|]. split; [exact B|]. split; [exact C|]. split; [exact D|]. split; [destruct r; [exact X|exact R]|exact I].
Qed.
Print Assumptions C194_refuted_rest.

Section Options.
Variable strtod : str -> option (Q * str).
(** The last option that says something about [f]. *)
Fixpoint latest {A} (f : arg -> option A) (l : list arg) (dflt : A) : A :=
  match l with [] => dflt | a :: l' => latest f l' (match f a with Some x => x | None => dflt end) end.
Definition says_action (a : arg) : option action :=
  match a with View => Some VIEW | ViewMore => Some VIEWMORE | Conv _ => Some CONVERT | Jpg => Some JPG | Png => Some PNG | Display => Some DISPLAY | _ => None end.
Definition says_driver (a : arg) : option str := match a with Conv s => Some s | _ => None end.
Definition says_template (a : arg) : option str := match a with CopyMd s => Some s | _ => None end.
Definition says_win (a : arg) : option rect := match a with AreaPx s => match area s with Ok w => w | _ => None end | _ => None end.
Definition says_geo (a : arg) : option quad := match a with AreaGeo s => scan_lf4 strtod s | _ => None end.
Definition says_proj (a : arg) : option quad := match a with Around s => match scan_lf4 strtod s with Some (lat, lon, h, w) => Some (lon - w / 2, lat + h / 2, lon + w / 2, lat - h / 2)%Q | None => None end | _ => None end.
Definition says_size (a : arg) : option (option (str * str)) := match a with Resize s => match split_at 44 s with Some p => Some (Some p) | None => None end | _ => None end.
Definition says_band (a : arg) : list str := match a with Band s => [s] | _ => [] end.
Definition sizes (a : arg) : bool := match a with AreaPx _ | AreaGeo _ | Around _ | Resize _ => true | _ => false end.
Definition draws (a : arg) : bool := match a with Jpg | Png | Display => true | _ => false end.
(** Options that can be obeyed. *)
Definition fine (a : arg) : Prop :=
  match a with
  | Help | Version | Wrong => False
  | AreaPx s => exists w, area s = Ok (Some w)
  | AreaGeo s | Around s => scan_lf4 strtod s <> None
  | Resize s => In 44 s
  | _ => True
  end.
Lemma split_at_in c s : split_at c s <> None <-> In c s.
Proof.
  induction s as [|x s IH]; cbn; [split; [congruence|contradiction]|]. destruct (Z.eqb_spec x c) as [->|N]; [split; [now left|discriminate]|]. split.
  - intros H. right. apply IH. intros E. rewrite E in H. congruence.
  - intros [H|H]; [contradiction|]. apply IH in H. destruct (split_at c s) as [(p, q)|]; congruence.
Qed.
Lemma split_at_spec c s a b : split_at c s = Some (a, b) -> s = a ++ c :: b /\ ~ In c a.
Proof.
  revert a. induction s as [|x s IH]; intros a H; cbn in H; [discriminate|]. destruct (Z.eqb_spec x c) as [->|N]; [injection H as <- <-; split; [reflexivity|intros []]|]. destruct (split_at c s) as [(p, q)|]; [|discriminate]. injection H as <- <-. destruct (IH p eq_refl) as (-> & NI). split; [reflexivity|]. intros [E|E]; contradiction.
Qed.
Definition matches (m : cmd) (l : list arg) (m0 : cmd) : Prop :=
  c_action m = latest says_action l (c_action m0) /\ c_driver m = latest says_driver l (c_driver m0) /\ c_template m = latest says_template l (c_template m0) /\
  c_win m = latest says_win l (c_win m0) /\ c_proj m = latest says_proj l (c_proj m0) /\ c_geo m = latest says_geo l (c_geo m0) /\ c_size m = latest says_size l (c_size m0) /\
  c_bands m = c_bands m0 ++ flat_map says_band l /\ c_has_size m = (c_has_size m0 || existsb sizes l) /\ c_is_image m = (c_is_image m0 || existsb draws l).
Lemma one_fine m a : fine a -> exists m', one strtod m a = Ok (inl m') /\ matches m' [a] m.
Proof.
  destruct m as [ac q dr te wi pr si ge ba fo st hs im]. unfold matches. destruct a as [| | | | |s|s|s|s|s|s|s| |s| | | |]; cbn [fine]; intros F; try contradiction; cbn [one].
  all: try (eexists; split; [reflexivity|]; cbn; rewrite ?orb_false_r, ?orb_true_r, ?app_nil_r; repeat split; reflexivity).
  - destruct F as (w & F). rewrite F. cbn [bind]. eexists. split; [reflexivity|]. cbn. rewrite F, ?orb_false_r, ?orb_true_r, ?app_nil_r. repeat split; reflexivity.
  - destruct (scan_lf4 strtod s) as [g|] eqn:E; [|congruence]. eexists. split; [reflexivity|]. cbn. rewrite E, ?orb_false_r, ?orb_true_r, ?app_nil_r. repeat split; reflexivity.
  - destruct (scan_lf4 strtod s) as [[[[lat lon] h] w]|] eqn:E; [|congruence]. eexists. split; [reflexivity|]. cbn. rewrite E, ?orb_false_r, ?orb_true_r, ?app_nil_r. repeat split; reflexivity.
  - apply split_at_in in F. destruct (split_at 44 s) as [p|] eqn:E; [|congruence]. eexists. split; [reflexivity|]. cbn. rewrite E, ?orb_false_r, ?orb_true_r, ?app_nil_r. repeat split; reflexivity.
Qed.
Lemma all_fine l : Forall fine l -> forall m, exists m', all strtod m l = Ok (inl m') /\ matches m' l m.
Proof.
  induction 1 as [|a l A _ IH]; intros m; [exists m; split; [reflexivity|]; unfold matches; cbn; rewrite ?app_nil_r, ?orb_false_r; repeat split|].
  destruct (one_fine m a A) as (m1 & E & M). destruct (IH m1) as (m2 & E2 & M2). exists m2. cbn [all]. rewrite E. cbn [bind]. split; [exact E2|].
  unfold matches in *. cbn [latest flat_map existsb] in *. destruct M as (A1 & A2 & A3 & A4 & A5 & A6 & A7 & A8 & A9 & A10). destruct M2 as (B1 & B2 & B3 & B4 & B5 & B6 & B7 & B8 & B9 & B10).
  rewrite B1, B2, B3, B4, B5, B6, B7, B8, B9, B10, A1, A2, A3, A4, A5, A6, A7, A8, A9, A10. rewrite ?app_nil_r, ?orb_false_r, <- ?app_assoc, <- ?orb_assoc. repeat split; reflexivity.
Qed.
(** Every option has its effect and the last one of each kind counts. *)
Theorem C194_options_partial l n : Forall fine l -> (0 < n)%nat -> exists m cap, parse_cmdline strtod l n = Ok (inl (m, cap)) /\ matches m l cmd0 /\ (cap = 0 \/ cap = 1280) /\
  (cap = 1280 <-> (exists a, In a l /\ draws a = true) /\ forall a, In a l -> sizes a = false).
Proof.
  intros F N. destruct (all_fine l F cmd0) as (m & E & M). unfold parse_cmdline. rewrite E. cbn [bind]. destruct (Nat.eqb_spec n 0); [lia|]. exists m. eexists. split; [reflexivity|]. split; [exact M|]. destruct M as (_ & _ & _ & _ & _ & _ & _ & _ & HS & HI). cbn [cmd0 c_has_size c_is_image orb] in HS, HI. rewrite HS, HI.
  split; [destruct (_ && _); auto|]. rewrite <- existsb_exists. destruct (existsb draws l); cbn [andb].
  - destruct (existsb sizes l) eqn:S; cbn [negb].
    + split; [discriminate|]. intros (_ & H). apply existsb_exists in S as (a & I & J). rewrite (H a I) in J. discriminate.
    + split; [|reflexivity]. intros _. split; [reflexivity|]. intros a I. destruct (sizes a) eqn:J; [|reflexivity]. assert (existsb sizes l = true) by (apply existsb_exists; eauto). congruence.
  - split; [discriminate|]. intros (H & _). discriminate.
Qed.
(** Without files the usage is shown. *)
Theorem C194_no_files l : Forall fine l -> parse_cmdline strtod l 0 = Ok (inr 1).
Proof. intros F. destruct (all_fine l F cmd0) as (m & E & _). unfold parse_cmdline. rewrite E. reflexivity. Qed.
(** The first option that cannot be obeyed ends the program. *)
Theorem C194_refusals l1 a l2 n : Forall fine l1 -> ~ fine a -> parse_cmdline strtod (l1 ++ a :: l2) n = Ok (inr (match a with Help | Version => 0 | _ => 1 end)) \/ (exists s, a = AreaPx s /\ area s = UB /\ parse_cmdline strtod (l1 ++ a :: l2) n = UB).
Proof.
  intros F NF. destruct (all_fine l1 F cmd0) as (m & E & _). assert (AP : forall m, all strtod m (l1 ++ a :: l2) = let! r := all strtod m l1 in match r with inl m' => all strtod m' (a :: l2) | inr e => Ok (inr e) end).
  { clear. induction l1 as [|b l1 IH]; intros m; [reflexivity|]. cbn [app all]. destruct (one strtod m b) as [[m'|e]| | | |]; cbn [bind]; try reflexivity. apply IH. }
  unfold parse_cmdline. rewrite AP, E. cbn [bind all]. destruct m as [ac q dr te wi pr si ge ba fo st hs im].
  destruct a as [| | | | |s|s|s|s|s|s|s| |s| | | |]; cbn [fine] in NF; try (exfalso; now apply NF); cbn [one bind]; try (left; reflexivity).
  - assert (U : area s = UB \/ area s = Ok None \/ exists w, area s = Ok (Some w)).
    { unfold area. assert (D : forall x, (exists y, scan_d x = Ok y) \/ scan_d x = UB). { intros x. unfold scan_d. destruct (match strskp x with [] => (false, []) | c :: r' => if c =? 45 then (true, r') else if c =? 43 then (false, r') else (false, strskp x) end) as (ng, r'). destruct (digit_run r'); [eauto|]. cbv zeta. destruct (int_fits _); eauto. }
      assert (DM : forall x, (exists y, scan_more x = Ok y) \/ scan_more x = UB) by (intros x; unfold scan_more; destruct x as [(u, r)|]; [destruct (comma r); [apply D|eauto]|eauto]).
      destruct (D s) as [(x1 & ->)| ->]; cbn [bind]; [|auto]. destruct (DM x1) as [(x2 & ->)| ->]; cbn [bind]; [|auto]. destruct (DM x2) as [(x3 & ->)| ->]; cbn [bind]; [|auto]. destruct (DM x3) as [(x4 & ->)| ->]; cbn [bind]; [|auto]. destruct x4; eauto. }
    destruct U as [U|[U|U]]; [right; exists s; rewrite U; auto|left; now rewrite U|contradiction].
  - left. destruct (scan_lf4 strtod s); [exfalso; apply NF; discriminate|reflexivity].
  - left. destruct (scan_lf4 strtod s); [exfalso; apply NF; discriminate|reflexivity].
  - left. rewrite <- split_at_in in NF. destruct (split_at 44 s); [exfalso; apply NF; discriminate|reflexivity].
Qed.
(** A conversion is made smaller too when an option for drawing came before. *)
Theorem C194_refuted_cap l1 a l2 s n : Forall fine (l1 ++ a :: l2) -> draws a = true -> (forall b, In b (l1 ++ a :: l2) -> sizes b = false) -> (0 < n)%nat ->
  exists m, parse_cmdline strtod (l1 ++ a :: l2 ++ [Conv s]) n = Ok (inl (m, 1280)) /\ c_action m = CONVERT.
Proof.
  intros F D S N. assert (F' : Forall fine (l1 ++ a :: l2 ++ [Conv s])). { change (a :: l2 ++ [Conv s]) with ((a :: l2) ++ [Conv s]). rewrite app_assoc. apply Forall_app. split; [exact F|]. repeat constructor. }
  destruct (C194_options_partial _ n F' N) as (m & cap & E & (A & _) & _ & C). exists m. assert (cap = 1280).
  { apply C. split; [exists a; split; [apply in_or_app; right; now left|exact D]|]. intros b I. change (a :: l2 ++ [Conv s]) with ((a :: l2) ++ [Conv s]) in I. rewrite app_assoc in I. apply in_app_or in I as [I|[<-|[]]]; [now apply S|reflexivity]. }
  subst cap. split; [exact E|]. rewrite A. change (a :: l2 ++ [Conv s]) with ((a :: l2) ++ [Conv s]). rewrite app_assoc. clear. generalize (l1 ++ a :: l2) as l, (c_action cmd0) as x. induction l as [|b l IH]; intros x; [reflexivity|]. cbn [app latest]. apply IH.
Qed.
(** --resize with a missing number is accepted and then reads before the text. *)
Theorem C194_refuted_resize l s n corners cap : Forall fine l -> (exists x, s = x ++ [44] /\ ~ In 44 x) \/ (exists x, s = 44 :: x) -> (0 < n)%nat ->
  exists m, parse_cmdline strtod (l ++ [Resize s]) n = Ok (inl (m, 0)) /\ start strtod corners m cap = UB.
Proof.
  intros F S N. assert (I : In 44 s) by (destruct S as [(x & -> & _)|(x & ->)]; [apply in_or_app; right; now left|now left]). assert (F' : Forall fine (l ++ [Resize s])) by (apply Forall_app; split; [exact F|repeat constructor; exact I]).
  destruct (C194_options_partial _ n F' N) as (m & c & E & M & _ & C). exists m. assert (Z : c = 0).
  { destruct (Z.eq_dec c 1280) as [->|NE]; [|destruct (C194_options_partial _ n F' N) as (m' & c' & E' & _ & [-> | ->] & _); rewrite E' in E; apply Ok_inj in E; injection E; congruence]. destruct C as (C & _). destruct (C eq_refl) as (_ & X). specialize (X (Resize s)). exfalso. assert (sizes (Resize s) = false) by (apply X, in_or_app; right; now left). discriminate. }
  subst c. split; [exact E|]. destruct M as (_ & _ & _ & _ & _ & _ & SZ & _). assert (LS : forall l x, latest says_size (l ++ [Resize s]) x = match split_at 44 s with Some p => Some p | None => latest says_size l x end). { clear. induction l as [|b l IH]; intros x; [cbn; destruct (split_at 44 s); reflexivity|]. cbn [app latest]. apply IH. }
  rewrite LS in SZ. apply split_at_in in I. destruct (split_at 44 s) as [(x, y)|] eqn:SP; [|congruence]. destruct (split_at_spec _ _ _ _ SP) as (ES & NI). unfold start, out_size. rewrite SZ. destruct S as [(x' & -> & NX)|(x' & ->)].
  - assert (x = x' /\ y = []) as (-> & ->). { clear -ES NI NX. revert x ES NI. induction x' as [|a x' IH]; intros x ES NI; [destruct x as [|b x]; [cbn in ES; injection ES as <-; auto|cbn in ES; injection ES as <- ES; exfalso; apply NI; now left]|]. destruct x as [|b x]; [cbn in ES; injection ES as -> _; exfalso; apply NX; now left|]. cbn in ES. injection ES as -> ES. destruct (IH ltac:(intros H; apply NX; now right) x ES ltac:(intros H; apply NI; now right)) as (-> & ->). auto. }
    assert (A : atoi x' = UB \/ exists v, atoi x' = Ok v) by (unfold atoi; cbv zeta; destruct (_ && _); eauto).
    unfold size_of at 1. destruct (rev x') as [|c r]; [reflexivity|]. destruct (c =? 37); [reflexivity|]. destruct A as [A|(v & A)]; rewrite A; reflexivity.
  - destruct x as [|b x]; [reflexivity|]. cbn in ES. injection ES as <- _. exfalso. apply NI. now left.
Qed.
End Options.
Print Assumptions C194_no_files.
Print Assumptions C194_options_partial.
Print Assumptions C194_refusals.
Print Assumptions C194_refuted_cap.
Print Assumptions C194_refuted_resize.

(** From the command line to the result: the pixels asked for with --area are those of the
    result. *)
Theorem C194_area_result strtod corners s w d : area s = Ok (Some w) -> 0 < count d -> inside_raster w d -> int_value (rx w + rw w) -> int_value (ry w + rh w) ->
  exists m o t r t', parse_cmdline strtod [AreaPx s] 1 = Ok (inl (m, 0)) /\ start strtod corners m 0 = Ok (o, t) /\ step o t d = Ok (Result r, t') /\
  (r = Itself /\ w = mk_rect 0 0 (xs d) (ys d) \/ exists v, r = Virtual v /\ v_win v = w /\ v_xs v = rw w /\ v_ys v = rh w /\ v_bands v = first_bands (count d)).
Proof.
  intros A C I X Y. unfold parse_cmdline. cbn [all one cmd0]. rewrite A. cbn [bind]. eexists. eexists. eexists. unfold start. cbn [c_size c_geo c_bands c_win c_proj out_size bind]. change (proj_given (0, 0, 0, 0)%Q) with false. cbn iota.
  set (t := mk_trans [] true w (0, 0, 0, 0)%Q None). pose proof I as (I1 & I2 & I3 & I4 & _). destruct (C93_requested_partial t d) as (G & _); try reflexivity; try assumption; [cbn; lia|now apply int_fits_iff|now apply int_fits_iff|]. destruct (G I) as (r & t' & E & R).
  exists r, t'. split; [reflexivity|]. split; [reflexivity|]. split; [|exact R]. unfold step. cbn [o_bands o_area bind c_bands c_geo c_win c_proj]. change (proj_given (0, 0, 0, 0)%Q) with false. cbn [bind]. fold t. assert (SC : forall o, o_maxx o = 0 -> o_maxy o = 0 -> scale_if_needed o t d = t) by (intros o OX OY; unfold scale_if_needed, scaled_size; rewrite OX, OY; cbn; now rewrite !Z.eqb_refl). rewrite SC by reflexivity. rewrite E. cbn [bind fst snd]. destruct R as [(-> & _)|(v & -> & _)]; reflexivity.
Qed.
Print Assumptions C194_area_result.
Definition no_double (s : str) : option (Q * str) := None.
Example C194_case : (exists m, parse_cmdline no_double [Png; Band (codes "3"); AreaPx (codes "10, 20,-5,+7 x"); Band (codes "HRV"); Resize (codes "50%,30")] 2 = Ok (inl (m, 0)) /\
    c_action m = PNG /\ c_win m = mk_rect 10 (-5) 20 7 /\ c_bands m = [codes "3"; codes "HRV"] /\ c_size m = Some (codes "50%", codes "30")) /\
  parse_cmdline no_double [AreaPx (codes "10,20,30")] 1 = Ok (inr 1) /\ parse_cmdline no_double [View] 0 = Ok (inr 1) /\
  (exists m, parse_cmdline no_double [Jpg; Conv (codes "GTiff")] 1 = Ok (inl (m, 1280)) /\ c_action m = CONVERT) /\
  (exists m, parse_cmdline no_double [Resize (codes "50%,")] 1 = Ok (inl (m, 0)) /\ start no_double (fun _ _ => []) m 0 = UB).
Proof. repeat split; try (eexists; repeat split); reflexivity. Qed.

(** ** C195 *)
Lemma Qtrunc_error q : (0 <= q)%Q -> (inject_Z (Qtrunc q) <= q)%Q /\ (q < inject_Z (Qtrunc q) + 1)%Q.
Proof.
  intros H. unfold Qtrunc. replace (Qle_bool 0 q) with true by (symmetry; now apply Qle_bool_iff). split; [apply Qfloor_le|]. pose proof (Qlt_floor q) as L. rewrite inject_Z_plus in L. exact L.
Qed.
Lemma cast_int_ok q z : cast_int q = Ok z -> z = Qtrunc q.
Proof. unfold cast_int. destruct (int_fits _); [|discriminate]. intros H. now apply Ok_inj in H. Qed.
(** --around asks for the rectangle of the given width and height with the given centre. *)
Theorem C195_centre strtod m s lat lon h w : scan_lf4 strtod s = Some (lat, lon, h, w) -> exists m' ulx uly lrx lry, one strtod m (Around s) = Ok (inl m') /\ c_proj m' = (ulx, uly, lrx, lry) /\
  ((ulx + lrx) / 2 == lon /\ (uly + lry) / 2 == lat /\ lrx - ulx == w /\ uly - lry == h)%Q.
Proof.
  intros E. destruct m as [ac q dr te wi pr si ge ba fo st hs im]. cbn [one]. rewrite E. eexists. eexists. eexists. eexists. eexists. split; [reflexivity|]. split; [reflexivity|]. repeat split; field.
Qed.
Print Assumptions C195_centre.
(** On an image whose projected coordinates are longitude and latitude the window found is the
    one asked for to within a pixel. *)
Theorem C195_window_partial ulx uly lrx lry g x y w h : (0 < g1 g)%Q -> (g5 g < 0)%Q -> (g0 g <= ulx <= lrx)%Q -> (lry <= uly <= g3 g)%Q -> proj_window (ulx, uly, lrx, lry) g = Ok (mk_rect x y w h) ->
  0 <= x /\ 0 <= y /\ (Qabs (g0 g + inject_Z x * g1 g - ulx) <= g1 g)%Q /\ (Qabs (g3 g + inject_Z y * g5 g - uly) <= - g5 g)%Q /\
  (Qabs (inject_Z w * g1 g - (lrx - ulx)) <= (1 # 2) * g1 g)%Q /\ (Qabs (inject_Z h * g5 g - (lry - uly)) <= (1 # 2) * - g5 g)%Q.
Proof.
  intros G1 G5 (X1 & X2) (Y1 & Y2) H. unfold proj_window in H. destruct (_ || _); [discriminate|].
  destruct (cast_int ((ulx - g0 g) / g1 g + (1 # 1000))) as [x'| | | |] eqn:EX; try discriminate. cbn [bind] in H. destruct (cast_int ((uly - g3 g) / g5 g + (1 # 1000))) as [y'| | | |] eqn:EY; try discriminate. cbn [bind] in H.
  destruct (cast_int ((lrx - ulx) / g1 g + (1 # 2))) as [w'| | | |] eqn:EW; try discriminate. cbn [bind] in H. destruct (cast_int ((lry - uly) / g5 g + (1 # 2))) as [h'| | | |] eqn:EH; try discriminate. cbn [bind] in H.
  apply Ok_inj in H. injection H as -> -> -> ->. apply cast_int_ok in EX, EY, EW, EH.
  assert (N1 : ~ (g1 g == 0)%Q) by lra. assert (N5 : ~ (g5 g == 0)%Q) by lra.
  assert (P : forall a b, (0 <= a)%Q -> (0 < b)%Q -> (0 <= a / b)%Q) by (intros a b A B; apply Qle_shift_div_l; lra).
  assert (PX : (0 <= (ulx - g0 g) / g1 g)%Q) by (apply P; lra). assert (PW : (0 <= (lrx - ulx) / g1 g)%Q) by (apply P; lra).
  assert (EQ : forall a, (a / g5 g == - a / - g5 g)%Q) by (intros a; field; lra). assert (PY : (0 <= (uly - g3 g) / g5 g)%Q) by (rewrite EQ; apply P; lra). assert (PH : (0 <= (lry - uly) / g5 g)%Q) by (rewrite EQ; apply P; lra).
  destruct (Qtrunc_error ((ulx - g0 g) / g1 g + (1 # 1000)) ltac:(lra)) as (A1 & A2). destruct (Qtrunc_error ((uly - g3 g) / g5 g + (1 # 1000)) ltac:(lra)) as (B1 & B2).
  destruct (Qtrunc_error ((lrx - ulx) / g1 g + (1 # 2)) ltac:(lra)) as (C1 & C2). destruct (Qtrunc_error ((lry - uly) / g5 g + (1 # 2)) ltac:(lra)) as (D1 & D2). rewrite <- EX in A1, A2. rewrite <- EY in B1, B2. rewrite <- EW in C1, C2. rewrite <- EH in D1, D2.
  assert (NN : forall z q, (0 <= q)%Q -> z = Qtrunc q -> 0 <= z). { clear. intros z q Q ->. unfold Qtrunc. replace (Qle_bool 0 q) with true by (symmetry; now apply Qle_bool_iff). rewrite <- (Qfloor_Z 0). now apply Qfloor_resp_le. }
  split; [eapply NN; [|exact EX]; lra|]. split; [eapply NN; [|exact EY]; lra|]. clear EX EY EW EH NN.
  set (qx := ((ulx - g0 g) / g1 g)%Q) in *. assert (VX : (ulx == g0 g + qx * g1 g)%Q) by (unfold qx; field; exact N1). set (qy := ((uly - g3 g) / g5 g)%Q) in *. assert (VY : (uly == g3 g + qy * g5 g)%Q) by (unfold qy; field; exact N5).
  set (qw := ((lrx - ulx) / g1 g)%Q) in *. assert (VW : (lrx - ulx == qw * g1 g)%Q) by (unfold qw; field; exact N1). set (qh := ((lry - uly) / g5 g)%Q) in *. assert (VH : (lry - uly == qh * g5 g)%Q) by (unfold qh; field; exact N5).
  rewrite VW, VH. clearbody qx qy qw qh.
  assert (K : forall e k b, (0 < k)%Q -> (- b <= e)%Q -> (e <= b)%Q -> (- (b * k) <= e * k /\ e * k <= b * k)%Q) by (intros e k b K0 K1 K2; split; nra).
  destruct (K (inject_Z x - qx) (g1 g) 1)%Q as (KX1 & KX2); [lra..|]. destruct (K (inject_Z y - qy) (- g5 g) 1)%Q as (KY1 & KY2); [lra..|]. destruct (K (inject_Z w - qw) (g1 g) (1 # 2))%Q as (KW1 & KW2); [lra..|]. destruct (K (inject_Z h - qh) (- g5 g) (1 # 2))%Q as (KH1 & KH2); [lra..|].
  split; [rewrite VX|split; [rewrite VY|split]]; apply Qabs_Qle_condition; split; lra.
Qed.
Print Assumptions C195_window_partial.
(** But the projected coordinates of the images of this library are metres: the rectangle is
    smaller than a pixel, nothing is selected, and the missing result is used. *)
Theorem C195_refuted_metres o t d g ulx uly lrx lry : o_bands o = [] -> o_area o = None -> bands t = [] -> dgeo d = Some g -> proj t = (ulx, uly, lrx, lry) -> (0 < lrx - ulx <= 360)%Q -> (720 < g1 g)%Q -> step o t d = UB.
Proof.
  intros OB OA B G P (W1 & W2) G1. unfold step. rewrite OB, OA. cbn [bind].
  assert (T : forall u, proj u = proj t -> (exists t', translate u d = Ok (Null, t')) \/ translate u d = UB).
  { intros u PU. unfold translate. destruct (fill_set u d) as (wf & FW). rewrite FW, check_win. destruct (check_bands u d) as [v|] eqn:CB; [|eauto]. assert (PV : proj v = proj t) by (apply check_bands_ok in CB; rewrite <- PU; tauto). cbn [set_win proj]. rewrite PV, P.
    assert (PG : proj_given (ulx, uly, lrx, lry) = true). { unfold proj_given. destruct (Qeq_bool ulx 0) eqn:E1; [|reflexivity]. destruct (Qeq_bool lrx 0) eqn:E2; [|destruct (Qeq_bool uly 0); reflexivity]. apply Qeq_bool_iff in E1, E2. lra. }
    rewrite PG. destruct (negb _); [eauto|]. unfold geo_or_default. rewrite G. unfold proj_window. destruct (_ || _); [now right|].
    destruct (cast_int ((ulx - g0 g) / g1 g + (1 # 1000))) as [x| | | |] eqn:EX; try (right; reflexivity); try (unfold cast_int in EX; destruct (int_fits _) in EX; discriminate). cbn [bind].
    destruct (cast_int ((uly - g3 g) / g5 g + (1 # 1000))) as [y| | | |] eqn:EY; try (right; reflexivity); try (unfold cast_int in EY; destruct (int_fits _) in EY; discriminate). cbn [bind].
    assert (N1 : ~ (g1 g == 0)%Q) by lra. set (q := ((lrx - ulx) / g1 g)%Q). assert (Q1 : (lrx - ulx == q * g1 g)%Q) by (unfold q; field; exact N1). assert (Q2 : (0 <= q)%Q) by (apply Qle_shift_div_l; lra). assert (Q3 : (q < 1 # 2)%Q) by (apply Qlt_shift_div_r; lra).
    rewrite (cast_int_near 0 (q + (1 # 2))); [|lia|change (inject_Z 0) with 0%Q; lra|change (inject_Z 0) with 0%Q; lra]. cbn [bind].
    destruct (cast_int ((lry - uly) / g5 g + (1 # 2))) as [h| | | |] eqn:EH; try (right; reflexivity); try (unfold cast_int in EH; destruct (int_fits _) in EH; discriminate). cbn [bind].
    assert (WO : forall b w, (exists k, window_ok b w d = Ok k) \/ window_ok b w d = UB) by (intros b w; unfold window_ok; destruct (_ || _); [eauto|]; destruct (b && _); [eauto|]; destruct (negb _); [auto|]; destruct (_ <? _); [eauto|]; destruct (negb _); eauto).
    destruct (WO false (mk_rect x y 0 h)) as [([|] & ->)| ->]; cbn [bind]; [|eauto|auto]. unfold verify. cbn [set_win win]. destruct (WO true (mk_rect x y 0 h)) as [(k & K)| ->]; [|auto]. rewrite K. assert (k = false). { unfold window_ok in K. cbn [rx ry rw rh] in K. destruct (_ || _); [now apply Ok_inj in K|]. cbn in K. now apply Ok_inj in K. } subst k. cbn [bind]. eauto. }
  assert (PS : proj (scale_if_needed o t d) = proj t) by (unfold scale_if_needed; destruct (scaled_size _ _ _ _); destruct (_ && _); reflexivity). destruct (T _ PS) as [(t' & ->)| ->]; reflexivity.
Qed.
Print Assumptions C195_refuted_metres.
(** A full disk image of pixels of 3 km. *)
Example C195_case : let d := mk_dset 3712 3712 [codes "IR_108"] (Some (mk_geo (-5568000) 3000 0 5568000 0 (-3000))) in let o := mk_opts [] None 0 0 in
  step o (mk_trans [] true no_rect (0, 55, 20, 35)%Q None) d = UB /\
  (let e := mk_dset 3600 1800 [codes "a"] (Some (mk_geo (-180) (1 # 10) 0 90 0 (-1 # 10))) in exists v t', step o (mk_trans [] true no_rect (0, 55, 20, 35)%Q None) e = Ok (Result (Virtual v), t') /\ v_win v = mk_rect 1800 350 200 200).
Proof. cbv zeta. split; [vm_compute; reflexivity|]. eexists. eexists. split; vm_compute; reflexivity. Qed.

(** ** C196 *)
(** The result is described by the template, its bands by the bands of the template as far as
    there are, and shows the same pixels. *)
Theorem C196_labels_partial template t v : template <> [] -> exists r, copy_md template (Some t) v = Ok r /\ l_own r = l_own t /\ l_pixels r = l_pixels v /\ List.length (l_bands r) = List.length (l_bands v) /\
  (forall i, (i < List.length (l_bands v))%nat -> nth_error (l_bands r) i = if (i <? List.length (l_bands t))%nat then nth_error (l_bands t) i else nth_error (l_bands v) i).
Proof.
  intros N. destruct template as [|c s]; [congruence|]. eexists. split; [reflexivity|]. cbn [l_own l_pixels l_bands]. split; [reflexivity|]. split; [reflexivity|]. generalize (l_bands t) as f, (l_bands v) as b. clear. split.
  - revert b. induction f as [|x f IH]; intros [|y b]; cbn; auto.
  - revert b. induction f as [|x f IH]; intros [|y b] i I; cbn [List.length] in I; [lia|destruct i; reflexivity|lia|]. destruct i as [|i]; [reflexivity|]. cbn [copy_bands nth_error List.length]. change (S i <? S (List.length f))%nat with (i <? List.length f)%nat. apply IH. lia.
Qed.
Print Assumptions C196_labels_partial.
(** A template that cannot be opened is used all the same. *)
Theorem C196_refuted_missing template v : template <> [] -> copy_md template None v = UB.
Proof. destruct template; [congruence|reflexivity]. Qed.
Print Assumptions C196_refuted_missing.
(** The files converted with a template all get the same name: each one replaces the one
    before. *)
Theorem C196_refuted_names template t a b ra rb : template <> [] -> l_bands t <> [] -> List.length (l_bands a) = List.length (l_bands b) -> copy_md template (Some t) a = Ok ra -> copy_md template (Some t) b = Ok rb -> file_of ra = file_of rb.
Proof.
  intros N T L A B. destruct template as [|c s]; [congruence|]. apply Ok_inj in A, B. subst ra rb. unfold file_of. cbn [l_own l_bands]. f_equal. destruct (l_bands t) as [|x f]; [congruence|]. destruct (l_bands a) as [|y [|y' a']], (l_bands b) as [|z [|z' b']]; try discriminate; cbn; try reflexivity; destruct f; reflexivity.
Qed.
Print Assumptions C196_refuted_names.
Example C196_case : let t := mk_labelled (mk_labels (codes "t") [(codes "MSAT_DATETIME", codes "2010-01-01 12:00:00")]) [mk_labels (codes "b") [(codes "MSAT_CHANNEL", codes "HRV")]] [[0]] in
  let v k := mk_labelled (mk_labels (codes "v") [(codes "MSAT_DATETIME", codes "2010-01-01 12:15:00")]) [mk_labels (codes "x") []; mk_labels (codes "y") []] [[k]; [2]] in
  (exists r, copy_md (codes "f") (Some t) (v 1) = Ok r /\ l_desc (l_own r) = codes "t" /\ map l_desc (l_bands r) = [codes "b"; codes "y"] /\ l_pixels r = [[1]; [2]]) /\ file_of (v 1) <> file_of t.
Proof. cbv zeta. split; [eexists; repeat split; reflexivity|]. vm_compute. discriminate. Qed.
