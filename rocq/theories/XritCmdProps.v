(** C203 the files that the HRIT tools read, C204 the picture of XRIT2Image, C205 option -a
    of XRIT2NetCDF. *)
From Verif Require Import Base BaseFacts IniModel MachineModel HeaderModel GeoModel MsgModel NativeImageModel DataAccessSpec
  ConvModel ConvProps MsatCmdModel MsatCmdProps XritCmdModel FileAccessModel FileAccessSpec FileAccessProofs FileAccessProps.
From Coq Require Import String QArith.
Open Scope string_scope.
Open Scope list_scope.
Open Scope Z_scope.

(** ** What the user asks for *)
Definition dir_of (a : xopt) : option str := match a with XDir s => Some s | _ => None end.
Definition res_of (a : xopt) : option str := match a with XRes s => Some s | _ => None end.
Definition id1_of (a : xopt) : option str := match a with XId1 s => Some s | _ => None end.
Definition id2_of (a : xopt) : option str := match a with XId2 s => Some s | _ => None end.
Definition time_of (a : xopt) : option str := match a with XTime s => Some s | _ => None end.
Definition format_of (a : xopt) : option str := match a with XFormat s => Some s | _ => None end.
Definition overlay_of (a : xopt) : option str := match a with XOverlay s => Some s | _ => None end.
Definition scale_of (a : xopt) : option str := match a with XScale s => Some s | _ => None end.
Definition area_of (a : xopt) : option str := match a with XArea s => Some s | _ => None end.
(** The last use of an option counts. *)
Definition lastv (sel : xopt -> option str) (l : list xopt) (o : option str) : Prop :=
  match o with
  | Some v => exists l1 a l2, l = l1 ++ a :: l2 /\ sel a = Some v /\ forall b, In b l2 -> sel b = None
  | None => forall b, In b l -> sel b = None
  end.
Definition image_options (l : list xopt) : Prop := forall a, In a l -> match a with XArea _ | XVersion | XHelp | XWrong => False | _ => True end.
Definition netcdf_options (l : list xopt) : Prop := forall a, In a l -> match a with XDir _ | XRes _ | XId1 _ | XId2 _ | XTime _ => True | _ => False end.
(** Product [p] in directory [d]. *)
Record asked (l : list xopt) (d : str) (p : product) : Prop := {
  as_dir : exists o, lastv dir_of l o /\ d = match o with Some v => v | None => codes "." end;
  as_res : lastv res_of l (Some (pr_res p)); as_id1 : lastv id1_of l (Some (pr_pid1 p));
  as_id2 : lastv id2_of l (Some (pr_pid2 p)); as_time : lastv time_of l (Some (pr_time p)) }.
(** The name of a segment, compressed or not: any character before the last underscore. *)
Inductive tool_like (p : product) : list Z -> Prop :=
| tool_like_intro : forall nnn sat id1 id2 num x,
    List.length nnn = 3%nat -> List.length sat = 6%nat -> List.length num = 5%nat -> padded (pr_pid1 p) 12 id1 -> padded (pr_pid2 p) 9 id2 ->
    tool_like p (join 45 [pr_res p; nnn; sat; id1; id2; 48 :: num ++ repeat 95 3; pr_time p; [x; 95]]).
(** [r]: the elements of [l] with [P], in the same order. *)
Inductive chosen (P : list Z -> Prop) : list (list Z) -> list (list Z) -> Prop :=
| ch_nil : chosen P [] []
| ch_take : forall n l r, P n -> chosen P l r -> chosen P (n :: l) (n :: r)
| ch_skip : forall n l r, ~ P n -> chosen P l r -> chosen P (n :: l) r.
Definition in_dir (d n : list Z) : str := d ++ 47 :: n.

(** ** Options *)
Fixpoint lasts (sel : xopt -> option str) (l : list xopt) (d : option str) : option str :=
  match l with [] => d | a :: l' => lasts sel l' (match sel a with Some v => Some v | None => d end) end.
Lemma lasts_none sel l : forall d, (forall b, In b l -> sel b = None) -> lasts sel l d = d.
Proof. induction l as [|a l IH]; intros d H; [reflexivity|]. cbn [lasts]. rewrite (H a (or_introl eq_refl)). apply IH. intros b I. apply H. now right. Qed.
Lemma lasts_app sel l1 l2 : forall d, lasts sel (l1 ++ l2) d = lasts sel l2 (lasts sel l1 d).
Proof. induction l1 as [|a l1 IH]; intros d; [reflexivity|]. cbn [app lasts]. apply IH. Qed.
Lemma lastv_lasts sel l o : lastv sel l o -> lasts sel l None = o.
Proof.
  destruct o as [v|]; cbn [lastv]; [|apply lasts_none]. intros (l1 & a & l2 & -> & E & N). rewrite lasts_app. cbn [lasts]. rewrite E. now apply lasts_none.
Qed.
Definition scaled (strtof : str -> Q) (o : option str) (g : Q) : Q := match o with Some s => strtof s | None => g end.
Lemma xall_image strtof l : image_options l -> forall di re i1 i2 ti fo so sc ov no ar wi,
  xall strtof (mk_x di re i1 i2 ti fo (scaled strtof so sc) ov no ar wi) l =
  Ok (inl (mk_x (lasts dir_of l di) (lasts res_of l re) (lasts id1_of l i1) (lasts id2_of l i2) (lasts time_of l ti) (lasts format_of l fo)
    (scaled strtof (lasts scale_of l so) sc) (lasts overlay_of l ov) (existsb (fun a => match a with XNormalize => true | _ => false end) l || no) ar wi)).
Proof.
  induction l as [|a l IH]; intros O di re i1 i2 ti fo so sc ov no ar wi; [reflexivity|].
  assert (O' : image_options l) by (intros b I; apply O; now right). pose proof (O a (or_introl eq_refl)) as A. cbn [xall].
  destruct a; try (destruct A); cbn [xone bind lasts dir_of res_of id1_of id2_of time_of format_of scale_of overlay_of existsb orb];
    try (rewrite (IH O'); reflexivity).
  - change (strtof s) with (scaled strtof (Some s) sc). rewrite (IH O'). reflexivity.
  - rewrite (IH O'). now rewrite orb_true_r.
Qed.
Lemma netcdf_image l : netcdf_options l -> image_options l.
Proof. intros N a I. specialize (N a I). destruct a; auto. Qed.
Lemma lasts_other sel l : netcdf_options l -> (forall a, match a with XDir _ | XRes _ | XId1 _ | XId2 _ | XTime _ => True | _ => False end -> sel a = None) -> forall d, lasts sel l d = d.
Proof. intros N S d. apply lasts_none. intros b I. apply S, N, I. Qed.

Definition cmd_of (strtof : str -> Q) (l : list xopt) : xcmd :=
  mk_x (lasts dir_of l None) (lasts res_of l None) (lasts id1_of l None) (lasts id2_of l None) (lasts time_of l None) (lasts format_of l None)
    (scaled strtof (lasts scale_of l None) 1) (lasts overlay_of l None) (existsb (fun a => match a with XNormalize => true | _ => false end) l) false (1, 0, 1, 0).
Lemma xall_start strtof l : image_options l -> xall strtof x0 l = Ok (inl (cmd_of strtof l)).
Proof. intros O. unfold x0. change 1%Q with (scaled strtof None 1%Q). rewrite (xall_image strtof l O). unfold cmd_of. now rewrite orb_false_r. Qed.
Lemma xparse_asked strtof l d p : image_options l -> asked l d p -> xparse strtof l = Ok (inl (cmd_of strtof l, of_product d p)).
Proof.
  intros O [(o & D & ->) R I1 I2 T]. unfold xparse. rewrite (xall_start strtof l O). cbn [bind]. unfold xproduct, cmd_of. cbn [x_res x_id1 x_id2 x_time x_dir].
  rewrite (lastv_lasts _ _ _ R), (lastv_lasts _ _ _ I1), (lastv_lasts _ _ _ I2), (lastv_lasts _ _ _ T), (lastv_lasts _ _ _ D). reflexivity.
Qed.

(** ** Names *)
Definition base_tool (p : product) : list Z :=
  (pr_res p ++ [45]) ++ q 3 ++ [45] ++ q 6 ++ ([45]
  ++ underscoreit (pr_pid1 p) 12 ++ [45] ++ underscoreit (pr_pid2 p) 9 ++ [45]
  ++ [48]) ++ q 5 ++ ([95; 95; 95] ++ [45] ++ pr_time p ++ [45]) ++ q 1 ++ [95] ++ [].
Lemma tool_match p n : plain_product p -> (List.length (pr_pid1 p) <= 12)%nat -> (List.length (pr_pid2 p) <= 9)%nat ->
  gmatch true (base_tool p) n = true <-> tool_like p n.
Proof.
  intros (P1 & P2 & P3 & P4) W1 W2. unfold base_tool. split.
  - intros H. apply gmatch_lit in H as (s1 & -> & H); [|destruct (pr_res p); discriminate|plain_tac].
    apply gmatch_q in H as (nnn & s2 & L1 & -> & H).
    apply gmatch_lit in H as (s3 & -> & H); [|discriminate|plain_tac].
    apply gmatch_q in H as (sat & s4 & L2 & -> & H).
    apply gmatch_lit in H as (s5 & -> & H); [|discriminate|plain_tac].
    apply gmatch_q in H as (num & s6 & L3 & -> & H).
    apply gmatch_lit in H as (s7 & -> & H); [|discriminate|plain_tac].
    apply gmatch_q in H as (xs & s8 & L4 & -> & H).
    apply gmatch_lit in H as (s9 & -> & H); [|discriminate|plain_tac].
    apply gmatch_end in H. subst s9. destruct xs as [|x [|? ?]]; try discriminate L4.
    pose proof (tool_like_intro p nnn sat _ _ num x L1 L2 L3 (underscoreit_padded _ _ W1) (underscoreit_padded _ _ W2)) as S.
    cbn [join] in S. rewrite app_nil_r. repeat (rewrite <- app_assoc; cbn [app]).
    cbn [app repeat] in S. repeat (rewrite <- app_assoc in S; cbn [app repeat] in S). exact S.
  - intros S. destruct S as [nnn sat id1 id2 num x L1 L2 L3 Q1 Q2].
    apply padded_eq in Q1 as [-> _]. apply padded_eq in Q2 as [-> _]. cbn [join].
    apply gmatch_lit; [destruct (pr_res p); discriminate|plain_tac|]. eexists. split; [rewrite <- (app_assoc (pr_res p)); reflexivity|].
    apply gmatch_q. exists nnn. eexists. split; [exact L1|]. split; [reflexivity|].
    apply (gmatch_lit false [45]); [discriminate|plain_tac|]. eexists. split; [reflexivity|].
    apply gmatch_q. exists sat. eexists. split; [exact L2|]. split; [reflexivity|].
    apply gmatch_lit; [discriminate|plain_tac|]. eexists. split; [repeat (rewrite <- app_assoc; cbn [app]); reflexivity|].
    apply gmatch_q. exists num. eexists. split; [exact L3|]. split; [repeat (rewrite <- app_assoc; cbn [app]); reflexivity|].
    apply gmatch_lit; [discriminate|plain_tac|]. exists [x; 95]. split; [cbn [repeat app]; repeat (rewrite <- app_assoc; cbn [app]); reflexivity|].
    apply gmatch_q. exists [x], [95]. split; [reflexivity|]. split; [reflexivity|].
    apply (gmatch_lit false [95]); [discriminate|plain_tac|]. exists []. split; reflexivity.
Qed.
Lemma no_slash_tool p : without 47 (pr_res p) -> without 47 (pr_pid1 p) -> without 47 (pr_pid2 p) -> without 47 (pr_time p) -> ~ In 47 (base_tool p).
Proof.
  unfold without, base_tool, underscoreit, q. intros H1 H2 H3 H4.
  assert (Hf : forall w l, In 47 (firstn w l) -> In 47 l).
  { intros w l H. rewrite <- (firstn_skipn w l). apply in_or_app. auto. }
  repeat (rewrite in_app_iff; cbn [In]). intros H.
  repeat (destruct H as [H|H]; try lia; try tauto; try (apply repeat_spec in H; lia); try (apply Hf in H; tauto)).
Qed.
Lemma tool_glob0 ls d p : ~ In 47 (base_tool p) -> glob ls (xpattern (of_product d p)) = map (in_dir d) (filter (gmatch true (base_tool p)) (ls d)).
Proof.
  intros N. unfold in_dir. rewrite <- glob_in by exact N. f_equal. unfold xpattern, base_tool, of_product. cbn. rewrite ?app_nil_r. repeat (rewrite <- app_assoc; cbn [app]). reflexivity.
Qed.
Lemma chosen_filter P g l r : (forall n, g n = true <-> P n) -> chosen P l r -> filter g l = r.
Proof.
  intros E. induction 1 as [|n l r H _ IH|n l r H _ IH]; [reflexivity| |]; cbn [filter].
  - apply E in H. rewrite H. now rewrite IH.
  - destruct (g n) eqn:G; [|exact IH]. exfalso. apply H, E, G.
Qed.
Lemma tool_glob ls d p ns : good_product p -> plain_product p -> chosen (tool_like p) (ls d) ns -> glob ls (xpattern (of_product d p)) = map (in_dir d) ns.
Proof.
  intros (R1 & R2 & (T1 & A1 & B1) & (T2 & A2 & B2) & (T3 & A3 & B3) & W1 & W2) P C. rewrite tool_glob0 by (now apply no_slash_tool). f_equal.
  apply (chosen_filter (tool_like p)); [|exact C]. intros n. now apply tool_match.
Qed.
Lemma pro_glob ls d p ns : good_product p -> plain_product p -> chosen (aux_like PRO p) (ls d) ns -> glob ls (aux_pattern PRO (of_product d p)) = map (in_dir d) ns.
Proof.
  intros G P C. rewrite aux_glob; [|unfold without; cbn; lia|exact G]. unfold in_dir. f_equal. apply (chosen_filter (aux_like PRO p)); [|exact C]. intros n.
  destruct G as (_ & _ & _ & _ & _ & W1 & _). apply aux_match; [exact P|unfold plain; cbn; repeat constructor; lia|exact W1].
Qed.
Lemma load_each load d ns fs : Forall2 (fun n f => load (in_dir d n) = Some f) ns fs -> load_all load (map (in_dir d) ns) = Some fs.
Proof. induction 1 as [|n f ns fs E _ IH]; [reflexivity|]. cbn [map load_all]. now rewrite E, IH. Qed.

(** ** C203 *)
Section Run.
Variables (strtof : str -> Q) (h : host) (ls : list Z -> list (list Z)) (load : str -> option (header * mdata)).
Variables (normalize : list Z -> list Z) (scale : pic -> Z -> Z -> pic) (times : Q -> Z -> Z) (read_picture : str -> option pic) (plus : pic -> pic -> pic).
Let im := image_main strtof h ls load normalize scale times read_picture plus.
Let nc := netcdf_input strtof ls load.

(** Both tools read the segments of the product, each of them, and nothing else; the
    NetCDF tool reads the prologue as well, which has to be the only one. *)
Theorem C203_segments l d p ns fs n0 pro : netcdf_options l -> asked l d p -> good_product p -> plain_product p ->
  chosen (tool_like p) (ls d) ns -> ns <> [] -> Forall2 (fun n f => load (in_dir d n) = Some f) ns fs ->
  chosen (aux_like PRO p) (ls d) [n0] -> load (in_dir d n0) = Some pro ->
  nc l = Ok (inl (pro, fs, None)).
Proof using.
  intros O A G P C NE F CP LP. unfold nc, netcdf_input. rewrite (xparse_asked strtof l d p (netcdf_image l O) A). cbn [bind].
  rewrite (pro_glob ls d p [n0] G P CP), (tool_glob ls d p ns G P C). cbn [map]. rewrite LP.
  destruct ns as [|n ns]; [now elim NE|]. pose proof (load_each load d _ _ F) as L. cbn [map] in L |- *. now rewrite L.
Qed.
Theorem C203_prologue l d p r : netcdf_options l -> asked l d p -> good_product p -> plain_product p ->
  chosen (aux_like PRO p) (ls d) r -> List.length r <> 1%nat -> nc l = Ok (inr 1).
Proof using.
  intros O A G P C NE. unfold nc, netcdf_input. rewrite (xparse_asked strtof l d p (netcdf_image l O) A). cbn [bind].
  rewrite (pro_glob ls d p r G P C). destruct r as [|a [|b r]]; [reflexivity|now elim NE|reflexivity].
Qed.
(** Nothing found, or a file that cannot be opened: status 1 and no picture. *)
Theorem C203_none l d p : image_options l -> asked l d p -> good_product p -> plain_product p -> chosen (tool_like p) (ls d) [] ->
  im l = Ok (1, None) /\ (netcdf_options l -> nc l = Ok (inr 1)).
Proof using.
  intros O A G P C. unfold im, nc, image_main, netcdf_input. rewrite (xparse_asked strtof l d p O A). cbn [bind]. rewrite (tool_glob ls d p [] G P C). split; [reflexivity|]. intros _.
  destruct (glob ls (aux_pattern PRO (of_product d p))) as [|a [|b r]]; try reflexivity. now destruct (load a).
Qed.
Theorem C203_unreadable l d p ns n : image_options l -> asked l d p -> good_product p -> plain_product p -> chosen (tool_like p) (ls d) ns -> In n ns -> load (in_dir d n) = None ->
  im l = Ok (1, None) /\ (netcdf_options l -> nc l = Ok (inr 1)).
Proof using.
  intros O A G P C I L. unfold im, nc, image_main, netcdf_input. rewrite (xparse_asked strtof l d p O A). cbn [bind]. rewrite (tool_glob ls d p ns G P C).
  assert (LA : load_all load (map (in_dir d) ns) = None).
  { clear C. induction ns as [|m ns IH]; [destruct I|]. cbn [map load_all]. destruct I as [->|I]; [now rewrite L|]. rewrite (IH I). now destruct (load (in_dir d m)). }
  destruct ns as [|m ns]; [destruct I|]. cbn [map] in *. rewrite LA. split; [reflexivity|]. intros _.
  destruct (glob ls (aux_pattern PRO (of_product d p))) as [|a [|b r]]; try reflexivity. now destruct (load a).
Qed.
(** One of the four options is missing. *)
Theorem C203_missing l : image_options l -> lastv res_of l None \/ lastv id1_of l None \/ lastv id2_of l None \/ lastv time_of l None ->
  im l = Ok (1, None) /\ (netcdf_options l -> nc l = Ok (inr 1)).
Proof using.
  intros O M. unfold im, nc, image_main, netcdf_input, xparse. rewrite (xall_start strtof l O). cbn [bind]. unfold xproduct, cmd_of. cbn [x_res x_id1 x_id2 x_time x_dir].
  assert (E : forall sel, lastv sel l None -> lasts sel l None = None) by (intros; now apply lastv_lasts).
  destruct M as [M|[M|[M|M]]]; rewrite (E _ M); repeat match goal with |- context [lasts ?s l None] => destruct (lasts s l None) end; split; reflexivity.
Qed.
(** Whatever the driver finds for the product is among what the tools find. *)
Theorem C203_driver d p ns fs : good_product p -> plain_product p -> chosen (tool_like p) (ls d) ns -> segmentFiles ls (of_product d p) = Ok fs -> incl fs (map (in_dir d) ns).
Proof using.
  intros G P C S f I. destruct (search_spec ls d p G P) as (S1 & _ & _). destruct (proj1 (S1 f)) as (n & -> & IN & SL); [eauto|]. change (d ++ 47 :: n) with (in_dir d n). apply in_map.
  assert (T : tool_like p n) by (destruct SL as [nnn sat id1 id2 num L1 L2 L3 Q1 Q2]; now constructor).
  clear - C IN T. induction C as [|m l r H _ IH|m l r H _ IH]; [destruct IN| |]; destruct IN as [->|IN]; [now left|right; auto|now elim H|auto].
Qed.

(** An option that getopt_long refuses is no error. *)
Theorem C203_refuted_wrong l r : image_options l -> im (l ++ XWrong :: r) = Ok (0, None) /\ nc (l ++ XWrong :: r) = Ok (inr 0).
Proof using.
  intros O. assert (E : forall m, xall strtof m (l ++ XWrong :: r) = Ok (inr 0)).
  { intros m. revert m. induction l as [|a l' IH]; intros m; [now destruct m|]. assert (O' : image_options l') by (intros b I; apply O; now right). pose proof (O a (or_introl eq_refl)) as A.
    cbn [app xall]. destruct m. destruct a; try (destruct A); cbn [xone bind]; now apply IH. }
  unfold im, nc, image_main, netcdf_input, xparse. rewrite E. split; reflexivity.
Qed.
(** Identifiers are cut to 12 and 9 characters: what follows makes no difference to the
    files read. *)
Theorem C203_refuted_long l a b x y : netcdf_options l -> List.length a = 12%nat -> List.length b = 9%nat ->
  nc (l ++ [XId1 (a ++ x); XId2 (b ++ y)]) = nc (l ++ [XId1 a; XId2 b]).
Proof using.
  clear im h normalize scale times read_picture plus. intros O LA LB.
  assert (U : forall w l z, List.length l = w -> underscoreit (l ++ z) w = underscoreit l w).
  { intros w l' z <-. unfold underscoreit. rewrite firstn_app, app_length.
    replace (List.length l' - (List.length l' + List.length z))%nat with 0%nat by lia. rewrite Nat.sub_diag, firstn_O, app_nil_r. reflexivity. }
  assert (OO : forall u v, image_options (l ++ [XId1 u; XId2 v])) by (intros u v; apply netcdf_image; intros c I; apply in_app_or in I; destruct I as [I|[<-|[<-|[]]]]; [exact (O c I)|exact I|exact I]).
  unfold nc, netcdf_input, xparse. rewrite !xall_start by apply OO. cbn [bind]. unfold xproduct, cmd_of. cbn [x_res x_id1 x_id2 x_time x_dir].
  rewrite !lasts_app. cbn [lasts dir_of res_of id1_of id2_of time_of].
  destruct (lasts res_of l None) as [r|]; [|reflexivity]. destruct (lasts time_of l None) as [t|]; [|reflexivity].
  unfold xpattern, aux_pattern. cbn [fa_dir fa_res fa_pid1 fa_pid2 fa_timing x_area]. rewrite (U 12%nat a x LA), (U 9%nat b y LB). reflexivity.
Qed.
(** The characters of an option are those of a pattern: with -r ? the segments of all
    resolutions go into one product. *)
Definition of_any_res (like : product -> list Z -> Prop) (a b t : str) (n : list Z) : Prop := exists c, c <> 46 /\ like (mk_prod [c] a b t) n.
Lemma tool_like_res c a b t n : tool_like (mk_prod [c] a b t) n <-> exists n', n = c :: n' /\ tool_like (mk_prod [72] a b t) (72 :: n').
Proof using.
  clear. split.
  - intros H. destruct H as [nnn sat id1 id2 num x L1 L2 L3 Q1 Q2]. eexists. split; [reflexivity|]. exact (tool_like_intro (mk_prod [72] a b t) nnn sat id1 id2 num x L1 L2 L3 Q1 Q2).
  - intros (n' & -> & H). remember (72 :: n') as u eqn:E. destruct H as [nnn sat id1 id2 num x L1 L2 L3 Q1 Q2]. cbn [join app pr_res] in E. injection E as <-.
    exact (tool_like_intro (mk_prod [c] a b t) nnn sat id1 id2 num x L1 L2 L3 Q1 Q2).
Qed.
Lemma aux_like_res c a b t n : aux_like PRO (mk_prod [c] a b t) n <-> exists n', n = c :: n' /\ aux_like PRO (mk_prod [72] a b t) (72 :: n').
Proof using.
  clear. split.
  - intros H. destruct H as [nnn sat id1 L1 L2 Q1]. eexists. split; [reflexivity|]. exact (aux_like_intro PRO (mk_prod [72] a b t) nnn sat id1 L1 L2 Q1).
  - intros (n' & -> & H). remember (72 :: n') as u eqn:E. destruct H as [nnn sat id1 L1 L2 Q1]. cbn [join app pr_res] in E. injection E as <-.
    exact (aux_like_intro PRO (mk_prod [c] a b t) nnn sat id1 L1 L2 Q1).
Qed.
Lemma gmatch_any rest n : gmatch true (63 :: rest) n = true <-> exists c n', n = c :: n' /\ c <> 46 /\ gmatch true (72 :: rest) (72 :: n') = true.
Proof using.
  clear. split.
  - destruct n as [|c n']; [discriminate|]. cbn. intros H. apply andb_true_iff in H as [H1 H2]. exists c, n'. repeat split; [lia|exact H2].
  - intros (c & n' & -> & N & H). cbn in H |- *. rewrite H. replace (c =? 46) with false by lia. reflexivity.
Qed.
Theorem C203_refuted_pattern l d a b t ns fs n0 pro : netcdf_options l -> asked l d (mk_prod (codes "?") a b t) -> good_product (mk_prod (codes "H") a b t) -> plain_product (mk_prod (codes "H") a b t) ->
  chosen (of_any_res tool_like a b t) (ls d) ns -> ns <> [] -> Forall2 (fun n f => load (in_dir d n) = Some f) ns fs ->
  chosen (of_any_res (aux_like PRO) a b t) (ls d) [n0] -> load (in_dir d n0) = Some pro ->
  nc l = Ok (inl (pro, fs, None)).
Proof using.
  clear im h normalize scale times read_picture plus. intros O A G P C NE F CP LP. unfold nc, netcdf_input. rewrite (xparse_asked strtof l d _ (netcdf_image l O) A). cbn [bind].
  pose proof G as (R1 & R2 & (T1 & A1 & B1) & (T2 & A2 & B2) & (T3 & A3 & B3) & W1 & W2). cbn [pr_pid1 pr_pid2 pr_time] in *.
  assert (E1 : glob ls (xpattern (of_product d (mk_prod (codes "?") a b t))) = map (in_dir d) ns).
  { rewrite tool_glob0 by (apply no_slash_tool; [unfold without; cbn; lia|assumption..]). f_equal. apply (chosen_filter (of_any_res tool_like a b t)); [|exact C]. intros n.
    change (base_tool (mk_prod (codes "?") a b t)) with (63 :: tl (base_tool (mk_prod (codes "H") a b t))). rewrite gmatch_any.
    change (72 :: tl (base_tool (mk_prod (codes "H") a b t))) with (base_tool (mk_prod (codes "H") a b t)). unfold of_any_res. split.
    - intros (c & n' & -> & N & M). exists c. split; [exact N|]. apply tool_like_res. exists n'. split; [reflexivity|]. apply tool_match in M; assumption.
    - intros (c & N & T). apply tool_like_res in T as (n' & -> & T). exists c, n'. split; [reflexivity|]. split; [exact N|]. apply tool_match; assumption. }
  assert (E2 : glob ls (aux_pattern PRO (of_product d (mk_prod (codes "?") a b t))) = [in_dir d n0]).
  { transitivity (map (in_dir d) (filter (gmatch true (base_aux PRO (mk_prod (codes "?") a b t))) (ls d))).
    - unfold in_dir. rewrite <- glob_in by (apply no_slash_aux; [unfold without; cbn; lia..|assumption|assumption]). f_equal. unfold aux_pattern, base_aux, of_product. cbn. rewrite ?app_nil_r. repeat (rewrite <- app_assoc; cbn [app]). reflexivity.
    - change [in_dir d n0] with (map (in_dir d) [n0]). f_equal. apply (chosen_filter (of_any_res (aux_like PRO) a b t)); [|exact CP]. intros n.
      change (base_aux PRO (mk_prod (codes "?") a b t)) with (63 :: tl (base_aux PRO (mk_prod (codes "H") a b t))). rewrite gmatch_any.
      change (72 :: tl (base_aux PRO (mk_prod (codes "H") a b t))) with (base_aux PRO (mk_prod (codes "H") a b t)). unfold of_any_res.
      assert (PP : plain PRO) by (unfold plain; cbn; repeat constructor; lia). split.
      + intros (c & n' & -> & N & M). exists c. split; [exact N|]. apply aux_like_res. exists n'. split; [reflexivity|]. apply aux_match in M; assumption.
      + intros (c & N & T). apply aux_like_res in T as (n' & -> & T). exists c, n'. split; [reflexivity|]. split; [exact N|]. apply aux_match; assumption. }
  rewrite E1, E2, LP. destruct ns as [|n ns]; [now elim NE|]. pose proof (load_each load d _ _ F) as L. cbn [map] in L |- *. now rewrite L.
Qed.
(** Both copies of a segment, the compressed one and the one that is not: the tools read
    both and use the later one. The driver takes the compressed one. *)
Lemma set_nth_twice (A : Type) k (x y : A) : forall l, set_nth (set_nth l k x) k y = set_nth l k y.
Proof using. clear. induction k as [|k IH]; intros [|a l]; cbn; try reflexivity. now rewrite IH. Qed.
Lemma set_nth_len (A : Type) (x : A) : forall l k, List.length (set_nth l k x) = List.length l.
Proof using. clear. induction l as [|a l IH]; intros [|k]; cbn; try reflexivity. now rewrite IH. Qed.
Lemma index_twice hd d1 d2 f2 : forall f1 idx, index_segments idx (f1 ++ (hd, d1) :: (hd, d2) :: f2) = index_segments idx (f1 ++ (hd, d2) :: f2).
Proof using.
  clear. induction f1 as [|[hd' d'] f1 IH]; intros idx; cbn [app index_segments].
  - destruct (h_seg hd) as [s|]; [|reflexivity]. cbv zeta. destruct (_ || _) eqn:B; [reflexivity|]. rewrite set_nth_len, B. now rewrite set_nth_twice.
  - destruct (h_seg hd') as [s|]; [|reflexivity]. cbv zeta. destruct (_ || _); [reflexivity|]. apply IH.
Qed.
Lemma assemble_twice hd d1 d2 f1 f2 : assemble h (f1 ++ (hd, d1) :: (hd, d2) :: f2) = assemble h (f1 ++ (hd, d2) :: f2).
Proof using.
  unfold assemble. destruct f1 as [|[hd' d'] f1]; cbn [app].
  - destruct (h_seg hd) as [s|]; [|reflexivity]. destruct (si_format s =? 0); [reflexivity|]. cbv zeta. pose proof (index_twice hd d1 d2 f2 []) as I. cbn [app] in I. now rewrite I.
  - destruct (h_seg hd') as [s|]; [|reflexivity]. destruct (si_format s =? 0); [reflexivity|]. cbv zeta. pose proof (index_twice hd d1 d2 f2 ((hd', d') :: f1)) as I. cbn [app] in I. now rewrite I.
Qed.
Lemma load_app l1 l2 : load_all load (l1 ++ l2) = match load_all load l1, load_all load l2 with Some a, Some b => Some (a ++ b) | _, _ => None end.
Proof using.
  induction l1 as [|a l1 IH]; cbn [app load_all]; [now destruct (load_all load l2)|]. destruct (load a) as [f|]; [|reflexivity]. rewrite IH. destruct (load_all load l1), (load_all load l2); reflexivity.
Qed.
Lemma segment_end p n : segment_like p n -> exists m, n = m ++ codes "C_".
Proof using.
  clear. intros [nnn sat id1 id2 num _ _ _ _ _]. change (codes "C_") with [67; 95]. cbn [join].
  exists (pr_res p ++ 45 :: nnn ++ 45 :: sat ++ 45 :: id1 ++ 45 :: id2 ++ 45 :: (48 :: num ++ repeat 95 3) ++ 45 :: pr_time p ++ [45]).
  repeat (rewrite <- app_assoc; cbn [app]). reflexivity.
Qed.
Theorem C203_refuted_twice ls' l d p b l1 l2 hd d1 d2 : image_options l -> asked l d p -> good_product p -> plain_product p ->
  segment_like p (b ++ codes "C_") -> ls d = l1 ++ (b ++ codes "C_") :: (b ++ codes "__") :: l2 -> ls' d = l1 ++ (b ++ codes "__") :: l2 ->
  load (in_dir d (b ++ codes "C_")) = Some (hd, d1) -> load (in_dir d (b ++ codes "__")) = Some (hd, d2) ->
  im l = image_main strtof h ls' load normalize scale times read_picture plus l /\
  exists fs, segmentFiles ls (of_product d p) = Ok fs /\ In (in_dir d (b ++ codes "C_")) fs /\ ~ In (in_dir d (b ++ codes "__")) fs.
Proof using.
  intros O A G P SL E E' L1 L2. destruct (search_spec ls d p G P) as (S1 & _ & _). split.
  - pose proof G as (R1 & R2 & (T1 & A1 & B1) & (T2 & A2 & B2) & (T3 & A3 & B3) & W1 & W2).
    assert (TC : gmatch true (base_tool p) (b ++ codes "C_") = true).
    { apply tool_match; [assumption..|]. destruct SL as [nnn sat id1 id2 num X1 X2 X3 Q1 Q2]; now constructor. }
    assert (TU : gmatch true (base_tool p) (b ++ codes "__") = true).
    { apply tool_match; [assumption..|]. remember (b ++ codes "C_") as u eqn:U. destruct SL as [nnn sat id1 id2 num X1 X2 X3 Q1 Q2].
      assert (EB : b = pr_res p ++ 45 :: nnn ++ 45 :: sat ++ 45 :: id1 ++ 45 :: id2 ++ 45 :: (48 :: num ++ repeat 95 3) ++ 45 :: pr_time p ++ [45]).
      { apply (app_inv_tail (codes "C_")). rewrite <- U. change (codes "C_") with [67; 95]. cbn [join]. repeat (rewrite <- app_assoc; cbn [app]). reflexivity. }
      pose proof (tool_like_intro p nnn sat id1 id2 num 95 X1 X2 X3 Q1 Q2) as T.
      match type of T with tool_like _ ?j => assert (EJ : b ++ codes "__" = j) end.
      { rewrite EB. change (codes "__") with [95; 95]. cbn [join]. repeat (rewrite <- app_assoc; cbn [app]). reflexivity. }
      rewrite EJ. exact T. }
    unfold im, image_main. rewrite (xparse_asked strtof l d p O A). cbn [bind]. rewrite !tool_glob0 by (now apply no_slash_tool). rewrite E, E'. rewrite !filter_app. cbn [filter]. rewrite TC, TU.
    set (g1 := filter (gmatch true (base_tool p)) l1). set (g2 := filter (gmatch true (base_tool p)) l2).
    assert (X : forall (u : list str) a v, exists m r, u ++ a :: v = m :: r) by (intros [|m u] a v; cbn [app]; eauto).
    rewrite !map_app. cbn [map].
    destruct (X (map (in_dir d) g1) (in_dir d (b ++ codes "C_")) (in_dir d (b ++ codes "__") :: map (in_dir d) g2)) as (m & r & Y). rewrite Y, <- Y.
    destruct (X (map (in_dir d) g1) (in_dir d (b ++ codes "__")) (map (in_dir d) g2)) as (m' & r' & Y'). rewrite Y', <- Y'. rewrite !load_app. cbn [load_all]. rewrite L1, L2. destruct (load_all load (map (in_dir d) g1)) as [f1|]; [|reflexivity]. destruct (load_all load (map (in_dir d) g2)) as [f2|]; [|reflexivity].
    rewrite assemble_twice. destruct (assemble h (f1 ++ (hd, d2) :: f2)) as [[[[npix nlin] px]|]| | | |]; [|now destruct f1 as [|[? ?] ?]|reflexivity..]. cbn [bind]. destruct f1 as [|[hd' d'] f1]; reflexivity.
  - destruct (proj2 (S1 (d ++ 47 :: b ++ codes "C_"))) as (fs & E1 & I1).
    { exists (b ++ codes "C_"). split; [reflexivity|]. split; [|exact SL]. rewrite E. apply in_or_app. right. now left. }
    exists fs. split; [exact E1|]. split; [exact I1|]. intros I. destruct (proj1 (S1 (in_dir d (b ++ codes "__")))) as (n & EN & _ & S2); [eauto|].
    unfold in_dir in EN. apply app_inv_head in EN. injection EN as <-. apply segment_end in S2 as (m & EM). change (codes "__") with [95; 95] in EM. change (codes "C_") with [67; 95] in EM.
    replace (b ++ [95; 95]) with ((b ++ [95]) ++ [95]) in EM by (now rewrite <- app_assoc). replace (m ++ [67; 95]) with ((m ++ [67]) ++ [95]) in EM by (now rewrite <- app_assoc). apply app_inj_tail in EM as [EM _]. apply app_inj_tail in EM as [_ EM]. lia.
Qed.

(** ** C204 *)
Lemma rev_rows (rows : list (list Z)) : rev (List.concat rows) = List.concat (rev (map (@rev Z) rows)).
Proof using. clear. induction rows as [|r rows IH]; [reflexivity|]. cbn [List.concat map rev]. rewrite rev_app_distr, IH, concat_app. cbn [List.concat]. now rewrite app_nil_r. Qed.
(** The picture of all rows: the last row comes first and its last sample too. *)
Inductive turned (nm : Prop) (wd hg : Z) (rows : list (list Z)) : pic -> Prop :=
| tu_plain : ~ nm -> turned nm wd hg rows (mk_pic wd hg (List.concat (rev (map (@rev Z) rows))))
| tu_norm : nm -> turned nm wd hg rows (mk_pic wd hg (rev (normalize (List.concat rows)))).
(** The overlay of option -o is added when there is one. *)
Inductive overlaid (ov : option str) (a : pic) : pic -> Prop :=
| ov_none : ov = None -> overlaid ov a a
| ov_some : forall f o, ov = Some f -> read_picture f = Some o -> overlaid ov a (plus a o).
(** The picture is made smaller by a factor less than 1. *)
Inductive reduced (sc : option str) (wd hg : Z) (a : pic) : pic -> Prop :=
| re_none : sc = None -> reduced sc wd hg a a
| re_some : forall g, sc = Some g -> (strtof g < 1)%Q -> reduced sc wd hg a (scale a (times (strtof g) wd) (times (strtof g) hg)).
(** What XRIT2Image writes for the files of a product, and under which name. *)
Theorem C204_picture l d p ns hd0 d0 files segs s i fo ov sc a b c : image_options l -> asked l d p -> good_product p -> plain_product p ->
  chosen (tool_like p) (ls d) ns -> Forall2 (fun n f => load (in_dir d n) = Some f) ns ((hd0, d0) :: files) ->
  parts h segs ((hd0, d0) :: files) -> h_seg hd0 = Some s -> h_image hd0 = Some i -> si_format s <> 0 -> si_last s = Z.of_nat (List.length segs) ->
  shaped (is_lines i) (is_cols i) segs -> 0 < is_lines i -> 0 < is_cols i -> is_cols i * is_lines i < 2 ^ 31 -> is_lines i * si_last s < 2 ^ 31 -> si_channel s < 12 ->
  lastv format_of l fo -> lastv overlay_of l ov -> lastv scale_of l sc ->
  turned (In XNormalize l) (is_cols i) (is_lines i * si_last s) (all_rows (is_lines i) (is_cols i) segs) a -> overlaid ov a b -> reduced sc (is_cols i) (is_lines i * si_last s) b c ->
  im l = Ok (0, Some (join 45 [pr_res p; pr_pid1 p; pr_pid2 p; pr_time p] ++ 46 :: match fo with Some f => f | None => codes "jpg" end, c)).
Proof using.
  intros O A G P C F PA HS HI NF LA SH NL NC B1 B2 CH LF LO LS TU OV RE. unfold im, image_main. rewrite (xparse_asked strtof l d p O A). cbn [bind]. rewrite (tool_glob ls d p ns G P C).
  assert (NE : ns <> []) by (inversion F; discriminate). destruct ns as [|n ns]; [now elim NE|]. pose proof (load_each load d _ _ F) as L. cbn [map] in L |- *. rewrite L.
  rewrite (C143_assembled h segs hd0 d0 files s i) by assumption. cbn [bind]. rewrite HS.
  assert (LP : 0 < si_last s).
  { destruct PA as [PE _]. destruct (PE hd0 d0 (or_introl eq_refl)) as (s' & im' & rows & E & B & N & _). assert (nth_error segs (Z.to_nat (si_seq s' - 1)) <> None) as X by congruence. apply nth_error_Some in X. lia. }
  unfold image_tail. replace ((is_cols i <=? 0) || (is_lines i * si_last s <=? 0)) with false by nia.
  assert (ET : rotate180 (if x_normalize (cmd_of strtof l) then normalized normalize (mk_pic (is_cols i) (is_lines i * si_last s) (List.concat (all_rows (is_lines i) (is_cols i) segs)))
     else mk_pic (is_cols i) (is_lines i * si_last s) (List.concat (all_rows (is_lines i) (is_cols i) segs))) = a).
  { unfold cmd_of. cbn [x_normalize].
    assert (EN : existsb (fun a => match a with XNormalize => true | _ => false end) l = true <-> In XNormalize l).
    { rewrite existsb_exists. split; [intros (z & Iz & Z0); now destruct z|intros I0; now exists XNormalize]. }
    destruct (existsb _ l); destruct TU as [N|N]; [elim N; now apply EN|reflexivity| |elim (Bool.diff_false_true (proj2 EN N))].
    unfold rotate180. cbn [p_wd p_hg p_px]. now rewrite rev_rows. }
  rewrite ET. unfold cmd_of. cbn [x_overlay x_scale x_format x_dir x_res x_id1 x_id2 x_time]. rewrite (lastv_lasts _ _ _ LO), (lastv_lasts _ _ _ LS).
  assert (EO : (match ov with Some f => if si_channel s <? 12 then match read_picture f with Some o => Ok (plus a o) | None => Terminate end else Ok a | None => Ok a end) = Ok b).
  { replace (si_channel s <? 12) with true by lia. destruct OV as [->|f o -> R]; [reflexivity|]. now rewrite R. }
  rewrite EO. cbn [bind].
  assert (EC : (if Qlt_le_dec (scaled strtof sc 1) 1 then scale b (times (scaled strtof sc 1) (is_cols i)) (times (scaled strtof sc 1) (is_lines i * si_last s)) else b) = c).
  { destruct RE as [->|g -> LT]; cbn [scaled].
    - destruct (Qlt_le_dec 1 1) as [Q1|Q1]; [exfalso; exact (Qlt_irrefl _ Q1)|reflexivity].
    - destruct (Qlt_le_dec (strtof g) 1) as [Q1|Q1]; [reflexivity|]. exfalso. exact (Qlt_not_le _ _ LT Q1). }
  rewrite EC. do 3 f_equal. unfold image_name. cbn [x_format of_product fa_res fa_pid1 fa_pid2 fa_timing]. rewrite (lastv_lasts _ _ _ LF).
  change (codes "-") with [45]. change (codes ".") with [46]. cbn [join app]. repeat (rewrite <- app_assoc; cbn [app]). reflexivity.
Qed.
(** An option more changes nothing else. *)
Lemma asked_more l d p a : asked l d p -> dir_of a = None -> res_of a = None -> id1_of a = None -> id2_of a = None -> time_of a = None -> asked (l ++ [a]) d p.
Proof using.
  clear. assert (M : forall sel l o, lastv sel l o -> sel a = None -> lastv sel (l ++ [a]) o).
  { intros sel l' [v|]; cbn [lastv]; intros H N.
    - destruct H as (l1 & b & l2 & -> & E & H). exists l1, b, (l2 ++ [a]). split; [now rewrite <- app_assoc|]. split; [exact E|]. intros c I. apply in_app_or in I as [I|[<-|[]]]; auto.
    - intros c I. apply in_app_or in I as [I|[<-|[]]]; auto. }
  intros [(o & D & E) R I1 I2 T] ND NR N1 N2 NT. constructor; auto. exists o. auto.
Qed.
Lemma image_more l a : image_options l -> match a with XArea _ | XVersion | XHelp | XWrong => False | _ => True end -> image_options (l ++ [a]).
Proof using. clear. intros O A b I. apply in_app_or in I as [I|[<-|[]]]; [exact (O b I)|exact A]. Qed.
(** -o makes no difference, not even for a file that is not there, to the high resolution
    channel; -g makes none with a factor that does not make the picture smaller. *)
Theorem C204_refuted_overlay l d p ns hd0 d0 files s f : image_options l -> asked l d p -> good_product p -> plain_product p ->
  chosen (tool_like p) (ls d) ns -> Forall2 (fun n f => load (in_dir d n) = Some f) ns ((hd0, d0) :: files) -> h_seg hd0 = Some s -> 12 <= si_channel s ->
  im (l ++ [XOverlay f]) = im l.
Proof using.
  intros O A G P C F HS CH. unfold im, image_main. rewrite (xparse_asked strtof l d p O A), (xparse_asked strtof (l ++ [XOverlay f]) d p (image_more l (XOverlay f) O I) (asked_more l d p (XOverlay f) A eq_refl eq_refl eq_refl eq_refl eq_refl)). cbn [bind]. rewrite (tool_glob ls d p ns G P C).
  assert (NE : ns <> []) by (inversion F; discriminate). destruct ns as [|n ns]; [now elim NE|]. pose proof (load_each load d _ _ F) as L. cbn [map] in L |- *. rewrite L.
  destruct (assemble h ((hd0, d0) :: files)) as [[[[npix nlin] px]|]| | | |]; cbn [bind]; try reflexivity. rewrite HS. unfold image_tail, image_name, cmd_of. cbn [x_normalize x_overlay x_scale x_format]. rewrite !lasts_app, existsb_app. cbn [lasts format_of overlay_of scale_of existsb orb]. rewrite orb_false_r.
  replace (si_channel s <? 12) with false by lia. now destruct (lasts overlay_of l None).
Qed.
Theorem C204_refuted_larger l g : image_options l -> lastv scale_of l None -> (1 <= strtof g)%Q -> im (l ++ [XScale g]) = im l.
Proof using.
  intros O N LE. unfold im, image_main, xparse. rewrite (xall_start strtof l O), (xall_start strtof _ (image_more l (XScale g) O I)). cbn [bind]. unfold xproduct, cmd_of, image_name, image_tail.
  cbn [x_normalize x_overlay x_scale x_format x_res x_id1 x_id2 x_time x_dir]. rewrite !lasts_app, existsb_app. cbn [lasts format_of overlay_of scale_of dir_of res_of id1_of id2_of time_of existsb orb]. rewrite orb_false_r.
  destruct (lasts res_of l None) as [r|]; [|reflexivity]. destruct (lasts id1_of l None) as [i1|]; [|reflexivity]. destruct (lasts id2_of l None) as [i2|]; [|reflexivity]. destruct (lasts time_of l None) as [t|]; [|reflexivity].
  destruct (glob ls _) as [|x r0]; [reflexivity|]. destruct (load_all load (x :: r0)) as [[|[hd0 d0] files]|]; [reflexivity| |reflexivity]. destruct (assemble h ((hd0, d0) :: files)) as [[[[npix nlin] px]|]| | | |]; cbn [bind]; try reflexivity.
  destruct (h_seg hd0) as [s|]; [|reflexivity]. cbn [x_normalize x_overlay x_scale x_format]. destruct (_ || _); [reflexivity|].
  rewrite (lastv_lasts _ _ _ N). cbn [scaled].
  assert (Q0 : forall (x y : pic), (if Qlt_le_dec (strtof g) 1 then x else y) = y) by (intros x0 y0; destruct (Qlt_le_dec (strtof g) 1) as [Q1|Q1]; [exfalso; exact (Qlt_not_le _ _ Q1 LE)|reflexivity]).
  assert (Q2 : forall (x y : pic), (if Qlt_le_dec 1 1 then x else y) = y) by (intros x0 y0; destruct (Qlt_le_dec 1 1) as [Q1|Q1]; [exfalso; exact (Qlt_irrefl _ Q1)|reflexivity]).
  destruct (lasts overlay_of l None) as [f|]; [destruct (si_channel s <? 12); [destruct (read_picture f)|]|]; cbn [bind]; rewrite ?Q0, ?Q2; reflexivity.
Qed.
(** An overlay that cannot be read ends the program. *)
Theorem C204_no_overlay l d p ns hd0 d0 files segs s i f : image_options l -> asked l d p -> good_product p -> plain_product p ->
  chosen (tool_like p) (ls d) ns -> Forall2 (fun n f => load (in_dir d n) = Some f) ns ((hd0, d0) :: files) ->
  parts h segs ((hd0, d0) :: files) -> h_seg hd0 = Some s -> h_image hd0 = Some i -> si_format s <> 0 -> si_last s = Z.of_nat (List.length segs) ->
  shaped (is_lines i) (is_cols i) segs -> 0 < is_lines i -> 0 < is_cols i -> is_cols i * is_lines i < 2 ^ 31 -> is_lines i * si_last s < 2 ^ 31 -> si_channel s < 12 ->
  lastv overlay_of l (Some f) -> read_picture f = None -> im l = Terminate.
Proof using.
  intros O A G P C F PA HS HI NF LA SH NL NC B1 B2 CH LO R. unfold im, image_main. rewrite (xparse_asked strtof l d p O A). cbn [bind]. rewrite (tool_glob ls d p ns G P C).
  assert (NE : ns <> []) by (inversion F; discriminate). destruct ns as [|n ns]; [now elim NE|]. pose proof (load_each load d _ _ F) as L. cbn [map] in L |- *. rewrite L.
  rewrite (C143_assembled h segs hd0 d0 files s i) by assumption. cbn [bind]. rewrite HS. unfold image_tail. destruct (_ || _); [reflexivity|]. unfold cmd_of. cbn [x_overlay x_normalize x_scale].
  rewrite (lastv_lasts _ _ _ LO), R. now replace (si_channel s <? 12) with true by lia.
Qed.

(** ** C205 *)
Lemma xall_app l1 l2 : forall m, xall strtof m (l1 ++ l2) = let! r := xall strtof m l1 in match r with inl m' => xall strtof m' l2 | inr e => Ok (inr e) end.
Proof using. clear. induction l1 as [|a l1 IH]; intros m; [reflexivity|]. cbn [app xall]. destruct (xone strtof m a) as [[m'|e]| | | |]; cbn [bind]; auto. Qed.
(** The last product in options around -a. *)
Lemma lasts_around sel l1 x l2 : (forall a, In a x -> sel a = None) -> lasts sel (l1 ++ x ++ l2) None = lasts sel (l1 ++ l2) None.
Proof using. clear. intros N. rewrite !lasts_app. f_equal. now apply lasts_none. Qed.
Lemma xall_areas l1 x l2 w : netcdf_options l1 -> netcdf_options l2 -> (forall a, In a x -> exists t, a = XArea t) ->
  (forall m, x_win m = (1, 0, 1, 0) -> xall strtof m x = Ok (inl (mk_x (x_dir m) (x_res m) (x_id1 m) (x_id2 m) (x_time m) (x_format m) (x_scale m) (x_overlay m) (x_normalize m) true w))) ->
  exists m, xall strtof x0 (l1 ++ x ++ l2) = Ok (inl m) /\ x_area m = true /\ x_win m = w /\ xproduct m = xproduct (cmd_of strtof (l1 ++ l2)).
Proof using.
  clear. intros O1 O2 X H. rewrite xall_app, (xall_start strtof l1 (netcdf_image l1 O1)). cbn [bind]. rewrite xall_app, H by reflexivity. cbn [bind]. unfold cmd_of. cbn [x_dir x_res x_id1 x_id2 x_time x_format x_scale x_overlay x_normalize].
  rewrite (lasts_other scale_of l1 O1) by (intros []; tauto). cbn [scaled]. change 1%Q with (scaled strtof None 1%Q) at 1. rewrite (xall_image strtof l2 (netcdf_image l2 O2)).
  eexists. split; [reflexivity|]. split; [reflexivity|]. split; [reflexivity|]. unfold xproduct. cbn [x_res x_id1 x_id2 x_time x_dir]. now rewrite !lasts_app.
Qed.
Lemma input_areas l1 x l2 w d p ns fs n0 pro lin n pix np : netcdf_options l1 -> netcdf_options l2 -> (forall a, In a x -> exists t, a = XArea t) ->
  (forall m, x_win m = (1, 0, 1, 0) -> xall strtof m x = Ok (inl (mk_x (x_dir m) (x_res m) (x_id1 m) (x_id2 m) (x_time m) (x_format m) (x_scale m) (x_overlay m) (x_normalize m) true w))) ->
  w = (lin - 1, n, pix - 1, np) ->
  asked (l1 ++ l2) d p -> good_product p -> plain_product p ->
  chosen (tool_like p) (ls d) ns -> ns <> [] -> Forall2 (fun n f => load (in_dir d n) = Some f) ns fs ->
  chosen (aux_like PRO p) (ls d) [n0] -> load (in_dir d n0) = Some pro ->
  nc (l1 ++ x ++ l2) = Ok (inl (pro, fs, Some (lin, n, pix, np))).
Proof using.
  clear im h normalize scale times read_picture plus. intros O1 O2 X H EW A G P C NE F CP LP. destruct (xall_areas l1 x l2 w O1 O2 X H) as (m & E & EA & EX & EP).
  assert (O : image_options (l1 ++ l2)) by (apply netcdf_image; intros a I; apply in_app_or in I as [I|I]; [exact (O1 a I)|exact (O2 a I)]).
  pose proof (xparse_asked strtof (l1 ++ l2) d p O A) as XP. unfold xparse in XP. rewrite (xall_start strtof _ O) in XP. cbn [bind] in XP. rewrite <- EP in XP.
  unfold nc, netcdf_input, xparse. rewrite E. cbn [bind]. destruct (xproduct m) as [fa|]; [|discriminate XP]. assert (fa = of_product d p) by congruence. subst fa.
  rewrite (pro_glob ls d p [n0] G P CP), (tool_glob ls d p ns G P C). cbn [map]. rewrite LP, EA, EX, EW.
  destruct ns as [|n1 ns]; [now elim NE|]. pose proof (load_each load d _ _ F) as L. cbn [map] in L |- *. rewrite L. replace (lin - 1 + 1) with lin by lia. replace (pix - 1 + 1) with pix by lia. reflexivity.
Qed.
(** The texts that -a takes: four numbers with commas between them; the rest is ignored. *)
Definition four (s : str) (lin n pix np : Z) : Prop := exists a b c d r, s = a ++ [44] ++ b ++ [44] ++ c ++ [44] ++ d ++ r /\
  numeral a lin /\ numeral b n /\ numeral c pix /\ numeral d np /\ nodigit r /\ int_value (lin - 1) /\ int_value lin /\ int_value n /\ int_value (pix - 1) /\ int_value pix /\ int_value np.
Lemma four_scan s lin n pix np w : four s lin n pix np -> scan4 s w = Ok (lin, n, pix, np).
Proof using.
  clear. intros (a & b & c & d & r & -> & A & B & C & D & R & _ & IA & IB & _ & IC & ID). destruct w as [[[l nl] p] q]. unfold scan4.
  assert (SA : scan_d (a ++ [44] ++ b ++ [44] ++ c ++ [44] ++ d ++ r) = Ok (Some (lin, [44] ++ b ++ [44] ++ c ++ [44] ++ d ++ r))) by (apply scan_d_spec; exists a; split; [reflexivity|]; split; [assumption|]; split; [cbn; lia|assumption]).
  rewrite SA. cbn [app bind scan_more comma Z.eqb Pos.eqb].
  assert (SB : scan_d (b ++ 44 :: c ++ 44 :: d ++ r) = Ok (Some (n, 44 :: c ++ 44 :: d ++ r))) by (apply scan_d_spec; exists b; split; [reflexivity|]; split; [assumption|]; split; [cbn; lia|assumption]).
  rewrite SB. cbn [bind scan_more comma Z.eqb Pos.eqb].
  assert (SC : scan_d (c ++ 44 :: d ++ r) = Ok (Some (pix, 44 :: d ++ r))) by (apply scan_d_spec; exists c; split; [reflexivity|]; split; [assumption|]; split; [cbn; lia|assumption]).
  rewrite SC. cbn [bind scan_more comma Z.eqb Pos.eqb].
  assert (SD : scan_d (d ++ r) = Ok (Some (np, r))) by (apply scan_d_spec; exists d; split; [reflexivity|]; auto).
  rewrite SD. reflexivity.
Qed.
Lemma four_one s lin n pix np m : four s lin n pix np -> xone strtof m (XArea s) =
  Ok (inl (mk_x (x_dir m) (x_res m) (x_id1 m) (x_id2 m) (x_time m) (x_format m) (x_scale m) (x_overlay m) (x_normalize m) true (lin - 1, n, pix - 1, np))).
Proof using.
  clear. intros H. destruct m as [di re i1 i2 ti fo sc ov no ar wi]. cbn [xone]. rewrite (four_scan _ _ _ _ _ _ H). cbn [bind]. destruct H as (_ & _ & _ & _ & _ & _ & _ & _ & _ & _ & _ & I1 & _ & _ & I2 & _).
  apply int_fits_iff in I1, I2. now rewrite I1, I2.
Qed.
(** The product is made of the part asked for: first line, lines, first pixel, pixels. *)
Theorem C205_area l1 s l2 d p ns fs n0 pro lin n pix np : netcdf_options l1 -> netcdf_options l2 -> four s lin n pix np ->
  asked (l1 ++ l2) d p -> good_product p -> plain_product p ->
  chosen (tool_like p) (ls d) ns -> ns <> [] -> Forall2 (fun n f => load (in_dir d n) = Some f) ns fs ->
  chosen (aux_like PRO p) (ls d) [n0] -> load (in_dir d n0) = Some pro ->
  nc (l1 ++ XArea s :: l2) = Ok (inl (pro, fs, Some (lin, n, pix, np))).
Proof using.
  clear im h normalize scale times read_picture plus. intros O1 O2 FO A G P C NE F CP LP. change (l1 ++ XArea s :: l2) with (l1 ++ [XArea s] ++ l2).
  apply (input_areas l1 [XArea s] l2 (lin - 1, n, pix - 1, np) d p ns fs n0 pro lin n pix np); try assumption; [intros a [<-|[]]; eauto| |reflexivity].
  intros m _. cbn [xall]. now rewrite (four_one s lin n pix np m FO).
Qed.
(** With less than four numbers the fourth is 0, and there is neither a product nor a
    message: the program ends with an exception or works on a null pointer. *)
Theorem C205_refuted_few l1 s l2 d p ns fs n0 pro : netcdf_options l1 -> netcdf_options l2 -> area s = Ok None ->
  asked (l1 ++ l2) d p -> good_product p -> plain_product p ->
  chosen (tool_like p) (ls d) ns -> ns <> [] -> Forall2 (fun n f => load (in_dir d n) = Some f) ns fs ->
  chosen (aux_like PRO p) (ls d) [n0] -> load (in_dir d n0) = Some pro ->
  nc (l1 ++ XArea s :: l2) = UB \/
  exists w, nc (l1 ++ XArea s :: l2) = Ok (inl (pro, fs, Some w)) /\ forall hs t lon out, ConvModel.product hs fs t lon (Some w) <> Ok (Some out).
Proof using.
  clear im h normalize scale times read_picture plus. intros O1 O2 FO A G P C NE F CP LP. change (l1 ++ XArea s :: l2) with (l1 ++ [XArea s] ++ l2).
  assert (S4 : exists lin n pix, scan4 s (1, 0, 1, 0) = Ok (lin, n, pix, 0)).
  { unfold area in FO. unfold scan4. destruct (scan_d s) as [a| | | |]; try discriminate. cbn [bind] in *. destruct (scan_more a) as [b| | | |]; try discriminate. cbn [bind] in *.
    destruct (scan_more b) as [c| | | |]; try discriminate. cbn [bind] in *. destruct (scan_more c) as [[e|]| | | |]; try discriminate. cbn [bind]. eauto. }
  destruct S4 as (lin & n & pix & S4). destruct (int_fits (lin - 1) && int_fits (pix - 1)) eqn:FI.
  - right. exists (lin, n, pix, 0). split.
    + apply (input_areas l1 [XArea s] l2 (lin - 1, n, pix - 1, 0) d p ns fs n0 pro lin n pix 0); try assumption; [intros a [<-|[]]; eauto| |reflexivity].
      intros [di re i1 i2 ti fo sc ov no ar wi] W. cbn [x_win] in W. subst wi. cbn [xall xone]. rewrite S4. cbn [bind]. rewrite FI. reflexivity.
    + intros hs t lon out E. unfold ConvModel.product in E. destruct (assemble hs fs) as [[[[npix nlin] px]|]| | | |]; try discriminate. cbn [bind] in E. destruct fs as [|[hd0 d0] files]; [discriminate|].
      unfold subarea in E. destruct (negb _); [discriminate|]. destruct (wrong_range (lin - 1) n nlin) as [[|]| | | |]; try discriminate. cbn [bind] in E. destruct (wrong_range (pix - 1) 0 npix) as [[|]| | | |]; try discriminate. cbn [bind] in E.
      destruct (negb _); [discriminate|]. destruct (0 * n <? 0); [discriminate|]. destruct (cut_rows _ _ _ _ _ _) as [cut| | | |]; try discriminate. cbn [bind] in E.
      destruct t as [t|]; [|discriminate]. destruct (h_seg hd0); [|discriminate]. destruct (h_image hd0); [|discriminate]. destruct (h_navig hd0); [|discriminate]. destruct (existsb _ _); discriminate.
  - left. unfold nc, netcdf_input, xparse. rewrite xall_app, (xall_start strtof l1 (netcdf_image l1 O1)). cbn [bind]. unfold cmd_of. cbn [app xall xone]. rewrite S4. cbn [bind]. rewrite FI. reflexivity.
Qed.
(** A second -a without numbers keeps those of the first, one line and one pixel before. *)
Theorem C205_refuted_again l1 s s2 l2 d p ns fs n0 pro lin n pix np : netcdf_options l1 -> netcdf_options l2 -> four s lin n pix np -> scan_d s2 = Ok None -> int_value (lin - 2) -> int_value (pix - 2) ->
  asked (l1 ++ l2) d p -> good_product p -> plain_product p ->
  chosen (tool_like p) (ls d) ns -> ns <> [] -> Forall2 (fun n f => load (in_dir d n) = Some f) ns fs ->
  chosen (aux_like PRO p) (ls d) [n0] -> load (in_dir d n0) = Some pro ->
  nc (l1 ++ XArea s :: XArea s2 :: l2) = Ok (inl (pro, fs, Some (lin - 1, n, pix - 1, np))).
Proof using.
  clear im h normalize scale times read_picture plus. intros O1 O2 FO S2 I1 I2 A G P C NE F CP LP. change (l1 ++ XArea s :: XArea s2 :: l2) with (l1 ++ [XArea s; XArea s2] ++ l2).
  apply (input_areas l1 [XArea s; XArea s2] l2 (lin - 1 - 1, n, pix - 1 - 1, np) d p ns fs n0 pro (lin - 1) n (pix - 1) np); try assumption; [intros a [<-|[<-|[]]]; eauto| |reflexivity].
  intros m _. cbn [xall]. rewrite (four_one s lin n pix np m FO). cbn [bind xone]. unfold scan4. rewrite S2. cbn [bind scan_more].
  replace (lin - 1 - 1) with (lin - 2) by lia. replace (pix - 1 - 1) with (pix - 2) by lia. apply int_fits_iff in I1, I2. now rewrite I1, I2.
Qed.
End Run.
Print Assumptions C203_segments.
Print Assumptions C203_prologue.
Print Assumptions C203_none.
Print Assumptions C203_unreadable.
Print Assumptions C203_missing.
Print Assumptions C203_driver.
Print Assumptions C203_refuted_wrong.
Print Assumptions C203_refuted_long.
Print Assumptions C203_refuted_pattern.
Print Assumptions C203_refuted_twice.
Print Assumptions C204_picture.
Print Assumptions C204_refuted_overlay.
Print Assumptions C204_refuted_larger.
Print Assumptions C204_no_overlay.
Print Assumptions C205_area.
Print Assumptions C205_refuted_few.
Print Assumptions C205_refuted_again.

(** ** Cases *)
(** A compressed segment, one that is not, the prologue and another channel. *)
Definition ex_c : list Z := codes "H-000-MSG1__-MSG1________-IR_039___-000001___-200611130800-C_".
Definition ex_u : list Z := codes "H-000-MSG1__-MSG1________-IR_039___-000003___-200611130800-__".
Definition ex_pro : list Z := codes "H-000-MSG1__-MSG1________-_________-PRO______-200611130800-__".
Definition ex_other : list Z := codes "H-000-MSG1__-MSG1________-IR_087___-000001___-200611130800-C_".
Definition ex_ls (d : list Z) : list (list Z) := if list_eq_dec Z.eq_dec d (codes ".") then [ex_pro; ex_c; ex_u; ex_other] else [].
Definition ex_load (p : str) : option (header * mdata) :=
  if list_eq_dec Z.eq_dec p (in_dir (codes ".") ex_c) then Some (ex_header 1 3 2, ex_data ex_south)
  else if list_eq_dec Z.eq_dec p (in_dir (codes ".") ex_u) then Some (ex_header 3 3 2, ex_data ex_north)
  else if list_eq_dec Z.eq_dec p (in_dir (codes ".") ex_pro) then Some (empty_header, new_mdata) else None.
Definition ex_options : list xopt := [XRes (codes "L"); XId1 (codes "MSG1"); XRes (codes "H"); XTime (codes "200611130800"); XId2 (codes "IR_039")].
Example C203_options : netcdf_options ex_options /\ asked ex_options (codes ".") demo_product.
Proof.
  split; [intros a [<-|[<-|[<-|[<-|[<-|[]]]]]]; exact I|]. constructor.
  - exists None. split; [|reflexivity]. intros b [<-|[<-|[<-|[<-|[<-|[]]]]]]; reflexivity.
  - exists [XRes (codes "L"); XId1 (codes "MSG1")], (XRes (codes "H")), [XTime (codes "200611130800"); XId2 (codes "IR_039")]. split; [reflexivity|]. split; [reflexivity|]. intros b [<-|[<-|[]]]; reflexivity.
  - exists [XRes (codes "L")], (XId1 (codes "MSG1")), [XRes (codes "H"); XTime (codes "200611130800"); XId2 (codes "IR_039")]. split; [reflexivity|]. split; [reflexivity|]. intros b [<-|[<-|[<-|[]]]]; reflexivity.
  - exists [XRes (codes "L"); XId1 (codes "MSG1"); XRes (codes "H"); XTime (codes "200611130800")], (XId2 (codes "IR_039")), []. split; [reflexivity|]. split; [reflexivity|]. intros b [].
  - exists [XRes (codes "L"); XId1 (codes "MSG1"); XRes (codes "H")], (XTime (codes "200611130800")), [XId2 (codes "IR_039")]. split; [reflexivity|]. split; [reflexivity|]. intros b [<-|[]]; reflexivity.
Qed.
Lemma demo_widths : (List.length (pr_pid1 demo_product) <= 12)%nat /\ (List.length (pr_pid2 demo_product) <= 9)%nat.
Proof. cbn. lia. Qed.
Example C203_names : chosen (tool_like demo_product) (ex_ls (codes ".")) [ex_c; ex_u] /\ chosen (aux_like PRO demo_product) (ex_ls (codes ".")) [ex_pro].
Proof.
  assert (M1 : forall n, gmatch true (base_tool demo_product) n = true <-> tool_like demo_product n) by (intros n; apply tool_match; [exact (proj2 demo_good)|exact (proj1 demo_widths)|exact (proj2 demo_widths)]).
  assert (M2 : forall n, gmatch true (base_aux PRO demo_product) n = true <-> aux_like PRO demo_product n) by (intros n; apply aux_match; [exact (proj2 demo_good)|unfold plain; cbn; repeat constructor; lia|exact (proj1 demo_widths)]).
  split; change (ex_ls (codes ".")) with [ex_pro; ex_c; ex_u; ex_other].
  - apply ch_skip; [intros X; apply M1 in X; vm_compute in X; discriminate X|]. apply ch_take; [apply M1; vm_compute; reflexivity|]. apply ch_take; [apply M1; vm_compute; reflexivity|]. apply ch_skip; [intros X; apply M1 in X; vm_compute in X; discriminate X|]. apply ch_nil.
  - apply ch_take; [apply M2; vm_compute; reflexivity|]. apply ch_skip; [intros X; apply M2 in X; vm_compute in X; discriminate X|]. apply ch_skip; [intros X; apply M2 in X; vm_compute in X; discriminate X|]. apply ch_skip; [intros X; apply M2 in X; vm_compute in X; discriminate X|]. apply ch_nil.
Qed.
Example C203_case strtof : netcdf_input strtof ex_ls ex_load ex_options = Ok (inl ((empty_header, new_mdata), [(ex_header 1 3 2, ex_data ex_south); (ex_header 3 3 2, ex_data ex_north)], None)).
Proof.
  apply (C203_segments strtof ex_ls ex_load ex_options (codes ".") demo_product [ex_c; ex_u] _ ex_pro); try (apply C203_options); try (apply demo_good); try (apply C203_names); try discriminate; [|vm_compute; reflexivity].
  constructor; [vm_compute; reflexivity|]. constructor; [vm_compute; reflexivity|constructor].
Qed.
(** The second segment is missing. *)
Example C204_case strtof h normalize scale times read plus : image_main strtof h ex_ls ex_load normalize scale times read plus (ex_options ++ [XFormat (codes "png")]) =
  Ok (0, Some (codes "H-MSG1-IR_039-200611130800.png", mk_pic 3 6 [12; 11; 10; 900; 800; 700; 0; 0; 0; 0; 0; 0; 6; 5; 4; 3; 2; 1])).
Proof. vm_compute. reflexivity. Qed.
Example C204_smaller h normalize scale times read plus o : read (codes "map.png") = Some o ->
  image_main (fun _ => (1 # 5)%Q) h ex_ls ex_load normalize scale times read plus (ex_options ++ [XScale (codes "0.2"); XOverlay (codes "map.png"); XNormalize]) =
  Ok (0, Some (codes "H-MSG1-IR_039-200611130800.jpg", scale (plus (mk_pic 3 6 (rev (normalize [1; 2; 3; 4; 5; 6; 0; 0; 0; 0; 0; 0; 700; 800; 900; 10; 11; 12]))) o) (times (1 # 5)%Q 3) (times (1 # 5)%Q 6))).
Proof.
  intros R. unfold image_main. replace (xparse _ _) with (Ok (inl (cmd_of (fun _ => (1 # 5)%Q) (ex_options ++ [XScale (codes "0.2"); XOverlay (codes "map.png"); XNormalize]), of_product (codes ".") demo_product) : xcmd * fileaccess + Z)) by reflexivity.
  cbn [bind]. replace (glob ex_ls _) with [in_dir (codes ".") ex_c; in_dir (codes ".") ex_u] by (vm_compute; reflexivity). replace (load_all ex_load _) with (Some [(ex_header 1 3 2, ex_data ex_south); (ex_header 3 3 2, ex_data ex_north)]) by (vm_compute; reflexivity).
  replace (assemble h _) with (Ok (Some (3, 6, [1; 2; 3; 4; 5; 6; 0; 0; 0; 0; 0; 0; 700; 800; 900; 10; 11; 12]))) by reflexivity. cbn [bind h_seg]. unfold image_tail. cbn -[codes]. rewrite R. reflexivity.
Qed.
Example C205_case : four (codes "5,2,2,2 of 6") 5 2 2 2 /\ area (codes "5,2") = Ok None /\ scan_d (codes "all") = Ok None.
Proof.
  split; [|split; reflexivity]. exists (codes "5"), (codes "2"), (codes "2"), (codes "2"), (codes " of 6"). split; [reflexivity|].
  assert (N : forall c, 48 <= c <= 57 -> numeral [c] (c - 48)).
  { intros c C. exists [], [], [c]. split; [reflexivity|]. split; [constructor|]. split; [split; [discriminate|repeat constructor; lia]|]. left. split; [now left|]. cbn. lia. }
  unfold int_value. repeat split; try lia; try (cbn; lia); [exact (N 53 ltac:(lia))|exact (N 50 ltac:(lia))..].
Qed.
Example C205_result strtof : netcdf_input strtof ex_ls ex_load (ex_options ++ [XArea (codes "5,2,2,2")]) =
    Ok (inl ((empty_header, new_mdata), [(ex_header 1 3 2, ex_data ex_south); (ex_header 3 3 2, ex_data ex_north)], Some (5, 2, 2, 2))) /\
  netcdf_input strtof ex_ls ex_load (ex_options ++ [XArea (codes "5,2")]) =
    Ok (inl ((empty_header, new_mdata), [(ex_header 1 3 2, ex_data ex_south); (ex_header 3 3 2, ex_data ex_north)], Some (5, 2, 1, 0))).
Proof. split; vm_compute; reflexivity. Qed.
