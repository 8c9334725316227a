(** Properties C197 and C198: pictures of MSG native files. *)
From Verif Require Import BaseFacts IniModel MachineModel GribModel NativeModel NativeSpec NativeProofs NativeTextModel NativeTextProps NativeProps NativeImageModel Db1Spec Db1Props.
From Coq Require Import String.
Open Scope string_scope.
Open Scope list_scope.
Open Scope Z_scope.

(** ** The format of PGM files (pgm(5)): "P5"; white space and comments, each from a '#'
    to the end of its line; the width; again; the height; again; the largest value;
    one white space; the samples by lines, of two bytes, most significant first, when
    the largest value is over 255. *)
Fixpoint gap (comment : bool) (t : list Z) : list Z :=
  match t with
  | [] => []
  | c :: t' => if comment then gap (negb (c =? 10)) t'
               else if (c =? 32) || ((9 <=? c) && (c <=? 13)) then gap false t'
               else if c =? 35 then gap true t' else t
  end.
Fixpoint run (t : list Z) : list Z * list Z :=
  match t with
  | c :: t' => if (48 <=? c) && (c <=? 57) then let '(w, r) := run t' in (c :: w, r) else ([], t)
  | [] => ([], [])
  end.
Definition numeral (t : list Z) : option (Z * list Z) :=
  match run (gap false t) with ([], _) => None | (w, r) => Some (dec_val w, r) end.
Fixpoint pairs (t : list Z) : list Z := match t with a :: b :: t' => 256 * a + b :: pairs t' | _ => [] end.
Definition pgm_read (t : list Z) : option (Z * Z * Z * list Z) :=
  match t with
  | 80 :: 53 :: t =>
      match numeral t with
      | None => None
      | Some (wd, t) =>
          match numeral t with
          | None => None
          | Some (hg, t) =>
              match numeral t with
              | None => None
              | Some (top, t) =>
                  match t with
                  | [] => None
                  | _ :: t => Some (wd, hg, top, firstn (Z.to_nat (wd * hg)) (if 255 <? top then pairs t else t))
                  end
              end
          end
      end
  | _ => None
  end.

(** *** Reading what the program writes *)
Lemma run_app w r : Forall Db1Spec.digit w -> match r with c :: _ => ~ 48 <= c <= 57 | [] => True end -> run (w ++ r) = (w, r).
Proof.
  induction 1 as [|c w H _ IH]; intros S; cbn [app run].
  - destruct r as [|c r]; [reflexivity|]. cbn [run]. replace ((48 <=? c) && (c <=? 57)) with false by lia. reflexivity.
  - unfold Db1Spec.digit in H. replace ((48 <=? c) && (c <=? 57)) with true by lia. now rewrite (IH S).
Qed.
Lemma gap_digits w r : w <> [] -> Forall Db1Spec.digit w -> gap false (w ++ r) = w ++ r.
Proof. intros N F. destruct F as [|c w H F]; [contradiction|]. unfold Db1Spec.digit in H. cbn [app gap]. replace ((c =? 32) || ((9 <=? c) && (c <=? 13))) with false by lia. replace (c =? 35) with false by lia. reflexivity. Qed.
Lemma numeral_show z c r : 0 <= z < 10 ^ 19 -> ~ 48 <= c <= 57 -> numeral (show z ++ c :: r) = Some (z, c :: r).
Proof.
  intros B C. unfold show. replace (z <? 0) with false by lia. destruct (print_plain z B) as (N & F & V & _). unfold numeral. rewrite gap_digits, run_app by assumption. destruct (print z); [contradiction|]. now rewrite <- V.
Qed.
Lemma numeral_gap c t : c = 32 \/ 9 <= c <= 13 -> numeral (c :: t) = numeral t.
Proof. intros H. unfold numeral. cbn [gap]. replace ((c =? 32) || ((9 <=? c) && (c <=? 13))) with true by lia. reflexivity. Qed.
(** A comment that is one line. *)
Definition one_line (i : list Z) : Prop := exists b, i = b ++ [10] /\ ~ In 10 b.
Lemma gap_in b t : ~ In 10 b -> gap true (b ++ 10 :: t) = gap false t.
Proof. induction b as [|c b IH]; intros N; cbn [app gap]; [reflexivity|]. cbn [In] in N. replace (c =? 10) with false by lia. cbn [negb]. apply IH. tauto. Qed.
Lemma gap_comments infos t : Forall one_line infos -> gap false (flat_map (fun i => codes "# " ++ i) infos ++ t) = gap false t.
Proof.
  induction 1 as [|i infos (b & -> & N) _ IH]; [reflexivity|]. cbn [flat_map]. rewrite <- !app_assoc. cbn [app].
  match goal with |- gap false (codes "# " ++ ?r) = _ => change (gap false (codes "# " ++ r)) with (gap true r) end. rewrite gap_in by exact N. exact IH.
Qed.
Lemma numeral_comments infos t : Forall one_line infos -> numeral (flat_map (fun i => codes "# " ++ i) infos ++ t) = numeral t.
Proof. intros F. unfold numeral. now rewrite gap_comments. Qed.
Lemma pairs_bytes hs l t : pairs (flat_map (bytes2 hs) l ++ t) = map (fun v => match hs with LE => 256 * (v mod 256) + v / 256 | BE => 256 * (v / 256) + v mod 256 end) l ++ pairs t.
Proof. induction l as [|v l IH]; [reflexivity|]. cbn [flat_map map]. destruct hs; cbn [bytes2 app pairs]; now rewrite IH. Qed.
Lemma dump_full hs h q : forall ls ds room, map (fun l => nth (nl_ptr l) h None) ls = map Some ds -> Forall (fun d => bytes_ok d /\ List.length d = 5 * q)%nat ds ->
  room = None \/ room = Some (Z.of_nat (4 * q)) -> dump_loop hs h room ls = Ok (flat_map (bytes2 hs) (flat_map groups ds)).
Proof.
  induction ls as [|l ls IH]; intros [|d ds] room M F R; try discriminate M; [reflexivity|]. cbn [map] in M. injection M as M1 M2. inversion F as [|? ? [Bd Ld] Fd]; subst. cbn [dump_loop]. rewrite M1. cbv zeta.
  assert (N : nsample d = Z.of_nat (4 * q)) by (unfold nsample; rewrite Ld; lia). replace (match room with None => nsample d | Some r => r end) with (Z.of_nat (4 * q)) by (destruct R as [->| ->]; [now rewrite N|reflexivity]).
  rewrite to_sample_spec by exact Bd. rewrite Ld. replace (5 * q / 5)%nat with q by lia. replace ((5 * q) mod 5 =? 0)%nat with true by (symmetry; apply Nat.eqb_eq; lia). replace (Z.of_nat (q * 4) <=? Z.of_nat (4 * q)) with true by lia. rewrite orb_true_r. cbn [andb bind].
  rewrite (IH ds _ M2 Fd) by auto. cbn [bind flat_map]. now rewrite flat_map_app.
Qed.
Lemma dump_dead hs h ls : forall room, Forall (fun o => match o with Some d => bytes_ok d | None => True end) h -> (exists l, In l ls /\ nth (nl_ptr l) h None = None) -> dump_loop hs h room ls = UB.
Proof.
  induction ls as [|l ls IH]; intros room F (k & I & D); [contradiction|]. cbn [dump_loop]. destruct (nth (nl_ptr l) h None) as [d|] eqn:E; [|reflexivity]. cbv zeta.
  assert (Bd : bytes_ok d). { rewrite Forall_forall in F. apply (F (Some d)). rewrite <- E. apply nth_In. destruct (Nat.lt_ge_cases (nl_ptr l) (List.length h)) as [|G]; [assumption|]. rewrite (nth_overflow _ _ G) in E. discriminate. }
  rewrite to_sample_spec by exact Bd. destruct (_ && _); [|reflexivity]. cbn [bind]. rewrite IH; [reflexivity|exact F|]. exists k. destruct I as [->|I]; [congruence|auto].
Qed.
Definition swapped (v : Z) : Z := 256 * (v mod 256) + v / 256.

(** ** C197 *)
Theorem C197_dump_partial : forall sel n s x last c infos cols rows, bytes_ok s -> read_native LE sel n s = Ok x -> last_selected sel last -> (c < 12)%nat -> c <> last -> nth c sel false = true ->
  Forall one_line infos -> 0 <= cols < 2 ^ 31 -> 0 <= rows < 2 ^ 31 ->
  exists ps, s = file_bytes ps ++ nt_rest x /\
    let ds := map pk_data (of_channel c (order sel n) ps) in
    forall q, Forall (fun d => List.length d = 5 * q)%nat ds -> cols = Z.of_nat (4 * q) -> rows = Z.of_nat (List.length ds) ->
    exists f, pgmdump LE x sel infos cols rows (Z.of_nat c) true = Ok (Some f) /\
      pgm_read f = Some (cols, rows, 1024, map swapped (flat_map groups ds)).
Proof.
  intros sel n s x last c infos cols rows B E La Hc Ne Sc Fi Bc Br. destruct (read_native_bwd sel n s x B E) as (ps & L & P & S & (Hh & _ & N & C)). exists ps. split; [exact S|]. intros ds q F Ec Er.
  assert (M : map (fun l => nth (nl_ptr l) (dropped ps) None) (of_channel c (order sel n) (lines_of 0 ps)) = map Some ds) by (eapply live_data; eauto).
  assert (Bd : Forall (fun d => bytes_ok d /\ List.length d = 5 * q)%nat ds).
  { rewrite Forall_forall in *. intros d I. split; [|now apply F]. unfold ds in I. apply in_map_iff in I as (p & <- & I). apply of_channel_in in I. apply P in I. apply I. }
  unfold pgmdump. replace ((Z.of_nat c <? 0) || (12 <=? Z.of_nat c)) with false by lia. rewrite Nat2Z.id, Sc. cbn [negb]. rewrite Hh, (C c Hc), (dump_full LE _ q _ ds None M Bd) by auto. cbn [bind].
  eexists. split; [reflexivity|]. change (codes "P5" ++ [10] ++ ?r) with (80 :: 53 :: 10 :: r). unfold pgm_read.
  rewrite numeral_gap by lia. rewrite numeral_comments by exact Fi. change (show cols ++ [32] ++ ?r) with (show cols ++ 32 :: r). rewrite numeral_show by lia. rewrite numeral_gap by lia. change (show rows ++ [10] ++ ?r) with (show rows ++ 10 :: r). rewrite numeral_show by lia. rewrite numeral_gap by lia.
  change (codes "1024" ++ [10] ++ ?r) with (show 1024 ++ 10 :: r). rewrite numeral_show by lia. cbn [Z.ltb Z.compare Pos.compare Pos.compare_cont]. f_equal. f_equal.
  rewrite <- (app_nil_r (flat_map (bytes2 LE) _)), pairs_bytes. cbn [pairs]. rewrite app_nil_r. rewrite firstn_all2; [reflexivity|]. rewrite map_length.
  assert (LG : List.length (flat_map groups ds) = (List.length ds * (4 * q))%nat).
  { clear -Bd. induction Bd as [|d ds [Bd Ld] _ IH]; [reflexivity|]. cbn [flat_map List.length]. rewrite app_length, IH. destruct (groups_props d Bd ltac:(rewrite Ld; lia)) as (Lg & _ & _). rewrite Lg, Ld. replace (5 * q / 5)%nat with q by lia. lia. }
  rewrite LG, Ec, Er. rewrite <- Nat2Z.inj_mul, Nat2Z.id. lia.
Qed.
Print Assumptions C197_dump_partial.
Lemma swapped_id v : 0 <= v < 1024 -> (swapped v = v <-> v mod 257 = 0).
Proof. intros R. unfold swapped. lia. Qed.
(** The samples are written in the order of bytes of the machine: a reader finds
    another picture unless all samples are 0, 257, 514 or 771. *)
Theorem C197_refuted_order : forall sel n s x last c infos cols rows, bytes_ok s -> read_native LE sel n s = Ok x -> last_selected sel last -> (c < 12)%nat -> c <> last -> nth c sel false = true ->
  Forall one_line infos -> 0 <= cols < 2 ^ 31 -> 0 <= rows < 2 ^ 31 ->
  exists ps, s = file_bytes ps ++ nt_rest x /\
    let ds := map pk_data (of_channel c (order sel n) ps) in
    forall q, Forall (fun d => List.length d = 5 * q)%nat ds -> cols = Z.of_nat (4 * q) -> rows = Z.of_nat (List.length ds) ->
    exists f got, pgmdump LE x sel infos cols rows (Z.of_nat c) true = Ok (Some f) /\ pgm_read f = Some (cols, rows, 1024, got) /\
      (got = flat_map groups ds <-> Forall (fun v => v mod 257 = 0) (flat_map groups ds)).
Proof.
  intros sel n s x last c infos cols rows B E La Hc Ne Sc Fi Bc Br. destruct (C197_dump_partial sel n s x last c infos cols rows B E La Hc Ne Sc Fi Bc Br) as (ps & S & H). exists ps. split; [exact S|]. intros ds q F Ec Er.
  destruct (H q F Ec Er) as (f & D & R). exists f, (map swapped (flat_map groups ds)). split; [exact D|]. split; [exact R|].
  assert (T : Forall (fun v => 0 <= v < 1024) (flat_map groups ds)).
  { destruct (read_native_bwd sel n s x B E) as (ps' & L' & P & S' & _). clear -F B S.
    assert (Bp : forall p, In p ps -> bytes_ok (pk_data p)).
    { intros p I. assert (bytes_ok (file_bytes ps)) by (rewrite S in B; now apply Forall_app in B). unfold bytes_ok, file_bytes in *. rewrite Forall_forall in *. intros y Y. apply H. apply in_flat_map. exists p. split; [exact I|]. unfold packet_bytes. rewrite !in_app_iff. tauto. }
    apply Forall_forall. intros v V. apply in_flat_map in V as (d & Id & Iv). assert (Ld := F). rewrite Forall_forall in Ld. specialize (Ld d Id). unfold ds in Id. apply in_map_iff in Id as (p & <- & Ip). apply of_channel_in in Ip.
    destruct (groups_props (pk_data p) (Bp p Ip) ltac:(lia)) as (_ & G & _). rewrite Forall_forall in G. exact (G v Iv). }
  clear -T. induction T as [|v l R _ IH]; [split; constructor|]. cbn [map]. split.
  - intros E. injection E as E1 E2. constructor; [now apply swapped_id|now apply IH].
  - intros F. inversion F as [|? ? F1 F2]; subst. f_equal; [now apply swapped_id|now apply IH].
Qed.
Print Assumptions C197_refuted_order.
(** The header of a real file: lines of 80 characters, each ending with a line feed.
    The first text runs on over the lines that follow, of which only the first is a
    comment: no reader takes the file. *)
Theorem C197_refuted_header : forall hs x sel b infos cols rows c f, mphinfo b = Ok infos -> ~ In 0 (firstn 81 b) -> ~ In 10 (firstn 79 b) -> nth_error b 79 = Some 10 -> (exists a, nth_error b 80 = Some a /\ 65 <= a <= 122) ->
  pgmdump hs x sel infos cols rows (Z.of_nat c) true = Ok (Some f) -> pgm_read f = None.
Proof.
  intros hs x sel b infos cols rows c f MI N0 N10 E79 (a & E80 & A) D.
  assert (IE : exists r rest, infos = (firstn 79 b ++ 10 :: a :: r) :: rest).
  { unfold mphinfo in MI. change mph_starts with ([0%nat] :: tl mph_starts) in MI. cbn [all_strs cat_strs] in MI. cbn [skipn] in MI.
    destruct (cstr b) as [s| | | |] eqn:EC; try discriminate MI. cbn [bind] in MI. rewrite app_nil_r in MI. destruct (all_strs b (tl mph_starts)) as [t| | | |]; try discriminate MI. cbn [bind] in MI. apply Ok_inj in MI. subst infos.
    assert (G : forall k b s, cstr b = Ok s -> ~ In 0 (firstn k b) -> (k <= List.length b)%nat -> exists r, s = firstn k b ++ r).
    { clear. induction k as [|k IH]; intros b s E N L; [exists s; reflexivity|]. destruct b as [|c b]; [cbn in L; lia|]. cbn [cstr firstn In List.length] in *. replace (c =? 0) with false in E by lia.
      destruct (cstr b) as [u| | | |] eqn:EU; try discriminate E. cbn [bind] in E. apply Ok_inj in E. subst s. destruct (IH b u EU) as [r ->]; [tauto|lia|]. exists r. reflexivity. }
    assert (L80 : (80 < List.length b)%nat) by (apply nth_error_Some; congruence). destruct (G 81%nat b s EC N0 ltac:(lia)) as [r ->]. exists r, t. f_equal.
    destruct (nth_error_split _ _ E79) as (u & v & Eb & Lu). subst b. rewrite nth_error_app2 in E80 by lia. rewrite Lu in E80. destruct v as [|a' v]; [discriminate E80|]. injection E80 as ->.
    assert (F81 : firstn 81 (u ++ 10 :: a :: v) = u ++ [10; a]) by (rewrite firstn_app, Lu, (firstn_all2 u) by lia; reflexivity). assert (F79 : firstn 79 (u ++ 10 :: a :: v) = u) by (rewrite firstn_app, Lu, (firstn_all2 u) by lia; apply app_nil_r).
    rewrite F81, F79, <- app_assoc. reflexivity. }
  destruct IE as (r & rest & ->). unfold pgmdump in D. destruct (_ || _); [discriminate D|]. destruct (negb (nth _ sel false)); [discriminate D|]. cbn [negb] in D. destruct (dump_loop _ _ _ _) as [body| | | |]; try discriminate D. cbn [bind] in D. apply Ok_inj in D. apply Some_inj in D. subst f.
  change (codes "P5" ++ [10] ++ ?r) with (80 :: 53 :: 10 :: r). unfold pgm_read. rewrite numeral_gap by lia. cbn [flat_map]. change (codes "# ") with [35; 32]. rewrite <- !app_assoc. cbn [app].
  unfold numeral. cbn [gap Z.eqb Pos.eqb orb andb Z.leb Z.compare Pos.compare Pos.compare_cont negb]. rewrite gap_in by exact N10. cbn [gap]. replace ((a =? 32) || ((9 <=? a) && (a <=? 13))) with false by lia. replace (a =? 35) with false by lia. cbn [run]. replace ((48 <=? a) && (a <=? 57)) with false by lia. reflexivity.
Qed.
Print Assumptions C197_refuted_header.
(** The last channel selected in the file: its data were released. *)
Theorem C197_refuted_last : forall sel n s x last infos cols rows, bytes_ok s -> read_native LE sel n s = Ok x -> last_selected sel last -> (0 < n)%nat ->
  pgmdump LE x sel infos cols rows (Z.of_nat last) true = UB.
Proof.
  intros sel n s x last infos cols rows B E La Hn. pose proof La as (Hl & Hs & _). unfold pgmdump. replace ((Z.of_nat last <? 0) || (12 <=? Z.of_nat last)) with false by lia. rewrite Nat2Z.id, Hs. cbn [negb].
  destruct (read_native_bwd sel n s x B E) as (ps & L & P & S & (Hh & _ & N & C)). rewrite (C last Hl), Hh. rewrite dump_dead; [reflexivity| |].
  - unfold dropped. destruct (List.length ps) as [|k]; [constructor|]. assert (G : Forall (fun o => match o with Some d => bytes_ok d | None => True end) (buffers ps)).
    { unfold buffers. apply Forall_forall. intros o I. apply in_map_iff in I as (p & <- & I). rewrite Forall_forall in P. apply P in I. apply I. }
    clear -G. revert k. generalize dependent (buffers ps). induction 1 as [|o h Ho Fh IH]; intros [|k]; cbn; constructor; auto.
  - destruct (order_last sel last n La Hn) as [z Z]. assert (T : nth_error (order sel n) (List.length z) = Some last) by (rewrite Z, nth_error_app2, Nat.sub_diag by lia; reflexivity).
    assert (Lp : List.length ps = Datatypes.S (List.length z)) by (rewrite L, Z, app_length; cbn; lia).
    destruct (nth_error ps (List.length z)) as [p|] eqn:Ep; [|apply nth_error_None in Ep; lia].
    pose proof (channel_has last (order sel n) 0 ps (List.length z) p T Ep) as I. exists (line_of p (List.length z)). split.
    + rewrite channel_lines. apply in_map_iff. exists (p, List.length z). split; [reflexivity|exact I].
    + cbn [line_of nl_ptr]. rewrite dropped_nth, Lp, Nat.eqb_refl. reflexivity.
Qed.
Print Assumptions C197_refuted_last.
(** Nothing is written for a channel that does not exist or was not read, nor when the
    file cannot be created. *)
Theorem C197_refusals : forall hs x sel infos cols rows ic opened, ~ 0 <= ic < 12 \/ nth (Z.to_nat ic) sel false = false \/ opened = false -> pgmdump hs x sel infos cols rows ic opened = Ok None.
Proof. intros hs x sel infos cols rows ic opened H. unfold pgmdump. destruct ((ic <? 0) || (12 <=? ic)) eqn:E; [reflexivity|]. destruct (nth (Z.to_nat ic) sel false) eqn:E2; [|reflexivity]. cbn [negb]. destruct opened; [|reflexivity]. exfalso. destruct H as [H|[H|H]]; [lia|discriminate|discriminate]. Qed.
Print Assumptions C197_refusals.

Example C197_case : exists x f, read_native LE sel3 2 (file_bytes sample_packets) = Ok x /\ pgmdump LE x sel3 [codes "Satellite : MSG1" ++ [10]] 4 2 4 true = Ok (Some f) /\
  pgm_read f = Some (4, 2, 1024, [4096; 3840; 49411; 1792; 15360; 3840; 49923; 1795]) /\ one_line (codes "Satellite : MSG1" ++ [10]).
Proof.
  eexists. eexists. split; [vm_compute; reflexivity|]. split; [vm_compute; reflexivity|]. split; [vm_compute; reflexivity|]. exists (codes "Satellite : MSG1"). split; [reflexivity|]. vm_compute. intuition discriminate.
Qed.
(** A header of lines of 80 characters. *)
Definition line80 (t : string) : list Z := codes t ++ repeat 32 (79 - String.length t) ++ [10].
Definition header80 : list Z := line80 "FormatName                  : NATIVE" ++ line80 "FormatDocumentName          : MSGNativeFile" ++ repeat 32 4953 ++ [10; 0].
Example C197_header_case : exists infos x f, mphinfo header80 = Ok infos /\ read_native LE sel3 2 (file_bytes sample_packets) = Ok x /\ pgmdump LE x sel3 infos 4 2 4 true = Ok (Some f) /\ pgm_read f = None.
Proof.
  assert (MI : exists infos, mphinfo header80 = Ok infos).
  { eexists. apply C78_header_strings_partial. unfold header80. rewrite !skipn_app. apply in_or_app. right. apply in_or_app. right. apply in_or_app. right. replace (5034 - _ - _ - _)%nat with 0%nat; [right; now left|]. now rewrite repeat_length. }
  destruct MI as [infos MI]. assert (RN : exists x, read_native LE sel3 2 (file_bytes sample_packets) = Ok x) by (eexists; vm_compute; reflexivity). destruct RN as [x RN].
  assert (PD : exists f, pgmdump LE x sel3 infos 4 2 (Z.of_nat 4) true = Ok (Some f)).
  { unfold pgmdump. change ((Z.of_nat 4 <? 0) || (12 <=? Z.of_nat 4)) with false. change (nth (Z.to_nat (Z.of_nat 4)) sel3 false) with true. cbv iota. cbn [negb].
    assert (DL : exists b, dump_loop LE (nt_heap x) None (nth (Z.to_nat (Z.of_nat 4)) (nt_lines x) []) = Ok b) by (vm_compute in RN; apply Ok_inj in RN; subst x; eexists; vm_compute; reflexivity). destruct DL as [b ->]. eexists. reflexivity. }
  destruct PD as [f PD]. exists infos, x, f. split; [exact MI|]. split; [exact RN|]. split; [exact PD|]. apply (C197_refuted_header LE x sel3 header80 infos 4 2 4 f MI); [| | | |exact PD].
  - vm_compute. intuition discriminate.
  - vm_compute. intuition discriminate.
  - reflexivity.
  - exists 70. split; [reflexivity|lia].
Qed.

(** ** C198 *)
Section Tools.
Variable normalize : list Z -> list Z.
Variable scale : pic -> Z -> Z -> pic.
Variable times : str -> Z -> Z.
Notation tool := (native2image normalize scale times).
Lemma written_some l : written (map Some l) = Ok l.
Proof. induction l as [|v l IH]; [reflexivity|]. cbn [map written]. now rewrite IH. Qed.
Theorem C198_picture_partial : forall sel n s x last c ch, bytes_ok s -> read_native LE sel n s = Ok x -> last_selected sel last -> (c < 12)%nat -> c <> last -> nth c sel false = true -> is_number ch (Z.of_nat c) ->
  exists ps, s = file_bytes ps ++ nt_rest x /\
    let ds := map pk_data (of_channel c (order sel n) ps) in
    forall q rows cols format factor, Forall (fun d => List.length d = 5 * q)%nat ds -> (0 < q)%nat -> ds <> [] -> cols c = (4 * q)%nat -> rows c = List.length ds -> (List.length format <= 4090)%nat ->
    exists after, tool x sel rows cols ch format factor = Ok (codes "MSG1." ++ format, mk_pic (Z.of_nat (4 * q)) (Z.of_nat (List.length ds)) (rev (normalize (flat_map groups ds))), after).
Proof.
  intros sel n s x last c ch B E La Hc Ne Sc CN. destruct (C74_image_partial sel n s x last c B E La Hc Ne) as (ps & S & H). exists ps. split; [exact S|]. intros ds q rows cols format factor F Q D EC ER LF.
  unfold native2image. rewrite (atoi_number ch (Z.of_nat c) CN) by lia. cbn [bind]. replace ((0 <=? Z.of_nat c) && (Z.of_nat c <? 12)) with true by lia. rewrite Nat2Z.id, Sc. cbn [andb]. rewrite EC, ER. specialize (H q F). change (data x c (List.length ds) (4 * q) = Ok (map Some (flat_map groups ds))) in H. rewrite H. cbn [bind]. unfold constitute.
  assert (0 < List.length ds)%nat by (destruct ds; [contradiction|cbn; lia]). replace ((Z.of_nat (4 * q) <=? 0) || (Z.of_nat (List.length ds) <=? 0)) with false by lia. rewrite written_some. cbn [bind]. eexists. do 2 f_equal. f_equal.
  rewrite firstn_all2; [reflexivity|]. rewrite !app_length. cbn. lia.
Qed.
(** The factor changes nothing of the file: it is applied after the file is written. *)
Theorem C198_refuted_scale : forall x sel rows cols c ch format f1 f2 name p after, is_number ch (Z.of_nat c) -> (c < 12)%nat -> tool x sel rows cols ch format f1 = Ok (name, p, after) ->
  p_wd p = Z.of_nat (cols c) /\ p_hg p = Z.of_nat (rows c) /\ exists after2, tool x sel rows cols ch format f2 = Ok (name, p, after2).
Proof.
  intros x sel rows cols c ch format f1 f2 name p after CN C. unfold native2image. rewrite (atoi_number ch (Z.of_nat c) CN) by lia. cbn [bind]. replace ((0 <=? Z.of_nat c) && (Z.of_nat c <? 12)) with true by lia. rewrite Nat2Z.id.
  match goal with |- context [bind ?a _] => destruct a as [d| | | |]; try discriminate end. cbn [bind]. destruct (constitute _ _ d) as [i| | | |] eqn:EI; try discriminate. cbn [bind]. intros E. apply Ok_inj in E. injection E as <- <- _.
  unfold constitute in EI. destruct (_ || _); [discriminate EI|]. destruct d as [d|]; [|discriminate EI]. destruct (written d) as [px| | | |]; try discriminate EI. cbn [bind] in EI. apply Ok_inj in EI. subst i. split; [reflexivity|]. split; [reflexivity|]. eexists. reflexivity.
Qed.
(** The name does not depend on the file nor on the channel: a second picture replaces
    the first. *)
Theorem C198_refuted_name : forall x1 x2 sel1 sel2 rows1 rows2 cols1 cols2 ch1 ch2 format f1 f2 n1 n2 p1 p2 a1 a2,
  tool x1 sel1 rows1 cols1 ch1 format f1 = Ok (n1, p1, a1) -> tool x2 sel2 rows2 cols2 ch2 format f2 = Ok (n2, p2, a2) -> n1 = n2.
Proof.
  assert (G : forall x sel rows cols ch format f n p a, tool x sel rows cols ch format f = Ok (n, p, a) -> n = firstn 4095 (codes "MSG1." ++ format)).
  { intros x sel rows cols ch format f n p a. unfold native2image. destruct (atoi ch) as [z| | | |]; try discriminate. cbn [bind]. match goal with |- context [bind ?a _] => destruct a as [d| | | |]; try discriminate end. cbn [bind]. destruct (constitute _ _ d) as [i| | | |]; try discriminate. cbn [bind]. intros E. apply Ok_inj in E. injection E as <- _ _. reflexivity. }
  intros. rewrite (G _ _ _ _ _ _ _ _ _ _ H), (G _ _ _ _ _ _ _ _ _ _ H0). reflexivity.
Qed.
(** A channel that is not one of the twelve ends the program with an exception. *)
Theorem C198_refuted_channel : forall x sel rows cols k ch format f, is_number ch k -> - 2 ^ 31 <= k < 2 ^ 31 -> ~ 0 <= k < 12 -> tool x sel rows cols ch format f = Terminate.
Proof. intros x sel rows cols k ch format f CN R O. unfold native2image. rewrite (atoi_number ch k CN R). cbn [bind]. replace ((0 <=? k) && (k <? 12)) with false by lia. reflexivity. Qed.
(** So does one that was not selected (its size is 0, MSG_native.cpp:134-142), and the
    last one selected is read after its release. *)
Theorem C198_refuted_unselected : forall x sel rows cols c ch format f, is_number ch (Z.of_nat c) -> (c < 12)%nat -> nth c sel false = false -> rows c = 0%nat -> tool x sel rows cols ch format f = Terminate.
Proof. intros x sel rows cols c ch format f CN C N R. unfold native2image. rewrite (atoi_number ch _ CN) by lia. cbn [bind]. replace ((0 <=? Z.of_nat c) && (Z.of_nat c <? 12)) with true by lia. rewrite Nat2Z.id, N, R. cbn [andb bind]. unfold constitute. now rewrite orb_true_r. Qed.
Theorem C198_refuted_last : forall sel n s x last rows cols ch format f, bytes_ok s -> read_native LE sel n s = Ok x -> last_selected sel last -> (0 < n)%nat -> is_number ch (Z.of_nat last) -> tool x sel rows cols ch format f = UB.
Proof.
  intros sel n s x last rows cols ch format f B E La Hn CN. pose proof La as (Hl & Hs & _). unfold native2image. rewrite (atoi_number ch _ CN) by lia. cbn [bind]. replace ((0 <=? Z.of_nat last) && (Z.of_nat last <? 12)) with true by lia. rewrite Nat2Z.id, Hs. cbn [andb].
  rewrite (C74_refuted_last_channel sel n s x last (rows last) (cols last) B E La Hn). reflexivity.
Qed.
End Tools.
Print Assumptions C198_picture_partial.
Print Assumptions C198_refuted_scale.
Print Assumptions C198_refuted_name.
Print Assumptions C198_refuted_channel.
Print Assumptions C198_refuted_unselected.
Print Assumptions C198_refuted_last.
Example C198_case : exists x, read_native LE sel3 2 (file_bytes sample_packets) = Ok x /\
  native2image (map (fun v => 64 * v)) (fun p w h => mk_pic w h [0]) (fun _ n => n / 2) x sel3 (fun _ => 2%nat) (fun _ => 4%nat) (codes "4") (codes "gif") (codes "0.5")
  = Ok (codes "MSG1.gif", mk_pic 4 2 [49600; 61632; 960; 3840; 448; 61504; 960; 1024], mk_pic 2 1 [0]) /\ is_number (codes "4") 4.
Proof. eexists. split; [vm_compute; reflexivity|]. split; [vm_compute; reflexivity|]. apply plain_is_number, (print_plain 4). lia. Qed.
