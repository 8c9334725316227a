(** Properties C143-C146: HRIT products converted to NetCDF files. *)
From Coq Require Import Reals Lra.
From Verif Require Import BaseFacts IniModel MachineModel HeaderModel FactsModel ScanModel GeoModel PixModel GribModel GribProps NcModel NcProps NcCopyProps MsgModel MsgTimeProps DataAccessModel DataAccessSpec DataAccessProps Db1NcProps ConvModel.
Open Scope string_scope.
Open Scope list_scope.
Open Scope Z_scope.

(** ** Specification *)
(** An image in memory starts with these samples. *)
Definition shows (h : host) (im : image) (l : list Z) : Prop := forall i x, nth_error l i = Some x -> sample h im i = Ok x.
(** Segments of [nlin] rows of [npix] samples. *)
Definition shaped (nlin npix : Z) (segs : segments) : Prop :=
  forall rows, In (Some rows) segs -> Z.of_nat (List.length rows) = nlin /\ Forall (fun r => Z.of_nat (List.length r) = npix) rows.
(** The files have these segments: each file one of them under its number, each
    segment in some file. *)
Record parts (h : host) (segs : segments) (files : list (header * mdata)) : Prop := {
  p_each : forall hd d, In (hd, d) files -> exists s im rows, h_seg hd = Some s /\ 1 <= si_seq s /\ nth_error segs (Z.to_nat (si_seq s - 1)) = Some (Some rows) /\ m_image d = Some im /\ shows h im (List.concat rows);
  p_all : forall k rows, nth_error segs k = Some (Some rows) -> exists hd d s, In (hd, d) files /\ h_seg hd = Some s /\ si_seq s = Z.of_nat k + 1 }.
(** All rows, in the order of the segments. *)
Definition all_rows (nlin npix : Z) (segs : segments) : list row := map (phys_row nlin npix segs) (range 0 (nlin * Z.of_nat (List.length segs))).

(** ** C143 *)
Lemma nth_error_nth_some {A} (l : list (option A)) k x : nth_error l k = Some (Some x) <-> nth k l None = Some x.
Proof. revert k. induction l as [|a l IH]; intros [|k]; cbn; try (split; congruence). apply IH. Qed.
Lemma index_ok (segs : segments) files : forall idx, List.length idx = List.length segs ->
  (forall hd d, In (hd, d) files -> exists s, h_seg hd = Some s /\ 1 <= si_seq s <= Z.of_nat (List.length segs)) ->
  exists idx', index_segments idx files = Ok idx' /\ List.length idx' = List.length segs /\
    forall k, (nth k idx' None = nth k idx None /\ forall hd d s, In (hd, d) files -> h_seg hd = Some s -> si_seq s <> Z.of_nat k + 1) \/
              (exists hd d s, In (hd, d) files /\ h_seg hd = Some s /\ si_seq s = Z.of_nat k + 1 /\ nth k idx' None = Some d).
Proof.
  induction files as [|[hd d] files IH]; intros idx L F.
  - exists idx. split; [reflexivity|]. split; [exact L|]. intros k. left. split; [reflexivity|]. intros ? ? ? [].
  - cbn [index_segments]. destruct (F hd d (or_introl eq_refl)) as (s & HS & B). rewrite HS. cbv zeta. replace ((_ <? _) || _) with false by lia.
    destruct (IH (set_nth idx (Z.to_nat (si_seq s - 1)) (Some d))) as (idx' & E & L' & K); [now rewrite set_nth_length|intros hd' d' I'; apply (F hd' d'); now right|].
    exists idx'. split; [exact E|]. split; [exact L'|]. intros k. destruct (K k) as [[K1 K2]|(hd' & d' & s' & I' & K2)].
    + destruct (Nat.eq_dec (Z.to_nat (si_seq s - 1)) k) as [EK|NK].
      * right. exists hd, d, s. rewrite K1, <- EK, set_nth_same by lia. split; [now left|]. split; [exact HS|]. split; [lia|reflexivity].
      * left. rewrite K1, set_nth_other by exact NK. split; [reflexivity|]. intros hd' d' s' [X|I'] HS'; [|exact (K2 _ _ _ I' HS')]. injection X as <- <-. assert (s' = s) by congruence. subst s'. lia.
    + right. exists hd', d', s'. split; [now right|exact K2].
Qed.
Lemma read_samples_ok h im l : forall i n, (i + n = List.length l)%nat -> shows h im l -> read_samples h im i n = Ok (skipn i l).
Proof.
  intros i n. revert i. induction n as [|n IH]; intros i L S0; cbn [read_samples].
  - now rewrite skipn_all2 by lia.
  - destruct (nth_error l i) as [x|] eqn:E; [|apply nth_error_None in E; lia]. rewrite (S0 _ _ E). cbn [bind]. rewrite IH by (assumption || lia). cbn [bind]. f_equal. clear - E. revert i E. induction l as [|a l IH]; intros [|i] E; cbn in E; try discriminate; [now injection E as ->|]. apply (IH i E).
Qed.
Definition seg_samples (per : nat) (o : option (list row)) : list Z := match o with Some rows => List.concat rows | None => repeat 0 per end.
Lemma gather_ok h per (segs : segments) : forall idx, List.length idx = List.length segs ->
  (forall k rows, nth_error segs k = Some (Some rows) -> exists d im, nth k idx None = Some d /\ m_image d = Some im /\ shows h im (List.concat rows) /\ List.length (List.concat rows) = per) ->
  (forall k, nth_error segs k = Some None -> nth k idx None = None) ->
  gather h per idx = Ok (List.concat (map (seg_samples per) segs)).
Proof.
  induction segs as [|o segs IH]; intros [|i idx] L P N; try discriminate; [reflexivity|]. cbn [gather map List.concat].
  assert (E : (match i with None => Ok (repeat 0 per) | Some d => match m_image d with None => UB | Some im => read_samples h im 0 per end end) = Ok (seg_samples per o)).
  { destruct o as [rows|]; cbn [seg_samples].
    - destruct (P 0%nat rows eq_refl) as (d & im & D & M & S0 & PL). cbn [nth] in D. subst i. rewrite M. now rewrite (read_samples_ok h im (List.concat rows)).
    - specialize (N 0%nat eq_refl). cbn [nth] in N. now subst i. }
  rewrite E. cbn [bind]. rewrite (IH idx); [reflexivity|cbn in L; lia|intros k rows K; exact (P (S k) rows K)|intros k K; exact (N (S k) K)].
Qed.
Lemma seq_from b c : seq b c = map (fun i => (b + i)%nat) (seq 0 c).
Proof. induction c as [|c IH]; [reflexivity|]. rewrite !seq_S, map_app, IH. reflexivity. Qed.
Lemma range_split a n m : 0 <= n -> 0 <= m -> range a (n + m) = range a n ++ range (a + n) m.
Proof.
  intros N M. unfold range. replace (Z.to_nat (n + m)) with (Z.to_nat n + Z.to_nat m)%nat by lia. rewrite seq_app, map_app. f_equal. cbn [Nat.add]. 
  rewrite (seq_from (Z.to_nat n)). rewrite map_map. apply map_ext. intros i. lia.
Qed.
Lemma concat_length npix (rows : list row) : Forall (fun r => Z.of_nat (List.length r) = npix) rows -> Z.of_nat (List.length (List.concat rows)) = npix * Z.of_nat (List.length rows).
Proof. induction 1 as [|r rows R _ IH]; cbn [List.concat List.length]; [lia|]. rewrite app_length. lia. Qed.
Lemma map_nth_seq {A} (d : A) l : map (fun i => nth i l d) (seq 0 (List.length l)) = l.
Proof. induction l as [|a l IH]; [reflexivity|]. cbn [List.length seq map nth]. f_equal. rewrite <- seq_shift, map_map. exact IH. Qed.
Lemma concat_repeat (n : nat) : forall npix, List.concat (map (fun _ : Z => zero_row npix) (range 0 (Z.of_nat n))) = repeat 0 (Z.to_nat npix * n).
Proof.
  intros npix. unfold range, zero_row. rewrite map_map, Nat2Z.id. generalize 0%nat as z. induction n as [|n IH]; intros z; cbn [seq map List.concat]; [now rewrite Nat.mul_0_r|]. rewrite IH, <- repeat_app. f_equal. lia.
Qed.
Lemma rows_of_segments nlin npix segs : 0 < nlin -> 0 <= npix -> shaped nlin npix segs -> List.concat (all_rows nlin npix segs) = List.concat (map (seg_samples (Z.to_nat (npix * nlin))) segs).
Proof.
  intros NL NP. unfold all_rows. induction segs as [|o segs IH]; intros SH.
  - rewrite Z.mul_0_r. reflexivity.
  - cbn [List.length map List.concat]. replace (nlin * Z.of_nat (S (List.length segs))) with (nlin + nlin * Z.of_nat (List.length segs)) by lia. rewrite range_split by lia. rewrite map_app, concat_app. f_equal.
    + destruct o as [rows|]; cbn [seg_samples].
      * destruct (SH rows (or_introl eq_refl)) as [L _]. unfold range. rewrite map_map. replace (List.concat rows) with (List.concat (map (fun i => nth i rows []) (seq 0 (List.length rows)))) by (now rewrite map_nth_seq). replace (Z.to_nat nlin) with (List.length rows) by lia. f_equal. apply map_ext_in. intros i I. apply in_seq in I. unfold phys_row. rewrite Z.div_small, Z.mod_small by lia. cbn [Z.to_nat nth]. f_equal. lia.
      * erewrite map_ext_in; [replace nlin with (Z.of_nat (Z.to_nat nlin)) at 1 by lia; rewrite (concat_repeat (Z.to_nat nlin) npix); f_equal; lia|]. intros r I. unfold range in I. apply in_map_iff in I. destruct I as (i & <- & I). apply in_seq in I. unfold phys_row. rewrite Z.div_small by lia. reflexivity.
    + rewrite <- IH by (intros rows I; apply SH; now right). f_equal. unfold range. rewrite !map_map. apply map_ext_in. intros i I. apply in_seq in I. unfold phys_row.
      replace (0 + nlin + Z.of_nat i) with (Z.of_nat i + 1 * nlin) by lia. rewrite Z_div_plus, Z_mod_plus by lia. rewrite Z.add_0_l. pose proof (Z.div_pos (Z.of_nat i) nlin ltac:(lia) NL). replace (Z.to_nat (Z.of_nat i / nlin + 1)) with (S (Z.to_nat (Z.of_nat i / nlin))) by lia. reflexivity.
Qed.

(** Whatever the order of the files, the image has the rows of the segments one after
    the other, zeros for those that are missing. *)
Theorem C143_assembled h segs hd0 d0 files s i :
  parts h segs ((hd0, d0) :: files) -> h_seg hd0 = Some s -> h_image hd0 = Some i -> si_format s <> 0 -> si_last s = Z.of_nat (List.length segs) ->
  shaped (is_lines i) (is_cols i) segs -> 0 < is_lines i -> 0 < is_cols i -> is_cols i * is_lines i < 2 ^ 31 -> is_lines i * si_last s < 2 ^ 31 ->
  assemble h ((hd0, d0) :: files) = Ok (Some (is_cols i, is_lines i * si_last s, List.concat (all_rows (is_lines i) (is_cols i) segs))).
Proof.
  intros [PE PA] HS HI NF LA SH NL NC B1 B2. unfold assemble. rewrite HS, HI. replace (si_format s =? 0) with false by lia. cbv zeta.
  destruct (index_ok segs ((hd0, d0) :: files) (repeat None (Z.to_nat (si_last s)))) as (idx & -> & LI & K).
  { rewrite repeat_length. lia. }
  { intros hd d I. destruct (PE hd d I) as (s' & im & rows & E & B & N & _). exists s'. split; [exact E|]. assert (nth_error segs (Z.to_nat (si_seq s' - 1)) <> None) as X by congruence. apply nth_error_Some in X. lia. }
  cbn [bind]. unfold int_fits. replace (negb _) with false by nia. rewrite (gather_ok h _ segs idx LI).
  - cbn [bind]. rewrite rows_of_segments by (assumption || lia). reflexivity.
  - intros k rows N. destruct (K k) as [[_ K2]|(hd & d & s' & I & E & Q & D)].
    + exfalso. destruct (PA k rows N) as (hd & d & s' & I & E & Q). exact (K2 _ _ _ I E Q).
    + destruct (PE hd d I) as (s'' & im & rows' & E' & B & N' & M & S0). assert (s'' = s') by congruence. subst s''. replace (Z.to_nat (si_seq s' - 1)) with k in N' by lia. rewrite N in N'. injection N' as <-.
      exists d, im. split; [exact D|]. split; [exact M|]. split; [exact S0|]. destruct (SH rows (nth_error_In _ _ N)) as [L F]. pose proof (concat_length _ _ F). lia.
  - intros k N. destruct (K k) as [[K1 _]|(hd & d & s' & I & E & Q & D)].
    + rewrite K1. destruct (Nat.lt_ge_cases k (Z.to_nat (si_last s))) as [Lk|Lk]; [now rewrite nth_repeat|]. apply nth_overflow. now rewrite repeat_length.
    + exfalso. destruct (PE hd d I) as (s'' & im & rows' & E' & B & N' & _). assert (s'' = s') by congruence. subst s''. replace (Z.to_nat (si_seq s' - 1)) with k in N' by lia. congruence.
Qed.
Print Assumptions C143_assembled.

Lemma index_bad files : forall idx hd d, In (hd, d) files -> (forall s, h_seg hd = Some s -> si_seq s < 1 \/ Z.of_nat (List.length idx) < si_seq s) -> index_segments idx files = UB.
Proof.
  induction files as [|[hd0 d0] files IH]; intros idx hd d I B; [destruct I|]. cbn [index_segments]. destruct (h_seg hd0) as [s|] eqn:E; [|reflexivity]. cbv zeta. destruct ((_ <? _) || _) eqn:C; [reflexivity|].
  destruct I as [X|I].
  - injection X as <- <-. specialize (B s E). lia.
  - apply (IH _ hd d I). now rewrite set_nth_length.
Qed.
(** A file that is not numbered within what the first one announces: the number is
    used as it is. *)
Theorem C143_refuted_number h hd0 d0 files s hd d :
  h_seg hd0 = Some s -> si_format s <> 0 -> 0 <= si_last s -> In (hd, d) ((hd0, d0) :: files) ->
  (forall s', h_seg hd = Some s' -> si_seq s' < 1 \/ si_last s < si_seq s') -> assemble h ((hd0, d0) :: files) = UB.
Proof.
  intros HS NF P I B. unfold assemble. rewrite HS. replace (si_format s =? 0) with false by lia. cbv zeta. rewrite (index_bad _ _ hd d I); [reflexivity|]. rewrite repeat_length, Z2Nat.id by exact P. exact B.
Qed.
Print Assumptions C143_refuted_number.
(** A data field that ends before the samples of a segment of the first file. *)
Definition short (h : host) (per : Z) (d : mdata) : Prop :=
  match m_image d with None => True | Some im => exists j, Z.of_nat j < per /\ sample h im j = UB end.
Lemma sample_or h im j : (exists x, sample h im j = Ok x) \/ sample h im j = UB.
Proof. unfold sample, rd1, bytes_at. destruct (im_data im); [destruct (nth_error _ _); eauto|]. destruct (_ <=? _)%nat; cbn [bind]; eauto. Qed.
Lemma read_samples_or h im : forall n i, (exists l, read_samples h im i n = Ok l) \/ read_samples h im i n = UB.
Proof.
  induction n as [|n IH]; intros i; cbn [read_samples]; [eauto|]. destruct (sample_or h im i) as [[x ->]| ->]; [|now right]. cbn [bind]. destruct (IH (S i)) as [[l ->]| ->]; cbn [bind]; eauto.
Qed.
Lemma read_samples_short h im j : sample h im j = UB -> forall n i, (i <= j < i + n)%nat -> read_samples h im i n = UB.
Proof.
  intros U. induction n as [|n IH]; intros i B; [lia|]. cbn [read_samples]. destruct (sample_or h im i) as [[x X]| ->]; [|reflexivity]. rewrite X. cbn [bind]. rewrite IH; [reflexivity|]. assert (i <> j) by (intros ->; congruence). lia.
Qed.
Definition part (h : host) (per : nat) (o : option mdata) : outcome (list Z) :=
  match o with None => Ok (repeat 0 per) | Some d => match m_image d with None => UB | Some im => read_samples h im 0 per end end.
Lemma gather_short h per : forall idx k, (k < List.length idx)%nat -> part h per (nth k idx None) = UB -> gather h per idx = UB.
Proof.
  assert (OR : forall o, (exists l, part h per o = Ok l) \/ part h per o = UB) by (intros [d|]; cbn [part]; [destruct (m_image d); [apply read_samples_or|now right]|eauto]).
  induction idx as [|o idx IH]; intros k L U; [cbn in L; lia|]. cbn [gather]. fold (part h per o). destruct k as [|k]; cbn [nth] in U; [now rewrite U|].
  destruct (OR o) as [[l ->]| ->]; [|reflexivity]. cbn [bind]. rewrite (IH k); [reflexivity|cbn in L; lia|exact U].
Qed.
Lemma numbers_dec total (files : list (header * mdata)) : (forall hd d, In (hd, d) files -> exists s, h_seg hd = Some s /\ 1 <= si_seq s <= total) \/
  (exists hd d, In (hd, d) files /\ forall s, h_seg hd = Some s -> si_seq s < 1 \/ total < si_seq s).
Proof.
  induction files as [|[hd d] files [G|(hd' & d' & I & B)]]; [left; intros ? ? []| |right; exists hd', d'; split; [now right|exact B]].
  destruct (h_seg hd) as [s|] eqn:E; [|right; exists hd, d; split; [now left|congruence]].
  destruct (Z_lt_le_dec (si_seq s) 1); [right; exists hd, d; split; [now left|intros s' E'; assert (s' = s) by congruence; subst; now left]|].
  destruct (Z_lt_le_dec total (si_seq s)); [right; exists hd, d; split; [now left|intros s' E'; assert (s' = s) by congruence; subst; now right]|].
  left. intros hd' d' [X|I]; [injection X as <- <-; eauto|exact (G _ _ I)].
Qed.
Theorem C143_refuted_short h hd0 d0 files s i k :
  h_seg hd0 = Some s -> h_image hd0 = Some i -> si_format s <> 0 -> 0 <= si_last s -> 0 <= is_cols i * is_lines i ->
  (exists hd d s', In (hd, d) ((hd0, d0) :: files) /\ h_seg hd = Some s' /\ si_seq s' = k) ->
  (forall hd d s', In (hd, d) ((hd0, d0) :: files) -> h_seg hd = Some s' -> si_seq s' = k -> short h (is_cols i * is_lines i) d) ->
  assemble h ((hd0, d0) :: files) = UB.
Proof.
  intros HS HI NF P PP (hdk & dk & sk & IK & EK & QK) SH. unfold assemble. rewrite HS, HI. replace (si_format s =? 0) with false by lia. cbv zeta. set (all := (hd0, d0) :: files) in *.
  destruct (numbers_dec (si_last s) all) as [G|(hd & d & I & B)].
  - destruct (index_ok (repeat (@None (list row)) (Z.to_nat (si_last s))) all (repeat None (Z.to_nat (si_last s)))) as (idx & -> & LI & K).
    { now rewrite !repeat_length. }
    { intros hd d I. destruct (G hd d I) as (s' & E & B). exists s'. split; [exact E|]. rewrite repeat_length. lia. }
    cbn [bind]. destruct (negb _); [reflexivity|]. destruct (G _ _ IK) as (sk' & E' & BK). assert (sk' = sk) by congruence. subst sk'. rewrite repeat_length in LI.
    rewrite (gather_short h _ idx (Z.to_nat (k - 1))); [reflexivity|lia|]. destruct (K (Z.to_nat (k - 1))) as [[_ K2]|(hd & d & s' & I & E & Q & D)].
    + exfalso. apply (K2 _ _ _ IK EK). lia.
    + rewrite D. cbn [part]. specialize (SH hd d s' I E ltac:(lia)). unfold short in SH. destruct (m_image d) as [im|]; [|reflexivity]. destruct SH as (j & J & U). apply (read_samples_short h im j U). lia.
  - rewrite (index_bad _ _ hd d I); [reflexivity|]. rewrite repeat_length, Z2Nat.id by exact P. exact B.
Qed.
Print Assumptions C143_refuted_short.

(** ** C144 *)
(** [m] samples from column [b] of [n] rows from number [a], counted from 0. *)
Definition window (rows : list row) (a n b m : Z) : list row := map (fun r => firstn (Z.to_nat m) (skipn (Z.to_nat b) r)) (firstn (Z.to_nat n) (skipn (Z.to_nat a) rows)).
Lemma skip_rows npix (rows : list row) : Forall (fun r => Z.of_nat (List.length r) = npix) rows -> forall k, skipn (k * Z.to_nat npix) (List.concat rows) = List.concat (skipn k rows).
Proof.
  induction 1 as [|r rows R _ IH]; intros [|k]; cbn [skipn Nat.mul List.concat]; try reflexivity; [now rewrite skipn_nil|]. rewrite skipn_app. rewrite (skipn_all2 r) by lia. cbn [app]. rewrite <- IH. f_equal. lia.
Qed.
Lemma cut_row npix (rows : list row) lin pix an r : Forall (fun r => Z.of_nat (List.length r) = npix) rows -> 0 <= lin -> 0 <= pix -> 0 <= an -> pix + an <= npix -> nth_error rows (Z.to_nat lin) = Some r ->
  bytes_at (List.concat rows) (Z.to_nat (lin * npix + pix)) (Z.to_nat an) = Ok (firstn (Z.to_nat an) (skipn (Z.to_nat pix) r)).
Proof.
  intros F L P A B N. assert (LR : (Z.to_nat lin < List.length rows)%nat) by (apply nth_error_Some; congruence). pose proof (concat_length _ _ F) as CL. assert (RL : Z.of_nat (List.length r) = npix) by (rewrite Forall_forall in F; apply F; eapply nth_error_In; eassumption).
  rewrite bytes_at_ok by nia. f_equal. replace (Z.to_nat (lin * npix + pix)) with (Z.to_nat pix + Z.to_nat lin * Z.to_nat npix)%nat by nia.
  assert (SS : forall (a b : nat) (l : list Z), skipn (a + b) l = skipn a (skipn b l)) by (clear; intros a b l; rewrite Nat.add_comm; revert b l; induction b as [|b IH]; intros [|x l]; cbn; try reflexivity; [now rewrite skipn_nil|apply IH]).
  rewrite SS, (skip_rows npix) by exact F. assert (E : skipn (Z.to_nat lin) rows = r :: skipn (S (Z.to_nat lin)) rows).
  { clear - N. revert N. generalize (Z.to_nat lin) as k. induction rows as [|x rows IH]; intros [|k] N; cbn in N; try discriminate; [injection N as ->; reflexivity|]. cbn [skipn]. rewrite (IH k N). reflexivity. }
  rewrite E. cbn [List.concat]. rewrite skipn_app, firstn_app, skipn_length. replace (Z.to_nat an - _)%nat with 0%nat by lia. cbn [firstn]. now rewrite app_nil_r.
Qed.
Lemma cut_rows_ok npix (rows : list row) pix an : Forall (fun r => Z.of_nat (List.length r) = npix) rows -> npix * Z.of_nat (List.length rows) < 2 ^ 31 -> 0 < npix -> 0 <= pix -> 0 <= an -> pix + an <= npix ->
  forall n lin, 0 <= lin -> lin + Z.of_nat n <= Z.of_nat (List.length rows) -> cut_rows npix lin pix an (List.concat rows) n = Ok (List.concat (window rows lin (Z.of_nat n) pix an)).
Proof.
  intros F B NP P A PA. induction n as [|n IH]; intros lin L LN; [reflexivity|]. cbn [cut_rows]. unfold int_fits. destruct (Z.eq_dec an 0) as [->|NA].
  - replace (negb _) with false by nia. rewrite bytes_at_ok by (pose proof (concat_length _ _ F); nia). cbn [Z.to_nat firstn bind]. rewrite IH by lia. cbn [bind app]. f_equal. unfold window. cbn [Z.to_nat]. assert (Z0 : forall l : list row, List.concat (map (fun r => firstn 0 (skipn (Z.to_nat pix) r)) l) = []) by (clear; induction l as [|x l IH]; [reflexivity|exact IH]). now rewrite !Z0.
  - replace (negb _) with false by nia. destruct (nth_error rows (Z.to_nat lin)) as [r|] eqn:N; [|apply nth_error_None in N; lia]. rewrite (cut_row npix rows lin pix an r) by assumption. cbn [bind]. rewrite IH by lia. cbn [bind]. f_equal. unfold window. rewrite !Nat2Z.id.
    assert (E : skipn (Z.to_nat lin) rows = r :: skipn (Z.to_nat (lin + 1)) rows).
    { replace (Z.to_nat (lin + 1)) with (S (Z.to_nat lin)) by lia. clear - N. revert N. generalize (Z.to_nat lin) as k. induction rows as [|x rows IH]; intros [|k] N; cbn in N; try discriminate; [injection N as ->; reflexivity|]. cbn [skipn]. rewrite (IH k N). reflexivity. }
    rewrite E. reflexivity.
Qed.
(** The part that was asked for, counted from 1, when it is within the image. *)
Theorem C144_window npix nlin (rows : list row) lin alin pix apix : Forall (fun r => Z.of_nat (List.length r) = npix) rows -> Z.of_nat (List.length rows) = nlin -> npix * nlin < 2 ^ 31 ->
  1 <= lin -> 0 < alin -> lin - 1 + alin <= nlin -> 1 <= pix -> 0 < apix -> pix - 1 + apix <= npix ->
  subarea npix nlin (List.concat rows) (Some (lin, alin, pix, apix)) = Ok (pix - 1, lin - 1, apix, alin, List.concat (window rows (lin - 1) alin (pix - 1) apix)).
Proof.
  intros F LR B L AL LN P AP PN. unfold subarea, wrong_range, int_fits. replace (negb _) with false by nia. replace (lin - 1 <? 0) with false by lia. replace (negb _) with false by nia. cbn [bind]. replace (_ || _) with false by lia.
  replace (pix - 1 <? 0) with false by lia. replace (negb _) with false by nia. cbn [bind]. replace (_ || _) with false by lia. replace (negb _) with false by nia. replace (apix * alin <? 0) with false by nia.
  rewrite (cut_rows_ok npix rows) by (assumption || lia || (subst nlin; assumption)). cbn [bind]. now rewrite Z2Nat.id by lia.
Qed.
Print Assumptions C144_window.
(** Any other part ends the program. *)
Theorem C144_outside npix nlin px lin alin pix apix : 0 <= npix < 2 ^ 31 -> 0 <= nlin < 2 ^ 31 -> - 2 ^ 31 < lin < 2 ^ 31 -> - 2 ^ 31 < pix < 2 ^ 31 -> 0 < alin < 2 ^ 31 -> 0 < apix < 2 ^ 31 ->
  ~ (1 <= lin /\ lin - 1 + alin <= nlin /\ 1 <= pix /\ pix - 1 + apix <= npix) -> subarea npix nlin px (Some (lin, alin, pix, apix)) = Terminate.
Proof.
  intros NP NL L P AL AP N. unfold subarea, wrong_range, int_fits. replace (negb _) with false by lia. destruct (lin - 1 <? 0) eqn:E1; [reflexivity|]. replace (negb _) with false by lia. cbn [bind]. destruct ((nlin - alin <? lin - 1) || (nlin - (lin - 1) <? alin)) eqn:E2; [reflexivity|].
  destruct (pix - 1 <? 0) eqn:E3; [reflexivity|]. replace (negb _) with false by lia. cbn [bind]. destruct ((npix - apix <? pix - 1) || (npix - (pix - 1) <? apix)) eqn:E4; [reflexivity|]. exfalso. apply N. lia.
Qed.
Print Assumptions C144_outside.

(** ** The file that is made *)
Definition made (s : seg_id) (i : img_struct) (n : navig) (t : Z) (lon : num) (x0 y0 wd hg : Z) (px : list Z) : str * ncfile :=
  let channel := chname (MSG_channel_name (si_spacecraft s) (si_channel s)) in
  (nc_name channel t,
   mk_ncfile
     [("Satellite", AText (MSG_spacecraft_name (si_spacecraft s))); ("Time", AText (nc_time t)); ("Columns", AInt wd); ("Lines", AInt hg);
      ("SampleX", ADouble (Some 1%R)); ("SampleY", ADouble (Some 1%R)); ("AreaStartPix", AInt x0); ("AreaStartLin", AInt y0);
      ("Column_Scale_Factor", AInt (nv_cfac n)); ("Line_Scale_Factor", AInt (nv_lfac n)); ("Column_Offset", AInt (nv_coff n)); ("Line_Offset", AInt (nv_loff n));
      ("Longitude", AFloat lon); ("Version", ADouble (Some 0%R))]
     [mk_ncvar (codes "calibration") NcFloat [2 ^ is_bpp i] [] [];
      time_var (t - 946684800);
      mk_ncvar channel NcShort [1; hg; wd] [("add_offset", ADouble (Some 0%R)); ("scale_factor", ADouble (Some 1%R)); ("chnum", AInt (si_channel s))] px]).
(** A product of an MSG satellite, as its headers and its prologue describe it. *)
Record described (h : host) (segs : segments) (hd0 : header) (d0 : mdata) (files : list (header * mdata)) (s : seg_id) (i : img_struct) (n : navig) : Prop := {
  de_parts : parts h segs ((hd0, d0) :: files);
  de_seg : h_seg hd0 = Some s; de_image : h_image hd0 = Some i; de_navig : h_navig hd0 = Some n;
  de_format : si_format s <> 0; de_last : si_last s = Z.of_nat (List.length segs); de_some : 0 < si_last s;
  de_shaped : shaped (is_lines i) (is_cols i) segs;
  de_size : 0 < is_lines i /\ 0 < is_cols i /\ is_cols i * (is_lines i * si_last s) < 2 ^ 30;
  de_bits : 0 <= is_bpp i < 31; de_chan : 1 <= si_channel s <= 12; de_msg : 321 <= si_spacecraft s <= 324;
  de_coff : - 2 ^ 30 < nv_coff n < 2 ^ 30; de_loff : - 2 ^ 30 < nv_loff n < 2 ^ 30 }.
Lemma msg_cases {A} (P : A -> Prop) (f : Z -> Z -> A) : (forall spc, In spc [321; 322; 323; 324] -> forall ch, In ch [1; 2; 3; 4; 5; 6; 7; 8; 9; 10; 11; 12] -> P (f spc ch)) -> forall spc ch, 321 <= spc <= 324 -> 1 <= ch <= 12 -> P (f spc ch).
Proof. intros H spc ch S0 C. apply H; cbn [In]; lia. Qed.
Lemma channel_plain spc ch : 321 <= spc <= 324 -> 1 <= ch <= 12 -> existsb (Z.eqb 47) (chname (MSG_channel_name spc ch)) = false /\ chname (MSG_channel_name spc ch) <> codes "time".
Proof.
  revert spc ch. apply (msg_cases (fun x => existsb (Z.eqb 47) x = false /\ x <> codes "time") (fun spc ch => chname (MSG_channel_name spc ch))). intros spc S0 ch C. cbn [In] in S0, C.
  assert (E : MSG_channel_name spc ch = MSG_channel_name 321 ch) by (destruct S0 as [<-|[<-|[<-|[<-|[]]]]]; reflexivity). rewrite E. clear E S0.
  repeat (destruct C as [<-|C]; [split; [vm_compute; reflexivity|vm_compute; discriminate]|]). destruct C.
Qed.
Lemma all_rows_length nlin npix segs : 0 <= nlin -> Z.of_nat (List.length (all_rows nlin npix segs)) = nlin * Z.of_nat (List.length segs).
Proof. intros N. unfold all_rows, range. rewrite !map_length, seq_length. nia. Qed.
Lemma phys_row_length nlin npix segs r : 0 < nlin -> 0 <= npix -> shaped nlin npix segs -> 0 <= r -> Z.of_nat (List.length (phys_row nlin npix segs r)) = npix.
Proof.
  intros NL NP SH R. unfold phys_row. destruct (nth _ segs None) as [rows|] eqn:E; [|unfold zero_row; rewrite repeat_length; lia]. apply nth_error_nth_some, nth_error_In in E. destruct (SH rows E) as [L F]. rewrite Forall_forall in F. apply F, nth_In. pose proof (Z.mod_pos_bound r nlin NL). lia.
Qed.
Lemma all_rows_width nlin npix segs : 0 < nlin -> 0 <= npix -> shaped nlin npix segs -> Forall (fun r => Z.of_nat (List.length r) = npix) (all_rows nlin npix segs).
Proof. intros NL NP SH. unfold all_rows, range. rewrite map_map, Forall_map, Forall_forall. intros k _. apply phys_row_length; (assumption || lia). Qed.
Lemma product_eq h segs hd0 d0 files s i n t lon area x0 y0 wd hg px : described h segs hd0 d0 files s i n ->
  subarea (is_cols i) (is_lines i * si_last s) (List.concat (all_rows (is_lines i) (is_cols i) segs)) area = Ok (x0, y0, wd, hg, px) -> 0 < wd -> 0 < hg ->
  product h ((hd0, d0) :: files) (Some t) lon area = Ok (Some (made s i n t lon x0 y0 wd hg px)).
Proof.
  intros [P S0 I0 N0 NF LA SO SH (NL & NC & B) BP CH MS CO LO] SA W H. unfold product. rewrite (C143_assembled h segs hd0 d0 files s i) by (assumption || nia). cbn [bind]. rewrite SA. cbn [bind]. rewrite S0, I0, N0. cbv zeta.
  destruct (channel_plain _ _ MS CH) as [-> _]. replace ((wd <=? 0) || (hg <=? 0)) with false by lia. replace (31 <=? is_bpp i) with false by lia. replace ((_ <? 1) || _) with false by lia. reflexivity.
Qed.

Lemma gt_made s i n t lon x0 y0 wd hg px qx qy : nominal_size qx -> nominal_size qy -> Z.abs (nv_cfac n) = factor qx -> Z.abs (nv_lfac n) = factor qy ->
  - 2 ^ 30 < nv_coff n < 2 ^ 30 -> - 2 ^ 30 < nv_loff n < 2 ^ 30 -> 0 <= x0 <= 2 ^ 30 -> 0 <= y0 <= 2 ^ 30 ->
  gt_nc (snd (made s i n t lon x0 y0 wd hg px)) = Ok (Some (grid_of (nv_coff n - (x0 - 1)) (nv_loff n - (y0 - 1)) qx qy)).
Proof.
  intros QX QY CX CY BC BL BX BY. unfold gt_nc, made, grid_of. cbn [snd f_attrs get_att String.eqb Ascii.eqb Bool.eqb att_int as_int].
  unfold att_int. cbn [get_att String.eqb Ascii.eqb Bool.eqb as_int]. rewrite CX, CY. rewrite (proj2 (nominal_factor _ _ (nominal_self _ QX))), (proj2 (nominal_factor _ _ (nominal_self _ QY))). cbn [bind].
  unfold int_fits. replace (negb _) with false by lia. reflexivity.
Qed.
(** The file of a part is placed one pixel to the west and one line to the north of
    where the part is in the image. *)
Theorem C144_refuted_position h segs hd0 d0 files s i n t lon lin alin pix apix qx qy : described h segs hd0 d0 files s i n ->
  1 <= lin -> 0 < alin -> lin - 1 + alin <= is_lines i * si_last s -> 1 <= pix -> 0 < apix -> pix - 1 + apix <= is_cols i ->
  nominal_size qx -> nominal_size qy -> Z.abs (nv_cfac n) = factor qx -> Z.abs (nv_lfac n) = factor qy ->
  exists f0 f1 name, product h ((hd0, d0) :: files) (Some t) lon None = Ok (Some (name, f0)) /\ product h ((hd0, d0) :: files) (Some t) lon (Some (lin, alin, pix, apix)) = Ok (Some (name, f1)) /\
    gt_nc f0 = Ok (Some (grid_of (nv_coff n) (nv_loff n) qx qy)) /\
    gt_nc f1 = Ok (Some (grid_of (nv_coff n - (pix - 2)) (nv_loff n - (lin - 2)) qx qy)) /\
    gt_nc f1 <> Ok (Some (grid_of (nv_coff n - (pix - 1)) (nv_loff n - (lin - 1)) qx qy)).
Proof.
  intros D L AL LN P AP PN QX QY CX CY. pose proof D as [_ _ _ _ _ LA SO SH (NL & NC & B) _ _ _ CO LO]. set (rows := all_rows (is_lines i) (is_cols i) segs).
  assert (F : Forall (fun r => Z.of_nat (List.length r) = is_cols i) rows) by (apply all_rows_width; (assumption || lia)). assert (RL : Z.of_nat (List.length rows) = is_lines i * si_last s) by (rewrite LA; apply all_rows_length; lia).
  exists (snd (made s i n t lon 1 1 (is_cols i) (is_lines i * si_last s) (List.concat rows))), (snd (made s i n t lon (pix - 1) (lin - 1) apix alin (List.concat (window rows (lin - 1) alin (pix - 1) apix)))), (nc_name (chname (MSG_channel_name (si_spacecraft s) (si_channel s))) t).
  split; [erewrite (product_eq h segs) by (exact D || reflexivity || nia); reflexivity|]. split; [erewrite (product_eq h segs) by (exact D || (apply C144_window; (assumption || nia)) || nia); reflexivity|].
  rewrite (gt_made s i n t lon 1 1 _ _ _ qx qy) by (assumption || lia). rewrite (gt_made s i n t lon (pix - 1) (lin - 1) _ _ _ qx qy) by (assumption || nia).
  change (1 - 1) with 0. rewrite !Z.sub_0_r. replace (pix - 1 - 1) with (pix - 2) by lia. replace (lin - 1 - 1) with (lin - 2) by lia. split; [reflexivity|]. split; [reflexivity|].
  intros E. unfold grid_of in E. assert (G : (- IZR (nv_coff n - (pix - 2)) * qx = - IZR (nv_coff n - (pix - 1)) * qx)%R) by congruence. assert (PQ : (0 < qx)%R) by (destruct QX as [-> | ->]; unfold PIXELSIZE, PIXELSIZE_HRV; lra). apply Rmult_eq_reg_r in G; [|lra]. apply Ropp_eq_compat in G. rewrite !Ropp_involutive in G. apply eq_IZR in G. lia.
Qed.
Print Assumptions C144_refuted_position.

(** ** C145 *)
(** The start of the repeat cycle: a stamp of [k] days since 1958 and milliseconds. *)
Definition stamp (k : nat) (ms : Z) : Z := 86400 * (Z.of_nat k - 4383) + ms / 1000.
Lemma tm_of_stamp e k y m d ms : date e = (1958, 1, 1) -> date (e + k) = (y, m, d) -> Z.of_nat k < 65536 -> 0 <= ms < 86400000 -> tm_of (stamp k ms) = (y, m, d, ms / 3600000, ms / 60000 mod 60) /\ 1000 <= y <= 9999 /\ two m /\ two d.
Proof.
  intros E K LK MS. pose proof (date_1958 e E) as E'. unfold tm_of, stamp. replace ((86400 * (Z.of_nat k - 4383) + ms / 1000) / 86400) with (Z.of_nat (e + k) - 719162) by lia. rewrite civil_date by lia. rewrite Nat2Z.id, K.
  replace ((86400 * (Z.of_nat k - 4383) + ms / 1000) mod 86400) with (ms / 1000) by lia. destruct (date_two _ _ _ _ K) as (Y1 & M1 & D1). pose proof (year_range _ _ _ _ K ltac:(lia)) as Y2. split; [|unfold two; lia]. replace (ms / 1000 / 3600) with (ms / 3600000) by lia. replace (ms / 1000 / 60) with (ms / 60000) by lia. reflexivity.
Qed.
Section Reopen.
Variable number_text : attr -> str.
Lemma reopen_made s i n e k y m d ms lon x0 y0 wd hg px : date e = (1958, 1, 1) -> date (e + k) = (y, m, d) -> Z.of_nat k < 65536 -> 0 <= ms < 86400000 -> 0 < wd < 2 ^ 31 -> 0 < hg < 2 ^ 31 -> 1 <= si_channel s <= 12 -> 321 <= si_spacecraft s <= 324 ->
  exists ds bd, open_nc number_text (snd (made s i n (stamp k ms) lon x0 y0 wd hg px)) = Some ds /\ d_size ds = Some (wd, hg) /\ d_sat ds = Some (MSG_spacecraft_name (si_spacecraft s)) /\
    d_time ds = iso_text y m d (ms / 3600000) (ms / 60000 mod 60) 0 /\ d_bands ds = [bd] /\ v_name (r_var bd) = chname (MSG_channel_name (si_spacecraft s) (si_channel s)) /\ r_chan bd = si_channel s /\ r_type bd = GInt16 /\ r_offset bd = Some 0%R /\ band_scale (r_var bd) = Some 1%R /\
    IReadBlock bd 0 0 = Ok (Some px).
Proof.
  intros E K LK MS W H CH SP. destruct (tm_of_stamp e k y m d ms E K LK MS) as (T & Y & M & D). destruct (channel_plain _ _ SP CH) as [_ NT]. unfold made. set (channel := chname _) in *. clearbody channel. unfold open_nc. cbn [snd f_attrs f_vars get_att String.eqb Ascii.eqb Bool.eqb].
  rewrite float_one_1. cbn [negb]. cbv zeta. unfold attr_text. cbn [get_att String.eqb Ascii.eqb Bool.eqb as_text]. unfold nc_time. rewrite T. rewrite zpad4, !zpad2 by (assumption || (unfold two; lia) || lia).
  change (dddd y ++ [45] ++ dd m ++ [45] ++ dd d ++ [32] ++ dd (ms / 3600000) ++ [58] ++ dd (ms / 60000 mod 60) ++ codes ":00 UTC") with (iso_text y m d (ms / 3600000) (ms / 60000 mod 60) 0 ++ 32 :: codes "UTC"). rewrite scan_iso_text by (assumption || (unfold two; lia) || lia).
  set (v := mk_ncvar channel NcShort _ _ _). assert (FI : filter (is_band ["time"]) [mk_ncvar (codes "calibration") NcFloat [2 ^ is_bpp i] [] []; time_var (stamp k ms - 946684800); v] = [v]).
  { assert (B1 : is_band ["time"] (mk_ncvar (codes "calibration") NcFloat [2 ^ is_bpp i] [] []) = false) by (unfold is_band; cbn [v_name v_dims]; rewrite andb_comm; destruct (2 ^ is_bpp i) as [|[| |]|]; reflexivity).
    assert (B3 : is_band ["time"] v = true) by (unfold is_band, v; cbn [v_name v_dims existsb]; unfold str_eqb; destruct (list_eq_dec _ channel _); [contradiction|reflexivity]). cbn [filter]. rewrite B1, B3. reflexivity. }
  rewrite FI. clear FI. cbn [map]. eexists. eexists. split; [reflexivity|]. cbn [d_size d_sat d_time d_bands r_bx r_by]. unfold read_band at 1 2. cbn [r_bx r_by]. unfold dim, v. cbn [v_dims nth]. unfold to_int. replace ((wd + 2 ^ 31) mod 2 ^ 32 - 2 ^ 31) with wd by lia. replace ((hg + 2 ^ 31) mod 2 ^ 32 - 2 ^ 31) with hg by lia.
  split; [reflexivity|]. split; [assert (NS : MSG_spacecraft_name (si_spacecraft s) <> []) by (assert (C : si_spacecraft s = 321 \/ si_spacecraft s = 322 \/ si_spacecraft s = 323 \/ si_spacecraft s = 324) by lia; destruct C as [-> | [-> | [-> | ->]]]; discriminate); destruct (MSG_spacecraft_name _); [contradiction|reflexivity]|].
  split; [apply time_text_iso; (assumption || (unfold two; lia) || lia)|]. split; [reflexivity|]. unfold read_band. cbn [r_var v_name r_chan r_type v_type v_attrs get_att String.eqb Ascii.eqb Bool.eqb as_int is_true read_type].
  split; [reflexivity|]. split; [reflexivity|]. split; [reflexivity|]. split; [|split; [reflexivity|]].
  - unfold band_offset. cbn [v_attrs get_att String.eqb Ascii.eqb Bool.eqb as_double num_is_one r_offset]. destruct (_ && _); reflexivity.
  - unfold IReadBlock. cbn [Z.eqb andb negb r_type r_bx r_by r_var v_data width]. unfold dim. rewrite Z.ltb_irrefl. reflexivity.
Qed.
(** The file, opened with the NetCDF driver: satellite, minute, channel, size, samples
    and grid are those of the product. *)
Theorem C145_reopened_partial h segs hd0 d0 files s i n e k y m d ms lon qx qy : described h segs hd0 d0 files s i n ->
  date e = (1958, 1, 1) -> date (e + k) = (y, m, d) -> Z.of_nat k < 65536 -> 0 <= ms < 86400000 ->
  nominal_size qx -> nominal_size qy -> Z.abs (nv_cfac n) = factor qx -> Z.abs (nv_lfac n) = factor qy ->
  exists out f ds bd, product h ((hd0, d0) :: files) (Some (stamp k ms)) lon None = Ok (Some (out, f)) /\ open_nc number_text f = Some ds /\ d_size ds = Some (is_cols i, is_lines i * si_last s) /\
    d_sat ds = Some (codes "MSG" ++ [48 + (si_spacecraft s - 320)]) /\ d_time ds = iso_text y m d (ms / 3600000) (ms / 60000 mod 60) 0 /\ d_bands ds = [bd] /\ r_chan bd = si_channel s /\ r_offset bd = Some 0%R /\ band_scale (r_var bd) = Some 1%R /\ r_type bd = GInt16 /\
    gt_nc f = Ok (Some (grid_of (nv_coff n) (nv_loff n) qx qy)) /\
    IReadBlock bd 0 0 = Ok (Some (List.concat (all_rows (is_lines i) (is_cols i) segs))).
Proof.
  intros D E K LK MS QX QY CX CY. pose proof D as [_ _ _ _ _ LA SO SH (NL & NC & B) _ CH SP CO LO]. set (px := List.concat _).
  destruct (reopen_made s i n e k y m d ms lon 1 1 (is_cols i) (is_lines i * si_last s) px E K LK MS ltac:(nia) ltac:(nia) CH SP) as (ds & bd & O & SZ & SA & T & BS & _ & C & TY & OF & SC & R).
  exists (fst (made s i n (stamp k ms) lon 1 1 (is_cols i) (is_lines i * si_last s) px)), (snd (made s i n (stamp k ms) lon 1 1 (is_cols i) (is_lines i * si_last s) px)), ds, bd.
  split; [erewrite (product_eq h segs) by (exact D || reflexivity || nia); reflexivity|]. split; [assumption|]. split; [assumption|].
  split; [rewrite SA; f_equal; assert (C1 : si_spacecraft s = 321 \/ si_spacecraft s = 322 \/ si_spacecraft s = 323 \/ si_spacecraft s = 324) by lia; destruct C1 as [-> | [-> | [-> | ->]]]; reflexivity|].
  repeat (split; [assumption|]). split; [|exact R]. rewrite (gt_made s i n (stamp k ms) lon 1 1 _ _ _ qx qy) by (assumption || lia). change (1 - 1) with 0. now rewrite !Z.sub_0_r.
Qed.
(** Its time is the seconds from the start of 2000 to the second of the start of the repeat
    cycle. *)
Theorem C145_time h segs hd0 d0 files s i n e k0 k y m d ms lon area out f : described h segs hd0 d0 files s i n ->
  date e = (1958, 1, 1) -> date k0 = (2000, 1, 1) -> date (e + k) = (y, m, d) -> 0 <= ms < 86400000 ->
  product h ((hd0, d0) :: files) (Some (stamp k ms)) lon area = Ok (Some (out, f)) ->
  In (time_var (seconds_between k0 (e + k) (ms / 3600000) (ms / 60000 mod 60) (ms / 1000 mod 60))) (f_vars f).
Proof.
  intros D E K0 K MS. unfold product. destruct (assemble h ((hd0, d0) :: files)) as [[[[npix nlin] px]|]| | | |]; cbn [bind]; try discriminate.
  destruct (subarea npix nlin px area) as [[[[[x0 y0] wd] hg] px']| | | |]; cbn [bind]; try discriminate. rewrite (de_seg _ _ _ _ _ _ _ _ D), (de_image _ _ _ _ _ _ _ _ D), (de_navig _ _ _ _ _ _ _ _ D). cbv zeta.
  destruct (existsb _ _); try discriminate. destruct (_ || _); try discriminate. destruct (31 <=? _); try discriminate. destruct (_ || _); try discriminate.
  intros X. injection X as _ <-. cbn [f_vars]. right. left. f_equal. pose proof (date_1958 e E) as E'. destruct (date_number k0) as [_ EK]. rewrite K0 in EK. unfold day_number in EK. change (days_before 2000 1 + (1 - 1)) with 10957 in EK. change (days_before 1 1 + (1 - 1)) with (-719162) in EK. unfold seconds_between, stamp. lia.
Qed.
Print Assumptions C145_time.
(** But the rows are those of the HRIT driver for the same segments turned by half a
    circle: row [r] of the file is what the driver gives for row 3711 - r, from right
    to left when the product is stored so. *)
Theorem C145_refuted_orientation h segs hd0 d0 files s i n e k y m d ms lon qx qy names g w ld hist r : described h segs hd0 d0 files s i n ->
  date e = (1958, 1, 1) -> date (e + k) = (y, m, d) -> Z.of_nat k < 65536 -> 0 <= ms < 86400000 ->
  nominal_size qx -> nominal_size qy -> Z.abs (nv_cfac n) = factor qx -> Z.abs (nv_lfac n) = factor qy ->
  g_seglines g = is_lines i -> g_columns g = is_cols i -> g_hrv g = false -> g_swapX g = (nv_cfac n <? 0) -> is_lines i * si_last s = 3712 ->
  holds names ld (is_lines i) (is_cols i) segs -> requests_ok hist -> (forall ld' j, In (ld', j) hist -> ld' = ld) -> 0 <= r < 3712 ->
  exists out f ds bd px shown, product h ((hd0, d0) :: files) (Some (stamp k ms)) lon None = Ok (Some (out, f)) /\ open_nc number_text f = Some ds /\ d_bands ds = [bd] /\ IReadBlock bd 0 0 = Ok (Some px) /\
    snd (line_read names g w ld (run names da_init hist) (3711 - r)) = Ok shown /\
    firstn (Z.to_nat (is_cols i)) (skipn (Z.to_nat r * Z.to_nat (is_cols i)) px) = if nv_cfac n <? 0 then rev shown else shown.
Proof.
  intros D E K LK MS QX QY CX CY G1 G2 G3 G4 TL H RO LD R. destruct (C145_reopened_partial h segs hd0 d0 files s i n e k y m d ms lon qx qy D E K LK MS QX QY CX CY) as (out & f & ds & bd & P & O & _ & _ & _ & BS & _ & _ & _ & _ & _ & RB).
  pose proof D as [_ _ _ _ _ LA SO SH (NL & NC & B) _ CH SP CO LO]. exists out, f, ds, bd, (List.concat (all_rows (is_lines i) (is_cols i) segs)), (orient (g_swapX g) (phys_row (is_lines i) (is_cols i) segs r)).
  repeat (split; [assumption|]). split.
  - rewrite <- G1, <- G2 in *. replace r with (3711 - (3711 - r)) at 2 by lia. apply C04_row_placement; (assumption || lia).
  - rewrite (skip_rows (is_cols i)) by (apply all_rows_width; (assumption || lia)). unfold all_rows. rewrite <- LA, TL.
    assert (SK : skipn (Z.to_nat r) (map (phys_row (is_lines i) (is_cols i) segs) (range 0 3712)) = phys_row (is_lines i) (is_cols i) segs r :: map (phys_row (is_lines i) (is_cols i) segs) (range (r + 1) (3712 - (r + 1)))).
    { replace 3712 with (r + (1 + (3712 - (r + 1)))) at 1 by lia. rewrite range_split by lia. rewrite map_app, skipn_app. rewrite skipn_all2 by (rewrite map_length; unfold range; rewrite map_length, seq_length; lia). rewrite map_length. unfold range at 1. rewrite map_length, seq_length. rewrite Nat.sub_diag. cbn [app skipn].
      rewrite range_split by lia. unfold range at 1. change (Z.to_nat 1) with 1%nat. cbn [seq map app]. replace (0 + r + Z.of_nat 0) with r by lia. replace (0 + r + 1) with (r + 1) by lia. reflexivity. }
    rewrite SK. cbn [List.concat]. pose proof (phys_row_length (is_lines i) (is_cols i) segs r NL ltac:(lia) SH ltac:(lia)) as PL. rewrite firstn_app. replace (Z.to_nat (is_cols i) - _)%nat with 0%nat by lia. cbn [firstn]. rewrite app_nil_r, firstn_all2 by lia.
    rewrite G4. unfold orient. destruct (nv_cfac n <? 0); [now rewrite rev_involutive|reflexivity].
Qed.
End Reopen.
Print Assumptions C145_reopened_partial.
Print Assumptions C145_refuted_orientation.

(** ** C146 *)
(** Names of files tell channels and minutes of one satellite apart. *)
Lemma channel_codes_inj a b : In a [1; 2; 3; 4; 5; 6; 7; 8; 9; 10; 11; 12] -> In b [1; 2; 3; 4; 5; 6; 7; 8; 9; 10; 11; 12] -> chname (MSG_channel_name 321 a) = chname (MSG_channel_name 321 b) -> a = b.
Proof.
  intros A B E. assert (X : forallb (fun a => forallb (fun b => negb (str_eqb (chname (MSG_channel_name 321 a)) (chname (MSG_channel_name 321 b))) || (a =? b)) [1; 2; 3; 4; 5; 6; 7; 8; 9; 10; 11; 12]) [1; 2; 3; 4; 5; 6; 7; 8; 9; 10; 11; 12] = true) by (vm_compute; reflexivity).
  rewrite forallb_forall in X. specialize (X a A). rewrite forallb_forall in X. specialize (X b B). apply orb_prop in X. destruct X as [X|X]; [|lia]. rewrite E in X. unfold str_eqb in X. destruct (list_eq_dec _ _ _); [discriminate|contradiction].
Qed.
Lemma family spc ch : 321 <= spc <= 324 -> MSG_channel_name spc ch = MSG_channel_name 321 ch.
Proof. intros H. assert (C : spc = 321 \/ spc = 322 \/ spc = 323 \/ spc = 324) by lia. destruct C as [-> | [-> | [-> | ->]]]; reflexivity. Qed.
Lemma app_inj_tail_len {A} (a b c d : list A) : List.length b = List.length d -> a ++ b = c ++ d -> a = c /\ b = d.
Proof. intros L E. assert (List.length a = List.length c) by (apply (f_equal (@List.length A)) in E; rewrite !app_length in E; lia). now apply app_inj_len. Qed.
Theorem C146_names spc ch k ms spc' ch' k' ms' : 321 <= spc <= 324 -> 321 <= spc' <= 324 -> 1 <= ch <= 12 -> 1 <= ch' <= 12 ->
  Z.of_nat k < 65536 -> Z.of_nat k' < 65536 -> 0 <= ms < 86400000 -> 0 <= ms' < 86400000 ->
  (nc_name (chname (MSG_channel_name spc ch)) (stamp k ms) = nc_name (chname (MSG_channel_name spc' ch')) (stamp k' ms') <-> ch = ch' /\ k = k' /\ ms / 60000 = ms' / 60000).
Proof.
  intros S1 S2 C1 C2 K1 K2 M1 M2. rewrite (family spc), (family spc') by assumption. destruct (C120_calendar 1958 1 1 ltac:(lia) ltac:(lia) ltac:(cbn; lia)) as (e & E).
  destruct (date (e + k)) as [[y m] d] eqn:N1. destruct (date (e + k')) as [[y' m'] d'] eqn:N2. destruct (tm_of_stamp e k y m d ms E N1 K1 M1) as (T1 & Y1 & MM1 & D1). destruct (tm_of_stamp e k' y' m' d' ms' E N2 K2 M2) as (T2 & Y2 & MM2 & D2).
  unfold nc_name. rewrite T1, T2. rewrite !print4, !zpad2 by (assumption || (unfold two; lia) || lia). split.
  - intros X. apply app_inj_tail_len in X; [|reflexivity]. destruct X as [CX X]. apply channel_codes_inj in CX; [|cbn [In]; lia|cbn [In]; lia]. split; [exact CX|]. unfold dddd in X. rewrite <- !app_assoc in X. 
    apply app_inj_len in X; [|reflexivity]. destruct X as [_ X]. apply app_inj_len in X; [|reflexivity]. destruct X as [A1 X]. apply app_inj_len in X; [|reflexivity]. destruct X as [A2 X]. apply app_inj_len in X; [|reflexivity]. destruct X as [A3 X]. apply app_inj_len in X; [|reflexivity]. destruct X as [A4 X]. apply app_inj_len in X; [|reflexivity]. destruct X as [_ X].
    apply app_inj_len in X; [|reflexivity]. destruct X as [A5 X]. apply app_inj_len in X; [|reflexivity]. destruct X as [A6 _].
    apply dd_inj in A1, A2, A3, A4, A5, A6; try (assumption || (unfold two; lia)). assert (Y : y = y') by lia. rewrite Y, A3, A4, <- N2 in N1. apply date_inj in N1. split; lia.
  - intros (<- & <- & MS). rewrite N1 in N2. injection N2 as <- <- <-. assert (Q : ms / 3600000 = ms' / 3600000) by lia. now rewrite MS, Q.
Qed.
Print Assumptions C146_names.
(** They say the channel, the day and the minute, without blanks and dots. *)
Definition channel_words : list string :=
  ["Visible_0_6"; "Visible_0_8"; "Infrared_1_6"; "Infrared_3_9"; "Water_Vapour_6_2"; "Water_Vapour_7_3"; "Infrared_8_7"; "Infrared_9_7"; "Infrared_10_8"; "Infrared_12_0"; "Infrared_13_4"; "HRV"].
Theorem C146_words h segs hd0 d0 files s i n e k y m d ms lon : described h segs hd0 d0 files s i n ->
  date e = (1958, 1, 1) -> date (e + k) = (y, m, d) -> Z.of_nat k < 65536 -> 0 <= ms < 86400000 ->
  exists f, product h ((hd0, d0) :: files) (Some (stamp k ms)) lon None =
    Ok (Some (codes "MSG_Seviri_1_5_" ++ codes (nth (Z.to_nat (si_channel s - 1)) channel_words "") ++ codes "_channel_" ++ dddd y ++ dd m ++ dd d ++ codes "_" ++ dd (ms / 3600000) ++ dd (ms / 60000 mod 60) ++ codes ".nc", f)).
Proof.
  intros D E K LK MS. pose proof D as [_ _ _ _ _ _ SO _ (NL & NC & B) _ CH SP _ _]. eexists. erewrite (product_eq h segs) by (exact D || reflexivity || nia). unfold made. cbv zeta. rewrite (family _ (si_channel s) SP).
  destruct (tm_of_stamp e k y m d ms E K LK MS) as (T & Y & M & DD). unfold nc_name at 1. rewrite T. rewrite print4, !zpad2 by (assumption || (unfold two; lia) || lia). do 3 f_equal.
  match goal with |- ?a ++ ?r = ?b ++ ?c ++ ?d0 ++ ?r' => assert (X : a = b ++ c ++ codes "_channel") end.
  { assert (C : In (si_channel s) [1; 2; 3; 4; 5; 6; 7; 8; 9; 10; 11; 12]) by (cbn [In]; lia). cbn [In] in C. repeat destruct C as [<- | C]; try reflexivity. contradiction. }
  rewrite X, <- !app_assoc. reflexivity.
Qed.
Print Assumptions C146_words.
(** They do not tell satellites apart: of two products of one channel and minute the
    second replaces the first. *)
Theorem C146_refuted_satellite h segs hd0 d0 files s i n segs' hd0' d0' files' s' i' n' t lon lon' : described h segs hd0 d0 files s i n -> described h segs' hd0' d0' files' s' i' n' ->
  si_channel s = si_channel s' -> si_spacecraft s <> si_spacecraft s' ->
  exists out f f', product h ((hd0, d0) :: files) (Some t) lon None = Ok (Some (out, f)) /\ product h ((hd0', d0') :: files') (Some t) lon' None = Ok (Some (out, f')) /\ f <> f'.
Proof.
  intros D D' C N. pose proof D as [_ _ _ _ _ _ SO _ (NL & NC & B) _ _ SP _ _]. pose proof D' as [_ _ _ _ _ _ SO' _ (NL' & NC' & B') _ _ SP' _ _]. do 3 eexists. split; [erewrite (product_eq h segs) by (exact D || reflexivity || nia); reflexivity|]. split; [erewrite (product_eq h segs') by (exact D' || reflexivity || nia)|].
  - unfold made. cbv zeta. rewrite (family (si_spacecraft s')), <- C, <- (family (si_spacecraft s)) by assumption. reflexivity.
  - intros X. apply (f_equal f_attrs) in X. cbn [f_attrs] in X. apply (f_equal (fun l => get_att l "Satellite")) in X. cbn [get_att String.eqb Ascii.eqb Bool.eqb] in X. assert (Y : MSG_spacecraft_name (si_spacecraft s) = MSG_spacecraft_name (si_spacecraft s')) by congruence. clear X.
    assert (C1 : si_spacecraft s = 321 \/ si_spacecraft s = 322 \/ si_spacecraft s = 323 \/ si_spacecraft s = 324) by lia. assert (C2 : si_spacecraft s' = 321 \/ si_spacecraft s' = 322 \/ si_spacecraft s' = 323 \/ si_spacecraft s' = 324) by lia.
    destruct C1 as [Q | [Q | [Q | Q]]], C2 as [Q' | [Q' | [Q' | Q']]]; rewrite Q, Q' in *; first [congruence | (exfalso; now apply N) | (vm_compute in Y; discriminate)].
Qed.
Print Assumptions C146_refuted_satellite.

(** ** C147 *)
Lemma rev_concat {A} (l : list (list A)) : rev (List.concat l) = List.concat (map (@rev A) (rev l)).
Proof. induction l as [|x l IH]; [reflexivity|]. cbn [List.concat rev]. rewrite rev_app_distr, IH, map_app, concat_app. cbn [map List.concat]. now rewrite app_nil_r. Qed.
Lemma range_rev n : 0 <= n -> rev (range 0 n) = map (fun l => n - 1 - l) (range 0 n).
Proof.
  intros N. unfold range. rewrite <- map_rev, map_map. pose proof (Z2Nat.id n N) as K. revert K. generalize (Z.to_nat n) as k. intros k <-. clear. induction k as [|k IH]; [reflexivity|].
  assert (R : rev (seq 0 (S k)) = k :: rev (seq 0 k)) by (now rewrite seq_S, rev_app_distr). rewrite R. cbn [map]. rewrite IH. cbn [seq map]. rewrite <- seq_shift, map_map. f_equal; [lia|]. apply map_ext. intros j. lia.
Qed.
(** The picture has what the HRIT driver gives for rows 0 to 3711, for products stored
    with north down and east left, the only ones that there are. *)
Theorem C147_picture_partial h segs hd0 d0 files s i n names g w ld hist : described h segs hd0 d0 files s i n -> nv_cfac n < 0 ->
  g_seglines g = is_lines i -> g_columns g = is_cols i -> g_hrv g = false -> g_swapX g = (nv_cfac n <? 0) -> is_lines i * si_last s = 3712 ->
  holds names ld (is_lines i) (is_cols i) segs -> requests_ok hist -> (forall ld' j, In (ld', j) hist -> ld' = ld) ->
  exists rows, picture h ((hd0, d0) :: files) = Ok (Some (is_cols i, 3712, List.concat (map rows (range 0 3712)))) /\
    forall l, 0 <= l < 3712 -> snd (line_read names g w ld (run names da_init hist) l) = Ok (rows l).
Proof.
  intros D SW G1 G2 G3 G4 TL H RO LD. pose proof D as [P HS HI _ NF LA SO SH (NL & NC & B) _ CH SP CO LO]. exists (fun l => rev (phys_row (is_lines i) (is_cols i) segs (3711 - l))). split.
  - unfold picture. rewrite (C143_assembled h segs hd0 d0 files s i) by (assumption || nia). cbn [bind]. rewrite TL. do 4 f_equal. rewrite rev_concat. f_equal. unfold all_rows. rewrite <- LA, TL, <- map_rev, range_rev by lia. rewrite !map_map. reflexivity.
  - intros l L. assert (C := C04_row_placement names g w ld segs hist l RO LD). rewrite G1, G2, G4 in C. rewrite C by (assumption || lia). replace (nv_cfac n <? 0) with true by lia. reflexivity.
Qed.
Print Assumptions C147_picture_partial.
(** One stored the other way is mirrored: the columns are not looked at. *)
Theorem C147_refuted_mirrored h segs hd0 d0 files s i n names g w ld hist : described h segs hd0 d0 files s i n -> 0 <= nv_cfac n ->
  g_seglines g = is_lines i -> g_columns g = is_cols i -> g_hrv g = false -> g_swapX g = (nv_cfac n <? 0) -> is_lines i * si_last s = 3712 ->
  holds names ld (is_lines i) (is_cols i) segs -> requests_ok hist -> (forall ld' j, In (ld', j) hist -> ld' = ld) ->
  exists rows, picture h ((hd0, d0) :: files) = Ok (Some (is_cols i, 3712, List.concat (map rows (range 0 3712)))) /\
    forall l, 0 <= l < 3712 -> snd (line_read names g w ld (run names da_init hist) l) = Ok (rev (rows l)).
Proof.
  intros D SW G1 G2 G3 G4 TL H RO LD. pose proof D as [P HS HI _ NF LA SO SH (NL & NC & B) _ CH SP CO LO]. exists (fun l => rev (phys_row (is_lines i) (is_cols i) segs (3711 - l))). split.
  - unfold picture. rewrite (C143_assembled h segs hd0 d0 files s i) by (assumption || nia). cbn [bind]. rewrite TL. do 4 f_equal. rewrite rev_concat. f_equal. unfold all_rows. rewrite <- LA, TL, <- map_rev, range_rev by lia. rewrite !map_map. reflexivity.
  - intros l L. assert (C := C04_row_placement names g w ld segs hist l RO LD). rewrite G1, G2, G4 in C. rewrite C by (assumption || lia). replace (nv_cfac n <? 0) with false by lia. now rewrite rev_involutive.
Qed.
Print Assumptions C147_refuted_mirrored.

(** ** Cases *)
Lemma shows_samples h n l : shows h (mk_image n (Samples l)) l.
Proof. intros j x N. unfold sample, rd1. cbn [im_data]. now rewrite N. Qed.
Definition ex_header (seq last lines : Z) : header :=
  with_navig (with_seg (with_image empty_header (mk_is 10 3 lines 0 (3 * lines) 0)) (mk_si 322 9 seq 1 last 1)) (mk_nv (codes "GEOS") (Some (codes "0.0")) (-13642337) (-13642337) 1856 1856).
Definition ex_data (rows : list row) : mdata := mk_mdata 0 (Some (mk_image 0 (Samples (List.concat rows)))) None None None None None None.
Definition ex_south : list row := [[1; 2; 3]; [4; 5; 6]].
Definition ex_north : list row := [[700; 800; 900]; [10; 11; 12]].
Definition ex_segs : segments := [Some ex_south; None; Some ex_north].
(** The last segment comes first, the second one is missing. *)
Definition ex_files : list (header * mdata) := [(ex_header 3 3 2, ex_data ex_north); (ex_header 1 3 2, ex_data ex_south)].
Example ex_described h : described h ex_segs (ex_header 3 3 2) (ex_data ex_north) [(ex_header 1 3 2, ex_data ex_south)] (mk_si 322 9 3 1 3 1) (mk_is 10 3 2 0 6 0) (mk_nv (codes "GEOS") (Some (codes "0.0")) (-13642337) (-13642337) 1856 1856).
Proof.
  constructor; cbn; try reflexivity; try lia.
  - constructor.
    + intros hd d [X|[X|[]]]; injection X as <- <-; do 3 eexists; (split; [reflexivity|]); (split; [cbn; lia|]); (split; [reflexivity|]); (split; [reflexivity|]); apply shows_samples.
    + intros [|[|[|[|k]]]] rows; cbn; try discriminate; intros _; do 3 eexists; [split; [right; left; reflexivity|]|split; [left; reflexivity|]]; (split; [reflexivity|reflexivity]).
  - intros rows [X|[X|[X|[]]]]; try discriminate; injection X as <-; (split; [reflexivity|repeat constructor]).
Qed.
Example C143_case h : assemble h ex_files = Ok (Some (3, 6, [1; 2; 3; 4; 5; 6; 0; 0; 0; 0; 0; 0; 700; 800; 900; 10; 11; 12])) /\
  List.concat (all_rows 2 3 ex_segs) = [1; 2; 3; 4; 5; 6; 0; 0; 0; 0; 0; 0; 700; 800; 900; 10; 11; 12].
Proof. split; reflexivity. Qed.
(** A last segment with half of the lines; a file with number 0. *)
Example C143_refuted_case h : assemble h [(ex_header 1 2 2, ex_data ex_south); (ex_header 2 2 1, ex_data [[7; 8; 9]])] = UB /\ short h (3 * 2) (ex_data [[7; 8; 9]]) /\ assemble h [(ex_header 1 2 2, ex_data ex_south); (ex_header 0 2 2, ex_data ex_north)] = UB.
Proof. split; [reflexivity|]. split; [|reflexivity]. exists 4%nat. split; [reflexivity|reflexivity]. Qed.
Example C144_case : subarea 3 6 (List.concat (all_rows 2 3 ex_segs)) (Some (5, 2, 2, 2)) = Ok (1, 4, 2, 2, [800; 900; 11; 12]) /\ subarea 3 6 (List.concat (all_rows 2 3 ex_segs)) (Some (6, 2, 2, 2)) = Terminate.
Proof. split; reflexivity. Qed.
(** The start of 2006-11-13 12:15:10. *)
Example C145_case h lon : exists f, product h ex_files (Some (stamp 17848 44110123)) lon None = Ok (Some (codes "MSG_Seviri_1_5_Infrared_10_8_channel_20061113_1215.nc", f)) /\ get_att (f_attrs f) "Time" = Some (AText (codes "2006-11-13 12:15:00 UTC")) /\ get_att (f_attrs f) "Satellite" = Some (AText (codes "MSG2")).
Proof.
  unfold ex_files. rewrite (product_eq h ex_segs _ _ _ _ _ _ (stamp 17848 44110123) lon None 1 1 3 6 _ (ex_described h) eq_refl) by lia. unfold made. cbv zeta. eexists. split; [apply f_equal, f_equal; apply f_equal2; [vm_compute; reflexivity|reflexivity]|]. cbn [f_attrs get_att String.eqb Ascii.eqb Bool.eqb]. split; apply f_equal, f_equal; vm_compute; reflexivity.
Qed.
(** A product of 3712 lines and what holds it for the HRIT driver. *)
Definition ex_tall : list row := map (fun k => [Z.of_nat k; 5; 0]) (seq 0 (Z.to_nat 3712)).
Example C145_holds : holds [codes "f"] (fun _ => Ok (List.concat ex_tall)) 3712 3 [Some ex_tall] /\ shaped 3712 3 [Some ex_tall] /\ phys_row 3712 3 [Some ex_tall] 0 <> rev (phys_row 3712 3 [Some ex_tall] 3711).
Proof.
  assert (W : Z.of_nat (List.length ex_tall) = 3712 /\ Forall (fun r => Z.of_nat (List.length r) = 3) ex_tall).
  { unfold ex_tall. rewrite map_length, seq_length. split; [lia|]. rewrite Forall_map, Forall_forall. intros j _. reflexivity. }
  split; [|split].
  - intros j J. destruct (Z.to_nat j) as [|[|]] eqn:EJ; cbn [nth].
    + exists (codes "f"). split; [unfold recorded; rewrite EJ; cbn; replace (j <? 0) with false by lia; reflexivity|]. split; [reflexivity|exact W].
    + unfold recorded. rewrite EJ. reflexivity.
    + unfold recorded. rewrite EJ. reflexivity.
  - intros rows [X|[]]. injection X as <-. exact W.
  - unfold phys_row. rewrite !Z.div_small, !Z.mod_small by lia. change (Z.to_nat 0) with 0%nat. cbn [nth]. unfold ex_tall. rewrite !(nth_indep _ [] ((fun k => [Z.of_nat k; 5; 0]) 0%nat)) by (rewrite map_length, seq_length; lia). rewrite !(map_nth (fun k => [Z.of_nat k; 5; 0])). rewrite !seq_nth by lia. cbn. discriminate.
Qed.
Example C147_case h : picture h ex_files = Ok (Some (3, 6, [12; 11; 10; 900; 800; 700; 0; 0; 0; 0; 0; 0; 6; 5; 4; 3; 2; 1])).
Proof. reflexivity. Qed.
