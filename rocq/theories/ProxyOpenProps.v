(** C101-C103: opening derived datasets and reading their blocks. *)
From Verif Require Import Base BaseFacts IniModel IniProofs GeoModel GeoProps ToolModel ToolRunProps ScanModel ProxyModel ProxyProps.
From Coq Require Import Permutation String.
Open Scope string_scope.
Open Scope list_scope.
Open Scope Z_scope.

(** ** C101: who deletes the source *)
Lemma find_channel id l x : last_band id (all_bands l) = Some x -> exists d b, In d l /\ In b (d_bands d) /\ chan_of b = Some id /\ fst x = d.
Proof.
  unfold last_band. destruct (find _ _) as [y|] eqn:F; [|discriminate]. intros H. apply find_some in F. destruct F as [F1 F2]. rewrite <- in_rev in F1. unfold all_bands in F1. apply in_flat_map in F1. destruct F1 as (d & D1 & D2). unfold bands_of in D2. apply in_map_iff in D2. destruct D2 as ([k b] & E & K). apply in_combine_r in K. subst y. cbn in H. injection H as <-. unfold is_channel in F2. cbn [snd] in F2. destruct (chan_of b) as [c|] eqn:C; [|discriminate]. apply Z.eqb_eq in F2. subst c. exists d, b. cbn. auto.
Qed.
Lemma channel_has d b id : In b (d_bands d) -> chan_of b = Some id -> has_channel d = true.
Proof. intros I C. unfold has_channel. apply existsb_exists. exists b. split; [exact I|]. now rewrite C. Qed.
Lemma add_one same d p : add_source same true proxy0 d = (p, Done) -> add_sources same true proxy0 [d] = (p, Done).
Proof. intros A. cbn [add_sources]. now rewrite A. Qed.
Lemma rasterband_source p ch x : init_rasterband p ch = Some x -> (ch = 1 \/ ch = 2 \/ ch = 3 \/ ch = 4 \/ ch = 12) /\ source_band p ch <> None /\ (ch = 4 -> source_band p 9 <> None /\ source_band p 11 <> None).
Proof.
  unfold init_rasterband. destruct ((ch =? 1) || (ch =? 2) || (ch =? 3) || (ch =? 12)) eqn:E.
  - destruct (base_ok p); [|discriminate]. destruct (source_band p ch); [|discriminate]. intros _. split; [lia|]. split; [discriminate|lia].
  - destruct (Z.eqb_spec ch 4) as [->|]; [|discriminate]. destruct (base_ok p); [|discriminate]. destruct (source_band p 4); [|discriminate]. destruct (source_band p 9); [|discriminate]. destruct (source_band p 11); [|discriminate]. intros _. split; [lia|]. repeat split; discriminate.
Qed.
Lemma source_from p l ch same take : add_sources same take proxy0 l = (p, Done) -> 1 <= ch <= 12 -> source_band p ch <> None -> exists d b, In d l /\ In b (d_bands d) /\ chan_of b = Some ch.
Proof.
  intros A C S0. unfold source_band in S0. rewrite (C99_sources _ _ _ _ _ A C) in S0. destruct (last_band ch (all_bands l)) as [x|] eqn:L; [|now destruct S0]. destruct (find_channel _ _ _ L) as (d & b & D & B & E & _). exists d, b. auto.
Qed.
Lemma singleton i l : NoDup l -> (forall j : Z, In j l <-> j = i) -> l = [i].
Proof. intros N H. apply Permutation_length_1_inv. apply Permutation_sym. apply NoDup_Permutation; [exact N|repeat constructor; intros []|]. intros x. rewrite H. cbn. intuition. Qed.
Lemma own_single same d p ch x : add_source same true proxy0 d = (p, Done) -> init_rasterband p ch = Some x -> destroy p = [d_id d].
Proof.
  intros A I. apply add_one in A. destruct (rasterband_source _ _ _ I) as (C & S0 & _). destruct (source_from _ _ ch _ _ A ltac:(lia) S0) as (e & b & [<-|[]] & B & K). destruct (C100_deleted_once_partial _ _ _ A) as [N M]. apply singleton; [exact N|]. intros j. rewrite M. split; [intros (e & [<-|[]] & E & _); auto|]. intros ->. exists d. repeat split; [now left|]. exact (channel_has d b ch B K).
Qed.
(** When opening ends with a dataset or with nothing, the source is deleted
    exactly once, either already or together with the result, and the result does
    not read a deleted dataset. *)
Definition accounted (r : opened) (del loaded : list Z) : Prop :=
  match r with
  | Opened _ reads owns => Permutation (owns ++ del) loaded /\ (forall x, In x reads -> In x owns)
  | Nothing => Permutation del loaded
  | _ => True
  end.
Theorem C101_extras_partial same v d r del : add_extras same v d = (r, del) -> accounted r del [d_id d].
Proof.
  unfold add_extras. destruct v as [v|].
  2: { intros H. injection H as <- <-. cbn. split; [reflexivity|auto]. }
  destruct (str_eqb v (codes "reflectance")).
  - destruct (d_bands d) as [|b l]; [intros H; injection H as <- <-; exact I|]. destruct (b_chan b); [|intros H; injection H as <- <-; exact I]. set (ch := to_int _). destruct (ch =? 4); [intros H; injection H as <- <-; exact I|]. destruct (add_source same true proxy0 d) as [p [| |]] eqn:A; try (intros H; injection H as <- <-; exact I). destruct (init_rasterband p ch) eqn:R; intros H; injection H as <- <-; [|exact I]. cbn [accounted]. rewrite (own_single _ _ _ _ _ A R). split; [reflexivity|auto].
  - assert (K : forall k, (let c := match derive same k d with (_, _, Done) => (Opened k [] [], [d_id d]) | (_, _, Thrown) => (Escaped, []) | (_, _, Undefined) => (Broken, []) end in c = (r, del) -> accounted r del [d_id d])) by (intros k c; unfold c; destruct (derive same k d) as [[? ?] [| |]]; intros H; injection H as <- <-; try exact I; cbn; split; [reflexivity|contradiction]).
    destruct (str_eqb v (codes "sat_za")); [apply K|]. destruct (str_eqb v (codes "cos_sol_za")); [apply K|]. destruct (str_eqb v (codes "jday")); [apply K|]. intros H. injection H as <- <-. cbn. reflexivity.
Qed.
Print Assumptions C101_extras_partial.
(** The files of a channel name: one, or the three the 3.9 reflectance needs. *)
Definition names_of (pid : str) : list str :=
  match rev pid with
  | 114 :: r => if str_eqb (rev r) (codes "IR_039") then [codes "IR_039"; codes "IR_108"; codes "IR_134"] else [rev r]
  | 97 :: r => [rev r]
  | _ => [pid]
  end.
Fixpoint loaded (init : str -> option ds) (l : list str) : list Z :=
  match l with
  | [] => []
  | n :: l' => match init n with Some d => d_id d :: loaded init l' | None => [] end
  end.
Lemma last_rev (x : Z) l d : last (rev (x :: l)) d = x /\ removelast (rev (x :: l)) = rev l.
Proof. cbn [rev]. split; [apply last_last|apply removelast_last]. Qed.
Theorem C101_xrit_partial same init v pid r del : (forall n d, init n = Some d -> has_channel d = true) -> NoDup (loaded init (names_of pid)) -> xrit_open same init v pid = (r, del) -> accounted r del (loaded init (names_of pid)).
Proof.
  intros HC ND. unfold xrit_open, names_of in *. rewrite <- (rev_involutive pid) in *. set (rp := rev pid) in *. clearbody rp. rewrite rev_involutive in *.
  assert (PL : forall n, match init n with None => (Nothing, []) | Some d => add_extras same v d end = (r, del) -> accounted r del (loaded init [n])). { intros n. cbn [loaded]. destruct (init n) as [d|]; [apply C101_extras_partial|]. intros H. injection H as <- <-. cbn. reflexivity. }
  destruct rp as [|c l]; [cbn [rev suffix]; apply PL|]. destruct (last_rev c l 0) as [L1 L2]. assert (SF : suffix (rev (c :: l)) = Some c). { unfold suffix. destruct (rev (c :: l)) eqn:E; [cbn in E; now destruct (rev l)|]. now rewrite <- L1. }
  rewrite SF, L2. destruct (Z.eq_dec c 114) as [->|N1].
  - destruct (str_eqb_spec (rev l) (codes "IR_039")) as [E|NE].
    + rewrite E. cbn [loaded] in *. destruct (init (codes "IR_039")) as [a|] eqn:IA; [|intros H; injection H as <- <-; cbn; reflexivity]. destruct (init (codes "IR_108")) as [b|] eqn:IB; [|intros H; injection H as <- <-; cbn; reflexivity]. destruct (init (codes "IR_134")) as [e|] eqn:IE; [|intros H; injection H as <- <-; cbn; reflexivity].
      destruct (add_source same true proxy0 a) as [p [| |]] eqn:A1; try (intros H; injection H as <- <-; exact I). destruct (add_source same true p b) as [p1 [| |]] eqn:A2; try (intros H; injection H as <- <-; exact I). destruct (add_source same true p1 e) as [p2 [| |]] eqn:A3; try (intros H; injection H as <- <-; exact I). destruct (init_rasterband p2 4); intros H; injection H as <- <-; [|exact I]. cbn [accounted].
      assert (A : add_sources same true proxy0 [a; b; e] = (p2, Done)) by (cbn [add_sources]; now rewrite A1, A2, A3). destruct (C100_deleted_once_partial _ _ _ A) as [N M]. rewrite app_nil_r. assert (MM : forall x, In x (destroy p2) <-> In x [d_id a; d_id b; d_id e]). { intros x. rewrite M. cbn [In]. split; [intros (d & [<-|[<-|[<-|[]]]] & D & _); auto|]. intros [<-|[<-|[<-|[]]]]; [exists a|exists b|exists e]; cbn [In]; eauto 8. }
      split; [apply NoDup_Permutation; assumption|]. intros x X. now apply MM.
    + cbn [loaded] in *. destruct (init (rev l)) as [d|]; [|intros H; injection H as <- <-; cbn; reflexivity]. cbv zeta. destruct (add_source same true proxy0 d) as [p [| |]] eqn:A; try (intros H; injection H as <- <-; exact I). destruct (init_rasterband p _) eqn:R; intros H; injection H as <- <-; [|exact I]. cbn [accounted]. rewrite (own_single _ _ _ _ _ A R). split; [reflexivity|auto].
  - destruct (Z.eq_dec c 97) as [->|N2].
    + cbn [loaded] in *. destruct (init (rev l)) as [d|]; [|intros H; injection H as <- <-; cbn; reflexivity]. destruct (derive same CosSolZA d) as [[? ?] [| |]]; intros H; injection H as <- <-; try exact I. cbn. split; [reflexivity|contradiction].
    + replace (match c with 114 => if str_eqb (rev l) (codes "IR_039") then [codes "IR_039"; codes "IR_108"; codes "IR_134"] else [rev l] | 97 => [rev l] | _ => [rev (c :: l)] end) with [rev (c :: l)].
      2: { clear -N1 N2. destruct c as [|q|q]; try reflexivity. do 7 (destruct q as [q|q|]; try reflexivity); congruence. }
      intros H. apply (PL (rev (c :: l))). rewrite <- H. clear -N1 N2. destruct c as [|q|q]; try reflexivity. do 7 (destruct q as [q|q|]; try reflexivity); congruence.
Qed.
Print Assumptions C101_xrit_partial.
(** Asking for the reflectance of channel 4, or of a channel without number, loses
    the source. *)
Theorem C101_refuted_leak same d b l : d_bands d = b :: l -> b_chan b = None \/ b_chan b = Some (codes "4") -> add_extras same (Some (codes "reflectance")) d = (Escaped, []).
Proof. intros B C. unfold add_extras. replace (str_eqb (codes "reflectance") (codes "reflectance")) with true by reflexivity. rewrite B. destruct C as [->| ->]; reflexivity. Qed.
Print Assumptions C101_refuted_leak.

(** ** C102: failures are reported *)
Theorem C102_unknown same v d : ~ In v [codes "reflectance"; codes "sat_za"; codes "cos_sol_za"; codes "jday"] -> add_extras same (Some v) d = (Nothing, [d_id d]).
Proof.
  intros H. unfold add_extras. cbn [In] in H. destruct (str_eqb_spec v (codes "reflectance")); [subst; tauto|]. destruct (str_eqb_spec v (codes "sat_za")); [subst; tauto|]. destruct (str_eqb_spec v (codes "cos_sol_za")); [subst; tauto|]. destruct (str_eqb_spec v (codes "jday")); [subst; tauto|reflexivity].
Qed.
Print Assumptions C102_unknown.
(** An exception leaves the open function for every channel but four. *)
Theorem C102_refuted_channel same d b l s : d_bands d = b :: l -> b_chan b = Some s -> all_digits s -> decimal s < 2 ^ 31 -> ~ In (decimal s) [1; 2; 3; 12] -> d_srs d <> None ->
  fst (add_extras same (Some (codes "reflectance")) d) = Escaped.
Proof.
  intros B C A D N S0. unfold add_extras. replace (str_eqb (codes "reflectance") (codes "reflectance")) with true by reflexivity. rewrite B, C, strtoul_digits by exact A. pose proof (decimal_nonneg _ (proj2 A)) as NN. set (v := decimal s) in *. replace (2 ^ 64 <=? v) with false by (symmetry; apply Z.leb_gt; lia). cbn [fst]. rewrite to_int_fits by (unfold int_fits; lia). cbn [In] in N.
  destruct (Z.eqb_spec v 4) as [|N4]; [reflexivity|]. assert (U : snd (add_source same true proxy0 d) <> Undefined).
  { clear B. unfold add_source. generalize 0%nat. generalize proxy0. induction (d_bands d) as [|b' l' IH]; intros p k; cbn [add_bands]; [discriminate|]. destruct (chan_of b'); [|apply IH]. destruct (add_info same p d) as [q [| |]] eqn:E; [apply IH|discriminate|]. exfalso. unfold add_info in E. destruct (d_srs d) as [o|]; [|contradiction]. repeat (match type of E with context [match p_osr p with _ => _ end] => destruct (p_osr p) | context [match d_gt d with _ => _ end] => destruct (d_gt d) | context [match d_time d with _ => _ end] => destruct (d_time d) | context [match d_md d with _ => _ end] => destruct (d_md d) | context [if ?x then _ else _] => destruct x end; cbn in E; try discriminate). }
  destruct (add_source same true proxy0 d) as [p [| |]]; [|reflexivity|now destruct U]. destruct (init_rasterband p v) eqn:R; [|reflexivity]. apply rasterband_source in R. lia.
Qed.
Print Assumptions C102_refuted_channel.

(** ** C103: blocks *)
(** The blocks of an image and the pixels of a block. *)
Definition is_block (d : ds) (block : Z * Z) (x y : Z) : Prop := 0 <= x /\ 0 <= y /\ x * fst block < d_xs d /\ y * snd block < d_ys d.
Theorem C103_read_partial d bx by0 x y : 0 < bx -> 0 < by0 -> d_xs d mod bx = 0 -> d_ys d mod by0 = 0 -> is_block d (bx, by0) x y -> read_block d (bx, by0) x y = true.
Proof.
  intros A B C D (E & F & G & H). cbn [fst snd] in *. unfold read_block, raster_io, block_window. cbn [rx ry rw rh fst snd]. apply Z.div_exact in C, D; [|lia|lia]. assert (x < d_xs d / bx) by nia. assert (y < d_ys d / by0) by nia. assert (x * bx + bx <= d_xs d) by nia. assert (y * by0 + by0 <= d_ys d) by nia. assert (0 <= x * bx) by nia. assert (0 <= y * by0) by nia. rewrite !andb_true_iff, !Z.leb_le. repeat split; lia.
Qed.
Print Assumptions C103_read_partial.
(** The last column of blocks cannot be read when the width is not a multiple of
    the block. *)
Theorem C103_refuted_edge d bx by0 y : 0 < bx -> 0 < d_xs d -> d_xs d mod bx <> 0 -> 0 <= y -> y * by0 < d_ys d -> is_block d (bx, by0) (d_xs d / bx) y /\ read_block d (bx, by0) (d_xs d / bx) y = false.
Proof.
  intros A B C E F. pose proof (Z.div_mod (d_xs d) bx ltac:(lia)) as DM. pose proof (Z.mod_pos_bound (d_xs d) bx A) as MB. assert (Q : 0 <= d_xs d / bx) by (apply Z.div_pos; lia). split; [unfold is_block; cbn [fst snd]; repeat split; try assumption; nia|].
  unfold read_block, raster_io, block_window. cbn [rx ry rw rh fst snd]. replace (d_xs d / bx * bx + bx <=? d_xs d) with false by (symmetry; apply Z.leb_gt; nia). now rewrite !andb_false_r.
Qed.
Print Assumptions C103_refuted_edge.
(** Each value of a block is computed at the coordinates of its pixel. *)
Theorem C103_order x y sx sy i j : 0 <= i < sx -> 0 <= j < sy -> List.length (coords x y sx sy) = Z.to_nat (sx * sy) /\ nth_error (coords x y sx sy) (Z.to_nat (j * sx + i)) = Some (x + i, y + j).
Proof.
  intros I J. unfold coords. set (row := fun iy => map (fun ix => (x + Z.of_nat ix, y + Z.of_nat iy)) (seq 0 (Z.to_nat sx))). assert (L : forall iy, List.length (row iy) = Z.to_nat sx) by (intros; unfold row; now rewrite map_length, seq_length).
  assert (G : forall n s, List.length (flat_map row (seq s n)) = (n * Z.to_nat sx)%nat /\ forall k, (k < n)%nat -> nth_error (flat_map row (seq s n)) (k * Z.to_nat sx + Z.to_nat i) = Some (x + i, y + Z.of_nat (s + k))).
  { induction n as [|n IH]; intros s; [split; [reflexivity|intros k K; lia]|]. cbn [seq flat_map]. destruct (IH (S s)) as [I1 I2]. split; [rewrite app_length, L, I1; reflexivity|]. intros [|k] K.
    - rewrite nth_error_app1 by (rewrite L; lia). cbn [Nat.mul Nat.add]. unfold row. rewrite nth_error_map. rewrite (nth_error_nth' _ 0%nat) by (rewrite seq_length; lia). rewrite seq_nth by lia. cbn [option_map]. rewrite Nat.add_0_r. do 3 f_equal. lia.
    - rewrite nth_error_app2 by (rewrite L; cbn; lia). rewrite L. replace (S k * Z.to_nat sx + Z.to_nat i - Z.to_nat sx)%nat with (k * Z.to_nat sx + Z.to_nat i)%nat by (cbn; lia). rewrite I2 by lia. do 3 f_equal. lia. }
  destruct (G (Z.to_nat sy) 0%nat) as [G1 G2]. split; [rewrite G1; rewrite Z2Nat.inj_mul by lia; apply Nat.mul_comm|]. specialize (G2 (Z.to_nat j) ltac:(lia)). replace (Z.to_nat (j * sx + i)) with (Z.to_nat j * Z.to_nat sx + Z.to_nat i)%nat by (rewrite Z2Nat.inj_add, Z2Nat.inj_mul by nia; reflexivity). rewrite G2. do 3 f_equal. lia.
Qed.
Print Assumptions C103_order.

(** ** Cases *)
Definition xband (c : string) (w : Z) : band := mk_band (Some (codes c)) (Some 7) true true (w, 1).
Definition xds (i : Z) (c : string) : ds := mk_ds i (Some 5) (Some [0; 1; 2; 3; 4; 5]) (Some (codes "2010-03-04 10:15:00")) (Some 9) true 3712 3712 [xband c 3712].
Example open_39 : xrit_open Z.eqb (fun n => if str_eqb n (codes "IR_039") then Some (xds 1 "4") else if str_eqb n (codes "IR_108") then Some (xds 2 "9") else if str_eqb n (codes "IR_134") then Some (xds 3 "11") else None) None (codes "IR_039r")
  = (Opened (Reflectance 4) [1; 2; 3] [3; 2; 1], []).
Proof. vm_compute. reflexivity. Qed.
Example open_vis : add_extras Z.eqb (Some (codes "reflectance")) (xds 1 "1") = (Opened (Reflectance 1) [1] [1], []) /\ add_extras Z.eqb (Some (codes "jday")) (xds 1 "1") = (Opened JDay [] [], [1]).
Proof. vm_compute. split; reflexivity. Qed.
Example open_108 : add_extras Z.eqb (Some (codes "reflectance")) (xds 1 "9") = (Escaped, [1]) /\ complete (xds 1 "9") /\ has_channel (xds 1 "13") = false.
Proof. split; [vm_compute; reflexivity|]. split; [repeat split; discriminate|vm_compute; reflexivity]. Qed.
Example offer_case : let bad := mk_ds 1 (Some 5) None None None true 10 10 [] in snd (fst (offer Z.eqb proxy0 [bad; xds 2 "1"; xds 3 "9"; mk_ds 4 (Some 6) (Some [0; 1; 2; 3; 4; 5]) (Some (codes "2010-03-04 10:15:00")) (Some 9) true 3712 3712 []])) = [xds 2 "1"; xds 3 "9"].
Proof. vm_compute. reflexivity. Qed.
Example edge_case : is_block (xds 1 "1") (128, 128) 0 0 /\ 3712 mod 128 = 0 /\ 3700 mod 128 <> 0.
Proof. vm_compute. intuition congruence. Qed.
