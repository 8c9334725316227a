(** Proofs about HRI images, keys and ASCII numbers. *)
From Verif Require Import BaseFacts HriImageModel HriImageSpec.
From Coq Require Import QArith.
#[local] Open Scope Z_scope.

Definition wf (im : image) : Prop :=
  2 <= halflin im /\ npixels im = 2 * halflin im /\ 0 < nlines im /\ lastpix im = npixels im - 1 /\ lastlin im = nlines im - 1 /\
  size im = npixels im * nlines im /\ Z.of_nat (List.length (data im)) = size im.
(** Pixel [p] of line [l]. *)
Definition pix (im : image) (l p : Z) : option Z := nth (Z.to_nat (l * npixels im + p)) (data im) None.

Lemma set_format_dims f b : match dims f b with
  | Some (np, nl) => exists im, set_format_band f b = Ok im /\ wf im /\ npixels im = np /\ nlines im = nl /\ data im = repeat None (Z.to_nat (np * nl))
  | None => set_format_band f b = Terminate
  end.
Proof.
  destruct f, b; cbn [dims set_format_band]; try reflexivity; unfold fresh; (eexists; split; [reflexivity|]; cbn [npixels nlines data]; split; [|split; [reflexivity|split; [reflexivity|f_equal; lia]]]);
    unfold wf; cbn [npixels nlines lastpix lastlin halflin size data]; rewrite repeat_length, Z2Nat.id by lia; lia.
Qed.

Lemma store_ok m off src n : 0 <= off -> 0 <= n -> off + n <= Z.of_nat (List.length m) -> n <= Z.of_nat (List.length src) ->
  exists m', store m off src n = Ok m' /\ List.length m' = List.length m /\
    forall i, 0 <= i -> nth (Z.to_nat i) m' None = if (off <=? i) && (i <? off + n) then Some (nth (Z.to_nat (i - off)) src 0) else nth (Z.to_nat i) m None.
Proof.
  intros O N B L. unfold store. destruct (Z.ltb_spec off 0); [lia|]. destruct (Z.ltb_spec (Z.of_nat (List.length m)) (off + n)); [lia|]. cbn [orb].
  rewrite bytes_at_ok by lia. cbn [bind skipn]. eexists. split; [reflexivity|]. split.
  - rewrite !app_length, map_length, !firstn_length, skipn_length. lia.
  - intros i I. destruct (Z.leb_spec off i); cbn [andb].
    + rewrite app_nth2; rewrite firstn_length; [|lia]. rewrite Nat.min_l by lia. destruct (Z.ltb_spec i (off + n)).
      * rewrite app_nth1 by (rewrite map_length, firstn_length; lia).
        replace (Z.to_nat i - Z.to_nat off)%nat with (Z.to_nat (i - off)) by lia.
        rewrite (nth_indep _ None (Some 0)) by (rewrite map_length, firstn_length; lia). rewrite map_nth. f_equal.
        rewrite <- (firstn_skipn (Z.to_nat n) src) at 2. rewrite app_nth1 by (rewrite firstn_length; lia). reflexivity.
      * rewrite app_nth2; rewrite map_length, firstn_length; [|lia]. rewrite nth_skipn. f_equal. lia.
    + rewrite app_nth1 by (rewrite firstn_length; lia). rewrite <- (firstn_skipn (Z.to_nat off) m) at 2. rewrite app_nth1 by (rewrite firstn_length; lia). reflexivity.
Qed.

Lemma cell_inj np l p l' p' : 0 <= p < np -> 0 <= p' < np -> l * np + p = l' * np + p' -> l = l' /\ p = p'.
Proof. intros H H' E. assert (l = l') by nia. subst. lia. Qed.

(** One write through [put_line] or [put_halfline]: in range ones succeed. *)
Lemma put_line_ok im c k : wf im -> 0 <= k < nlines im -> npixels im <= Z.of_nat (List.length c) ->
  exists im', put_line im c (npixels im) k = Ok im' /\ wf im' /\ npixels im' = npixels im /\ nlines im' = nlines im /\ halflin im' = halflin im /\
    forall l p, 0 <= l < nlines im -> 0 <= p < npixels im -> pix im' l p = if k =? l then Some (nth (Z.to_nat p) c 0) else pix im l p.
Proof.
  intros (H2 & NP & NL & LP & LL & SZ & LD) K C. unfold put_line. destruct (Z.eqb_spec (size im) 0) as [E|_]; [nia|]. rewrite Z.eqb_refl. cbn [negb].
  destruct (Z.ltb_spec k 0); [lia|]. destruct (Z.ltb_spec (lastlin im) k); [lia|]. cbn [orb].
  destruct (store_ok (data im) (k * npixels im) c (npixels im)) as (d & -> & LEN & NTH); [nia|nia|nia|exact C|]. cbn [bind].
  eexists. split; [reflexivity|]. split; [|split; [reflexivity|split; [reflexivity|split; [reflexivity|]]]].
  - unfold wf, with_data. cbn [npixels nlines lastpix lastlin halflin size data]. rewrite LEN. repeat split; try assumption; lia.
  - intros l p L P. unfold pix, with_data. cbn [npixels data]. rewrite NTH by nia.
    destruct (Z.eqb_spec k l) as [->|D].
    + replace (l * npixels im <=? l * npixels im + p) with true by (symmetry; apply Z.leb_le; lia).
      replace (l * npixels im + p <? l * npixels im + npixels im) with true by (symmetry; apply Z.ltb_lt; lia). cbn [andb]. do 3 f_equal. lia.
    + destruct (Z.leb_spec (k * npixels im) (l * npixels im + p)); cbn [andb]; [|reflexivity].
      destruct (Z.ltb_spec (l * npixels im + p) (k * npixels im + npixels im)); [|reflexivity]. exfalso. apply D. nia.
Qed.
Lemma put_half_ok im c k first : wf im -> 0 <= k < nlines im -> halflin im <= Z.of_nat (List.length c) ->
  exists im', put_halfline im c (halflin im) k first = Ok im' /\ wf im' /\ npixels im' = npixels im /\ nlines im' = nlines im /\ halflin im' = halflin im /\
    forall l p, 0 <= l < nlines im -> 0 <= p < npixels im ->
      pix im' l p = match puts (halflin im) (halflin im - 2) (Half k c first) l p with Some v => Some v | None => pix im l p end.
Proof.
  intros (H2 & NP & NL & LP & LL & SZ & LD) K C. unfold put_halfline. destruct (Z.eqb_spec (size im) 0) as [E|_]; [nia|]. rewrite Z.eqb_refl. cbn [negb].
  destruct (Z.ltb_spec k 0); [lia|]. destruct (Z.ltb_spec (lastlin im) k); [lia|]. cbn [orb].
  set (a := if first then 0 else halflin im - 2).
  replace (if first then store (data im) (k * npixels im) c (halflin im) else store (data im) (k * npixels im + halflin im - 2) c (halflin im))
    with (store (data im) (k * npixels im + a) c (halflin im)) by (unfold a; destruct first; f_equal; lia).
  assert (A : 0 <= a <= halflin im) by (unfold a; destruct first; lia).
  destruct (store_ok (data im) (k * npixels im + a) c (halflin im)) as (d & -> & LEN & NTH); [nia|nia|nia|exact C|]. cbn [bind].
  eexists. split; [reflexivity|]. split; [|split; [reflexivity|split; [reflexivity|split; [reflexivity|]]]].
  - unfold wf, with_data. cbn [npixels nlines lastpix lastlin halflin size data]. rewrite LEN. repeat split; try assumption; lia.
  - intros l p L P. unfold pix, with_data. cbn [npixels data]. rewrite NTH by nia. unfold puts. fold a.
    destruct (Z.eqb_spec k l) as [->|D]; cbn [andb].
    + replace (l * npixels im + a <=? l * npixels im + p) with (a <=? p) by (destruct (Z.leb_spec a p), (Z.leb_spec (l * npixels im + a) (l * npixels im + p)); try reflexivity; lia).
      replace (l * npixels im + p <? l * npixels im + a + halflin im) with (p <? a + halflin im)
        by (destruct (Z.ltb_spec p (a + halflin im)), (Z.ltb_spec (l * npixels im + p) (l * npixels im + a + halflin im)); try reflexivity; lia).
      destruct ((a <=? p) && (p <? a + halflin im)); [|reflexivity]. do 3 f_equal. lia.
    + destruct (Z.leb_spec (k * npixels im + a) (l * npixels im + p)); cbn [andb]; [|reflexivity].
      destruct (Z.ltb_spec (l * npixels im + p) (k * npixels im + a + halflin im)); [|reflexivity]. exfalso. apply D. nia.
Qed.

(** Reading. *)
Lemma nth_of_nat n k : (n < k)%nat -> nth n (map Z.of_nat (seq 0 k)) 0 = Z.of_nat n.
Proof. intros H. rewrite (nth_indep _ 0 (Z.of_nat 0)) by (rewrite map_length, seq_length; exact H). rewrite map_nth, seq_nth by exact H. reflexivity. Qed.
Lemma get_line_ok im l : wf im -> 0 <= l < nlines im -> get_line im l = Ok (Some (map (pix im l) (map Z.of_nat (seq 0 (Z.to_nat (npixels im)))))).
Proof.
  intros (H2 & NP & NL & LP & LL & SZ & LD) L. unfold get_line. destruct (Z.eqb_spec (size im) 0) as [E|_]; [nia|].
  destruct (Z.ltb_spec l 0); [lia|]. destruct (Z.ltb_spec (lastlin im) l); [lia|]. cbn [orb].
  unfold fetch. destruct (Z.ltb_spec (l * npixels im) 0); [nia|]. destruct (Z.ltb_spec (Z.of_nat (List.length (data im))) (l * npixels im + npixels im)); [nia|]. cbn [orb bind].
  do 2 f_equal. apply (nth_ext _ _ None None).
  - rewrite !map_length, seq_length, firstn_length, skipn_length. nia.
  - intros n Hn. rewrite firstn_length, skipn_length in Hn. assert (Hn' : (n < Z.to_nat (npixels im))%nat) by lia.
    rewrite (nth_indep (map _ _) None (pix im l 0)) by (rewrite !map_length, seq_length; lia). rewrite map_nth.
    rewrite nth_of_nat by exact Hn'. unfold pix.
    transitivity (nth n (skipn (Z.to_nat (l * npixels im)) (data im)) None).
    + rewrite <- (firstn_skipn (Z.to_nat (npixels im)) (skipn (Z.to_nat (l * npixels im)) (data im))) at 2.
      rewrite app_nth1 by (rewrite firstn_length, skipn_length; lia). reflexivity.
    + rewrite nth_skipn. f_equal. nia.
Qed.
Lemma get_pixel_ok im l p : wf im -> 0 <= l < nlines im -> 0 <= p < npixels im -> get_pixel im l p = Ok (pix im l p).
Proof.
  intros (H2 & NP & NL & LP & LL & SZ & LD) L P. unfold get_pixel. destruct (Z.eqb_spec (size im) 0) as [E|_]; [nia|].
  destruct (Z.ltb_spec l 0); [lia|]. destruct (Z.ltb_spec (lastlin im) l); [lia|]. destruct (Z.ltb_spec p 0); [lia|]. destruct (Z.ltb_spec (lastpix im) p); [lia|]. cbn [orb].
  unfold fetch. destruct (Z.ltb_spec (l * npixels im + p) 0); [nia|]. destruct (Z.ltb_spec (Z.of_nat (List.length (data im))) (l * npixels im + p + 1)); [nia|]. cbn [orb bind].
  change (Z.to_nat 1) with 1%nat. unfold pix. assert (G : (Z.to_nat (l * npixels im + p) < List.length (data im))%nat) by nia.
  revert G. generalize (Z.to_nat (l * npixels im + p)) as n. generalize (data im) as d. clear. induction d as [|x d IH]; intros [|n] G; cbn in *; try lia; [reflexivity|]. apply IH. lia.
Qed.

(** Histories. *)
Lemma put_all_ok h : forall im, wf im -> Forall (fits (npixels im) (halflin im) (nlines im)) h ->
  exists im', put_all im h = Ok im' /\ wf im' /\ npixels im' = npixels im /\ nlines im' = nlines im /\ halflin im' = halflin im /\
    forall l p, 0 <= l < nlines im -> 0 <= p < npixels im ->
      pix im' l p = match last_put (halflin im) (halflin im - 2) h l p with Some v => Some v | None => pix im l p end.
Proof.
  induction h as [|w h IH]; intros im W F.
  - exists im. cbn [put_all last_put]. split; [reflexivity|]. split; [exact W|]. repeat split.
  - inversion F as [|w' h' Fw Fh]; subst. destruct w as [k c|k c first]; cbn [fits] in Fw; cbn [put_all].
    + destruct (put_line_ok im c k W) as (im1 & -> & W1 & A & B & C & E); [apply Fw|apply Fw|]. cbn [bind].
      destruct (IH im1 W1) as (im2 & -> & W2 & A2 & B2 & C2 & E2); [rewrite A, B, C; exact Fh|]. exists im2.
      split; [reflexivity|]. split; [exact W2|]. split; [congruence|]. split; [congruence|]. split; [congruence|]. intros l p L P.
      rewrite E2 by (rewrite ?A, ?B; assumption). rewrite C. cbn [last_put]. destruct (last_put _ _ h l p); [reflexivity|]. rewrite E by assumption. cbn [puts]. destruct (k =? l); reflexivity.
    + destruct (put_half_ok im c k first W) as (im1 & -> & W1 & A & B & C & E); [apply Fw|apply Fw|]. cbn [bind].
      destruct (IH im1 W1) as (im2 & -> & W2 & A2 & B2 & C2 & E2); [rewrite A, B, C; exact Fh|]. exists im2.
      split; [reflexivity|]. split; [exact W2|]. split; [congruence|]. split; [congruence|]. split; [congruence|]. intros l p L P.
      rewrite E2 by (rewrite ?A, ?B; assumption). rewrite C. cbn [last_put]. destruct (last_put _ _ h l p); [reflexivity|]. rewrite E by assumption. reflexivity.
Qed.
Lemma put_lines_all h : forall im, put_lines im h = put_all im (map (fun kc => Whole (fst kc) (snd kc)) h).
Proof. induction h as [|[k c] h IH]; intros im; cbn [put_lines put_all map fst snd]; [reflexivity|]. destruct (put_line im c (npixels im) k); cbn [bind]; [apply IH|reflexivity..]. Qed.
Lemma last_put_latest half second h l p : last_put half second (map (fun kc => Whole (fst kc) (snd kc)) h) l p = option_map (fun c => nth (Z.to_nat p) c 0) (latest h l).
Proof. induction h as [|[k c] h IH]; cbn [map last_put latest fst snd puts]; [reflexivity|]. rewrite IH. destruct (latest h l); [reflexivity|]. cbn [option_map]. now destruct (k =? l). Qed.

(** Requests out of range. *)
Lemma put_line_bad im c k : wf im -> ~ 0 <= k < nlines im -> put_line im c (npixels im) k = Terminate.
Proof.
  intros (H2 & NP & NL & LP & LL & SZ & LD) K. unfold put_line. destruct (Z.eqb_spec (size im) 0) as [E|_]; [nia|]. rewrite Z.eqb_refl. cbn [negb].
  destruct (Z.ltb_spec k 0); cbn [orb]; [reflexivity|]. destruct (Z.ltb_spec (lastlin im) k); [reflexivity|]. lia.
Qed.
Lemma put_line_size im c n k : wf im -> n <> npixels im -> put_line im c n k = Terminate.
Proof.
  intros (H2 & NP & NL & LP & LL & SZ & LD) K. unfold put_line. destruct (Z.eqb_spec (size im) 0) as [E|_]; [nia|].
  destruct (Z.eqb_spec n (npixels im)); [contradiction|reflexivity].
Qed.
Lemma get_line_bad im l : wf im -> ~ 0 <= l < nlines im -> get_line im l = Terminate.
Proof.
  intros (H2 & NP & NL & LP & LL & SZ & LD) K. unfold get_line. destruct (Z.eqb_spec (size im) 0) as [E|_]; [nia|].
  destruct (Z.ltb_spec l 0); cbn [orb]; [reflexivity|]. destruct (Z.ltb_spec (lastlin im) l); [reflexivity|]. lia.
Qed.
Lemma get_pixel_bad im l p : wf im -> ~ (0 <= l < nlines im /\ 0 <= p < npixels im) -> get_pixel im l p = Terminate.
Proof.
  intros (H2 & NP & NL & LP & LL & SZ & LD) K. unfold get_pixel. destruct (Z.eqb_spec (size im) 0) as [E|_]; [nia|].
  destruct (Z.ltb_spec l 0); cbn [orb]; [reflexivity|]. destruct (Z.ltb_spec (lastlin im) l); [reflexivity|].
  destruct (Z.ltb_spec p 0); cbn [orb]; [reflexivity|]. destruct (Z.ltb_spec (lastpix im) p); [reflexivity|]. lia.
Qed.

(** ** Keys *)
Definition slot_of (e : entry) : keyslot :=
  match e with None => no_slot | Some (k, s, m) => mk_slot true k s m end.
Lemma entry_length e : entry_ok e -> List.length (entry_bytes e) = 12%nat.
Proof. destruct e as [[[k s] m]|]; [|reflexivity]. cbn [entry_ok entry_bytes]. intros (_ & _ & _ & L). rewrite app_length, L. reflexivity. Qed.
Lemma read_slot_at pre e post i : entry_ok e -> List.length pre = (i * 12)%nat -> read_slot (pre ++ entry_bytes e ++ post) i = Ok (slot_of e).
Proof.
  intros E L. unfold read_slot. rewrite bytes_at_app by (rewrite ?entry_length; auto). cbn [bind].
  destruct e as [[[k s] m]|]; [|reflexivity]. cbn [entry_ok] in E. destruct E as (K & S & B & Lm).
  do 8 (destruct m as [|? m]; [discriminate|]). destruct m; [|discriminate]. cbn [entry_bytes app]. change (1 =? 0) with false. cbn [slot_of]. do 2 f_equal. lia.
Qed.
Lemma read_slots_at t : forall pre i, Forall entry_ok t -> List.length pre = (i * 12)%nat -> read_slots (pre ++ table_bytes t) i (List.length t) = Ok (map slot_of t).
Proof.
  induction t as [|e t IH]; intros pre i F L; [reflexivity|]. inversion F; subst. cbn [List.length read_slots]. unfold table_bytes. cbn [map List.concat].
  rewrite read_slot_at by assumption. cbn [bind]. rewrite app_assoc. fold (table_bytes t). rewrite (IH (pre ++ entry_bytes e) (S i)) by (auto; rewrite app_length, entry_length by assumption; lia). reflexivity.
Qed.
Lemma has_keys_iff t st : has_keys (map slot_of t) st = true <-> exists k m, In (Some (k, st, m)) t.
Proof.
  induction t as [|e t IH]; cbn [map has_keys].
  - split; [discriminate|intros (k & m & [])].
  - destruct e as [[[k s] m]|]; cbn [slot_of usage station_number no_slot andb].
    + destruct (Z.eqb_spec s st) as [->|D].
      * split; auto. intros _. exists k, m. now left.
      * rewrite IH. split; intros (k' & m' & I); exists k', m'; [now right|]. destruct I as [I|I]; [congruence|exact I].
    + rewrite IH. split; intros (k' & m' & I); exists k', m'; [now right|]. destruct I as [I|I]; [discriminate|exact I].
Qed.
Definition matches (st kn : Z) (e : entry) : Prop := exists m, e = Some (kn, st, m).
Lemma get_key_first t st kn e : is_first (matches st kn) t e -> get_key (map slot_of t) st kn = slot_of e.
Proof.
  intros (l1 & l2 & -> & (m & ->) & F). rewrite map_app. cbn [map]. induction l1 as [|x l1 IH]; cbn [map app get_key].
  - cbn [slot_of usage station_number key_number]. rewrite !Z.eqb_refl. reflexivity.
  - inversion F as [|x' l' Nx Fl]; subst. rewrite IH by assumption. destruct x as [[[k s] mm]|]; cbn [slot_of usage station_number key_number no_slot andb]; [|reflexivity].
    destruct (Z.eqb_spec s st) as [->|]; [|reflexivity]. destruct (Z.eqb_spec k kn) as [->|]; [|reflexivity]. exfalso. apply Nx. now exists mm.
Qed.
Lemma get_key_none t st kn : Forall (fun x => ~ matches st kn x) t -> get_key (map slot_of t) st kn = no_slot.
Proof.
  induction 1 as [|x l Nx _ IH]; cbn [map get_key]; [reflexivity|]. rewrite IH. destruct x as [[[k s] mm]|]; cbn [slot_of usage station_number key_number no_slot andb]; [|reflexivity].
  destruct (Z.eqb_spec s st) as [->|]; [|reflexivity]. destruct (Z.eqb_spec k kn) as [->|]; [|reflexivity]. exfalso. apply Nx. now exists mm.
Qed.

(** ** ASCII numbers *)
Lemma add_f_digit q b w : digit_or_blank b -> (add_f q b w == q + inject_Z (digit b) * w)%Q.
Proof. intros D. unfold add_f, digit. destruct (Z.eqb_spec b 32); cbn [negb]; [|reflexivity]. change (inject_Z 0) with 0%Q. ring. Qed.
Lemma add_i_digit v b w : digit_or_blank b -> 0 <= w -> 0 <= v -> v + 9 * w < 2 ^ 15 -> add_i v b w = v + digit b * w.
Proof.
  intros D W V B. unfold add_i, digit. destruct D as [->|D]; [cbn; lia|]. destruct (Z.eqb_spec b 32); [lia|]. cbn [negb].
  unfold to_signed. rewrite Z.mod_small by nia. change (16 - 1) with 15. destruct (Z.ltb_spec (v + (b - 48) * w) (2 ^ 15)); nia.
Qed.
Lemma digit_bounds b : digit_or_blank b -> 0 <= digit b <= 9.
Proof. intros [->|D]; unfold digit; [cbn; lia|]. destruct (b =? 32); lia. Qed.
