(** Properties C30-C38 and C69-C72: string utilities. *)
From Verif Require Import BaseFacts IniModel StringModel StringSpec StringProofs StringSplit StringCodec StringFinal.
Open Scope string_scope.
Open Scope list_scope.
Open Scope Z_scope.

Ltac bytes := repeat (apply Forall_cons; [lia|]); apply Forall_nil.

(** ** C30 *)
Theorem C30_encoding_is_rfc4648 : forall s, byte_text s -> encode_base64 s = Ok (rfc4648 s).
Proof. exact encode_base64_rfc. Qed.
Print Assumptions C30_encoding_is_rfc4648.
Theorem C30_round_trip : forall s, byte_text s -> (let! t := encode_base64 s in decode_base64 t) = Ok s.
Proof. intros s B. rewrite (encode_base64_rfc s B). exact (base64_round_trip s B). Qed.
Print Assumptions C30_round_trip.
Theorem C30_shape : forall s, byte_text s -> exists p k, encode_base64 s = Ok (p ++ repeat 61 k) /\ (k <= 2)%nat /\
  Forall b64_letter p /\ (List.length p + k = 4 * ((List.length s + 2) / 3))%nat.
Proof.
  intros s B. destruct (rfc_alphabet s B) as (p & k & E & K & F). exists p, k. rewrite (encode_base64_rfc s B), <- E, <- rfc_length, E, app_length, repeat_length. auto.
Qed.
Print Assumptions C30_shape.
Example C30_case : byte_text [0; 255; 16; 131] /\ encode_base64 [0; 255; 16; 131] = Ok (codes "AP8Qgw==") /\ decode_base64 (codes "AP8Qgw==") = Ok [0; 255; 16; 131].
Proof. split; [bytes|]. split; vm_compute; reflexivity. Qed.

(** ** C31: false for texts holding an opening brace, the only bad character. *)
Theorem C31_safe_without_brace_partial : forall t, byte_text t -> ~ In 123 t -> exists r, decode_base64 t = Ok r.
Proof. intros t B N. destruct (decode_safe t B) as [[I _]|[_ R]]; [tauto|exact R]. Qed.
Print Assumptions C31_safe_without_brace_partial.
Theorem C31_refuted_by_every_brace : forall t, byte_text t -> In 123 t -> decode_base64 t = UB.
Proof. intros t B I. destruct (decode_safe t B) as [[_ E]|[N _]]; [exact E|tauto]. Qed.
Print Assumptions C31_refuted_by_every_brace.
Example C31_case : decode_base64 (codes "YW{j") = UB /\ decode_base64 (codes "Y W|~=") = Ok [96; 5; 128; 0; 0].
Proof. split; vm_compute; reflexivity. Qed.

(** A character that is neither of the alphabet nor the padding nor the bad one
    counts as the letter of value 0. *)
Definition stranger (c : Z) : bool := negb (((65 <=? c) && (c <=? 90)) || ((97 <=? c) && (c <=? 122)) || ((48 <=? c) && (c <=? 57)) || (c =? 43) || (c =? 47) || (c =? 61) || (c =? 123)).
Definition tame (t : text) : text := map (fun c => if stranger c then 65 else c) t.
Lemma tame_value c : 0 <= c < 256 -> invbase64 (if stranger c then 65 else c) = invbase64 c.
Proof.
  intros H. enough (E : (match invbase64 (if stranger c then 65 else c), invbase64 c with Ok a, Ok b => a =? b | UB, UB => true | _, _ => false end) = true).
  { destruct (invbase64 (if stranger c then 65 else c)), (invbase64 c); try discriminate; [f_equal; lia|reflexivity]. }
  apply (upto_check (fun c => match invbase64 (if stranger c then 65 else c), invbase64 c with Ok a, Ok b => a =? b | UB, UB => true | _, _ => false end) 256); [vm_compute; reflexivity|exact H].
Qed.
Lemma tame_pad c : ((if stranger c then 65 else c) =? 61) = (c =? 61).
Proof. destruct (stranger c) eqn:E; [|reflexivity]. unfold stranger in E. lia. Qed.
Lemma tame_at t i : byte_text t -> (i < List.length t)%nat -> 0 <= sc t i < 256 /\ sc (tame t) i = if stranger (sc t i) then 65 else sc t i.
Proof.
  intros B L. unfold sc, tame. split.
  - apply (proj1 (Forall_forall _ _) B), nth_In, L.
  - rewrite (nth_indep _ _ ((fun c => if stranger c then 65 else c) 0)) by (rewrite map_length; exact L). apply (map_nth (fun c => if stranger c then 65 else c)).
Qed.
Lemma tame_term t i sh : byte_text t -> opt_term (tame t) i sh = opt_term t i sh.
Proof.
  intros B. unfold opt_term. unfold tame at 1. rewrite map_length. destruct (Nat.ltb_spec i (List.length t)) as [L|L]; [|reflexivity]. destruct (tame_at t i B L) as [R ->]. now rewrite tame_value.
Qed.
Theorem C31_strangers_count_as_zero : forall t, byte_text t -> decode_base64 (tame t) = decode_base64 t.
Proof.
  intros t B. assert (L : List.length (tame t) = List.length t) by (unfold tame; apply map_length).
  assert (D : forall f i, dec_loop f (tame t) i = dec_loop f t i).
  { induction f as [|f IH]; intros i; cbn [dec_loop]; rewrite L; [reflexivity|]. rewrite !tame_term by exact B. now rewrite IH. }
  assert (T : forall n res, (n <= List.length t)%nat -> trim_loop (tame t) res n = trim_loop t res n).
  { induction n as [|n IH]; intros res N; cbn [trim_loop]; [reflexivity|]. destruct (tame_at t n B ltac:(lia)) as [_ ->]. rewrite tame_pad. destruct (sc t n =? 61); [|reflexivity]. cbv zeta. rewrite IH by lia. reflexivity. }
  unfold decode_base64. rewrite L, D. destruct (dec_loop (List.length t) t 0); cbn [bind]; try reflexivity. now rewrite T.
Qed.
Print Assumptions C31_strangers_count_as_zero.
Example C31_strangers_case : tame (codes "Y-W_j|=") = codes "YAWAjA=".
Proof. reflexivity. Qed.

(** ** C32 *)
Theorem C32_round_trip : forall s, byte_text s -> fits (encode_url s) -> decode_url (encode_url s) = Ok s.
Proof. exact url_round_trip. Qed.
Print Assumptions C32_round_trip.
Theorem C32_alphabet : forall s, byte_text s -> url_text (encode_url s).
Proof. exact encode_url_text. Qed.
Print Assumptions C32_alphabet.
Example C32_case : byte_text (codes "a b/%" ++ [255]) /\ fits (encode_url (codes "a b/%" ++ [255])) /\ encode_url (codes "a b/%" ++ [255]) = codes "a%20b%2f%25%ff".
Proof. split; [unfold byte_text; cbn; bytes|]. split; [vm_compute; reflexivity|]. vm_compute. reflexivity. Qed.

(** ** C33: control characters other than newline and tab become NUL. *)
Theorem C33_decoding_exact_partial : forall s, byte_text s ->
  decode_cstring (encode_cstring s) = Ok (map forget s, List.length (encode_cstring s)).
Proof. exact cstring_decode. Qed.
Print Assumptions C33_decoding_exact_partial.
Theorem C33_round_trip_iff_partial : forall s, byte_text s ->
  (decode_cstring (encode_cstring s) = Ok (s, List.length (encode_cstring s)) <->
   Forall (fun c => (c < 32 \/ c = 127) -> c = 0 \/ c = 10 \/ c = 9) s).
Proof.
  intros s B. rewrite (cstring_decode s B).
  assert (E : Forall (fun c => (c < 32 \/ c = 127) -> c = 0 \/ c = 10 \/ c = 9) s <-> Forall (fun c => iscntrl c = true -> c = 0 \/ c = 10 \/ c = 9) s).
  { unfold byte_text in B. split; intros F; induction s as [|c s IH]; try constructor; inversion F; inversion B; subst; auto.
    - intros C. apply H1. unfold iscntrl in C. lia.
    - intros C. apply H1. unfold iscntrl. destruct C; subst; [|reflexivity]. lia. }
  rewrite E, <- (forget_id s B). split; [intros X; apply Ok_inj, pair_inj in X; tauto|intros X; now rewrite X].
Qed.
Print Assumptions C33_round_trip_iff_partial.
Theorem C33_refuted_control_character : byte_text [27] /\ decode_cstring (encode_cstring [27]) = Ok ([0], 4%nat).
Proof. split; [bytes|vm_compute; reflexivity]. Qed.
Print Assumptions C33_refuted_control_character.
Theorem C33_decoding_total : forall s, exists t n, decode_cstring s = Ok (t, n) /\ (n <= List.length s)%nat.
Proof. intros s. exact (decode_c_total (List.length s) s (le_n _)). Qed.
Print Assumptions C33_decoding_total.
Example C33_case : encode_cstring (codes "a""\" ++ [10; 0]) = codes "a\""\\\n\x00" /\ decode_cstring (codes "a\""\\\n\x00"" tail") = Ok (codes "a""\" ++ [10; 0], 12%nat).
Proof. split; vm_compute; reflexivity. Qed.

(** ** C34 *)
Theorem C34_split_then_join : forall s sep, sep <> [] -> s <> [] -> exists ps, split s sep false = Ok ps /\
  join sep ps = s /\ Forall (fun p => ~ contains sep p) ps /\ pieces sep s ps.
Proof.
  intros s sep N Ns. destruct (split_plain s sep N Ns) as (ps & E & P). exists ps. rewrite join_interleave. split; [exact E|].
  split; [exact (pieces_join _ _ _ P)|]. split; [exact (pieces_free _ _ _ P)|exact P].
Qed.
Print Assumptions C34_split_then_join.
Theorem C34_pieces_determined : forall s sep ps qs, sep <> [] -> pieces sep s ps -> pieces sep s qs -> ps = qs.
Proof. intros s sep ps qs. exact (pieces_unique sep s ps qs). Qed.
Print Assumptions C34_pieces_determined.
Theorem C34_empty_cases : (forall sep, split [] sep false = Ok [] /\ join sep [] = []) /\
  (forall s, s <> [] -> split s [] false = Ok (map (fun c => [c]) s ++ [[]])).
Proof. split; [intros sep; split; reflexivity|exact split_chars]. Qed.
Print Assumptions C34_empty_cases.
Example C34_case : split (codes "a--b---c") (codes "--") false = Ok [codes "a"; codes "b"; codes "-c"] /\ split (codes "-x-") (codes "-") false = Ok [[]; codes "x"; []].
Proof. split; vm_compute; reflexivity. Qed.

(** ** C35: a text made only of separators still yields one empty piece, and an
    empty separator never ends. *)
Theorem C35_skip_empty_partial : forall s sep, sep <> [] -> s <> [] -> exists ps, split s sep false = Ok ps /\
  ((Exists (fun p => p <> []) ps /\ split s sep true = Ok (filter nonempty ps)) \/
   (Forall (fun p => p = []) ps /\ split s sep true = Ok [[]])).
Proof.
  intros s sep N Ns. destruct (split_plain s sep N Ns) as (ps & E & P). destruct (split_skip s sep N Ns) as (qs & Q & R).
  rewrite <- (pieces_unique sep s ps qs N P Q) in R. clear qs Q. exists ps. split; [exact E|]. destruct (filter nonempty ps) as [|q l] eqn:F.
  - right. split; [|exact R]. apply Forall_forall. intros p I. destruct p as [|c p]; [reflexivity|]. exfalso.
    assert (X : In (c :: p) (filter nonempty ps)) by (apply filter_In; auto). rewrite F in X. exact X.
  - left. split; [|exact R]. apply Exists_exists. exists q. assert (X : In q (filter nonempty ps)) by (rewrite F; now left).
    apply filter_In in X as [X1 X2]. split; [exact X1|]. destruct q; [discriminate|congruence].
Qed.
Print Assumptions C35_skip_empty_partial.
Theorem C35_refuted_only_separators : split (codes "//") (codes "/") true = Ok [[]].
Proof. vm_compute. reflexivity. Qed.
Print Assumptions C35_refuted_only_separators.
Theorem C35_refuted_empty_separator : forall s, s <> [] -> forall fuel, skip_separators fuel s [] 0 = Loop /\ split s [] true = Loop.
Proof.
  intros s N fuel. split; [|now apply split_chars_skip]. induction fuel as [|f IH]; [reflexivity|]. destruct s; [congruence|]. cbn. exact IH.
Qed.
Print Assumptions C35_refuted_empty_separator.
Example C35_case : split (codes "//a///b/") (codes "/") true = Ok [codes "a"; codes "b"].
Proof. vm_compute. reflexivity. Qed.

(** ** C36 *)
Theorem C36_strip : forall l, exists w r, l = w ++ strip l ++ r /\ white w /\ white r /\ starts_black (strip l) /\ ends_black (strip l).
Proof. exact strip_all. Qed.
Print Assumptions C36_strip.
Theorem C36_one_sided : forall l, (exists w, l = w ++ lstrip l /\ white w /\ starts_black (lstrip l)) /\
  (exists w, l = rstrip l ++ w /\ white w /\ ends_black (rstrip l)).
Proof. intros l. split; [exact (lstrip_all l)|exact (rstrip_all l)]. Qed.
Print Assumptions C36_one_sided.
Theorem C36_idempotent_and_consistent : forall l, strip (strip l) = strip l /\ strip l = lstrip (rstrip l) /\ strip l = rstrip (lstrip l).
Proof. intros l. split; [exact (strip_twice l)|exact (strip_both l)]. Qed.
Print Assumptions C36_idempotent_and_consistent.
Example C36_case : strip (codes "  a b  ") = codes "a b" /\ strip (codes "   ") = [] /\ lstrip (codes " a ") = codes "a " /\ rstrip (codes " a ") = codes " a".
Proof. repeat split. Qed.

(** ** C37 *)
Theorem C37_join_of_parts : forall p w, basename p <> [] ->
  follow w (joinpath [dirname p; basename p]) = follow w p /\ (absolute (joinpath [dirname p; basename p]) <-> absolute p).
Proof. exact dirname_basename. Qed.
Print Assumptions C37_join_of_parts.
Theorem C37_parent : forall p, components p <> [] ->
  (dirname p = codes "." /\ ~ absolute p /\ List.length (components p) = 1%nat) \/
  (components (dirname p) = removelast (components p) /\ (absolute (dirname p) <-> absolute p) /\ (absolute p \/ (1 < List.length (components p))%nat)).
Proof. exact dirname_parent. Qed.
Print Assumptions C37_parent.
Theorem C37_basename : forall p, (exists a, p = a ++ [slash] /\ basename p = []) \/ (p = [] /\ basename p = []) \/ (components p <> [] /\ basename p = last (components p) []).
Proof.
  intros p. destruct (basename_last p) as [[a ->]|[->|H]]; [left; exists a; split; [reflexivity|now apply (basename_slash a [])]|auto|auto].
Qed.
Print Assumptions C37_basename.
Theorem C37_no_trailing_slash : forall p, dirname p = codes "/" \/ ~ exists d, dirname p = d ++ [slash].
Proof. exact dirname_no_slash. Qed.
Print Assumptions C37_no_trailing_slash.
Theorem C37_root_and_empty : dirname [] = codes "." /\ forall k, dirname (slashes (S k)) = codes "/".
Proof. split; [reflexivity|exact dirname_root]. Qed.
Print Assumptions C37_root_and_empty.
Example C37_case : dirname (codes "/usr//lib/") = codes "/usr" /\ basename (codes "/usr//lib") = codes "lib" /\ basename (codes "a") <> [] /\ dirname (codes "a") = codes "." /\ components (codes "/usr//lib/") = [codes "usr"; codes "lib"].
Proof. repeat split; discriminate. Qed.

(** ** C38: relative paths that climb above their start have undefined
    behaviour; every other path is normalised. *)
Theorem C38_defined_iff_partial : forall p, (exists q, normpath p = Ok q) <-> (absolute p \/ ~ climbs p).
Proof. exact normpath_defined. Qed.
Print Assumptions C38_defined_iff_partial.
Theorem C38_result : forall p q, normpath p = Ok q ->
  tidy q /\ (absolute q <-> absolute p) /\
  (forall w, follow (if list_eq_dec Z.eq_dec (firstn 1 p) [slash] then [] else w) q = follow (if list_eq_dec Z.eq_dec (firstn 1 p) [slash] then [] else w) p) /\
  normpath q = Ok q.
Proof. exact normpath_result. Qed.
Print Assumptions C38_result.
Theorem C38_refuted_climbing : (forall p, ~ absolute p -> climbs p -> normpath p = UB) /\ ~ absolute (codes "a/../..") /\ climbs (codes "a/../..").
Proof.
  split; [exact normpath_undefined|]. split; [intros [r E]; discriminate|]. exists [codes "a"; codes ".."], []. split; reflexivity.
Qed.
Print Assumptions C38_refuted_climbing.
Example C38_case : normpath (codes "A//B/./foo/../C/") = Ok (codes "A/B/C") /\ normpath (codes "/../x") = Ok (codes "/x") /\ normpath (codes "a/..") = Ok (codes ".").
Proof. repeat split; vm_compute; reflexivity. Qed.

(** ** C69: an escape cut short at the end of an URL is ignored, but not when
    the text is a lone percent sign. *)
Theorem C69_cut_escape_partial : forall s x, byte_text s -> fits (encode_url s ++ [37; x]) ->
  decode_url (encode_url s ++ [37; x]) = Ok s /\ (s <> [] -> decode_url (encode_url s ++ [37]) = Ok s).
Proof.
  intros s x B F. pose proof (encode_url_length s). unfold decode_url. split.
  - apply (decode_tail s B [] [37; x]); [exact F|right; left; eauto|]. cbn [app]. rewrite app_length. cbn. lia.
  - intros N. apply (decode_tail s B [] [37]); [|right; right; split; [reflexivity|]|].
    + unfold fits in *. cbn [app]. rewrite app_length in *. cbn in *. lia.
    + destruct s as [|c s]; [congruence|]. cbn. unfold encode_uchar. destruct (url_safe c); discriminate.
    + cbn [app]. rewrite app_length. cbn. lia.
Qed.
Print Assumptions C69_cut_escape_partial.
Theorem C69_refuted_lone_percent : decode_url (codes "%") = Ok [0].
Proof. vm_compute. reflexivity. Qed.
Print Assumptions C69_refuted_lone_percent.
Example C69_case : byte_text (codes "a b") /\ fits (encode_url (codes "a b") ++ [37; 52]) /\ decode_url (codes "a%20b%4") = Ok (codes "a b").
Proof. split; [unfold byte_text; cbn; bytes|]. split; vm_compute; reflexivity. Qed.

(** ** C70 *)
Theorem C70_prefix_suffix : forall s p, (startswith s p = true <-> exists r, s = p ++ r) /\ (endswith s p = true <-> exists r, s = r ++ p).
Proof. intros s p. split; [exact (startswith_spec s p)|exact (endswith_spec s p)]. Qed.
Print Assumptions C70_prefix_suffix.
Example C70_case : startswith (codes "H-000") (codes "H-") = true /\ endswith (codes "a.tif") (codes ".tif") = true /\ endswith (codes "tif") (codes ".tif") = false.
Proof. repeat split. Qed.

(** ** C71 *)
Theorem C71_join_components : forall l, components (joinpath l) = List.concat (map components l).
Proof. exact joinpath_components. Qed.
Print Assumptions C71_join_components.
Theorem C71_join_absolute : forall l, absolute (joinpath l) <-> exists p r, filter nonempty l = p :: r /\ absolute p.
Proof.
  intros l. unfold joinpath.
  assert (G : forall acc, absolute (fold_left appendpath l acc) <-> absolute acc \/ (acc = [] /\ exists p r, filter nonempty l = p :: r /\ absolute p)).
  { induction l as [|p l IH]; intros acc; cbn [fold_left filter].
    - split; [auto|]. intros [H|(_ & p & r & E & _)]; [exact H|discriminate].
    - rewrite IH, appendpath_absolute. destruct p as [|c p].
      + cbn [nonempty]. assert (E : appendpath acc [] = acc) by reflexivity. rewrite E. split; [|intros [H|H]; auto].
        intros [[H|[_ [r H]]]|H]; [auto|discriminate|auto].
      + cbn [nonempty]. split.
        * intros [[H|[-> H]]|[H _]]; [auto|right; split; [reflexivity|eauto]|].
          exfalso. unfold appendpath in H. destruct acc as [|x a]; [discriminate|]. repeat match type of H with context [if ?b then _ else _] => destruct b end; cbn in H; discriminate.
        * intros [H|(-> & q & r & E & H)]; [auto|]. inversion E; subst. auto. }
  rewrite G. split; [intros [[r H]|[_ H]]; [discriminate|exact H]|auto].
Qed.
Print Assumptions C71_join_absolute.
Example C71_case : joinpath [[]; codes "/a/"; codes "/b"; codes "c"] = codes "/a/b/c" /\ absolute (joinpath [[]; codes "/a/"; codes "/b"; codes "c"]).
Proof. split; [reflexivity|eexists; reflexivity]. Qed.

(** ** C72 *)
Theorem C72_case : forall s, Forall2 up s (upper s) /\ Forall2 down s (lower_ s) /\
  upper (upper s) = upper s /\ lower_ (lower_ s) = lower_ s /\ upper (lower_ s) = upper s /\ lower_ (upper s) = lower_ s.
Proof. intros s. split; [exact (upper_spec s)|]. split; [exact (lower_spec s)|exact (case_idem s)]. Qed.
Print Assumptions C72_case.
Example C72_example : upper (codes "Ir_108") = codes "IR_108" /\ lower_ (codes "Ir_108") = codes "ir_108".
Proof. split; reflexivity. Qed.
