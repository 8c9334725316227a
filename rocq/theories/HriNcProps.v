(** Properties C150 to C153: the date of an HRI file and its conversion to NetCDF. *)
From Coq Require Import Reals Lra.
From Flocq Require Import Core.
From Verif Require Import BaseFacts IniModel MachineModel ScanModel GeoModel PixModel GribModel GribProps NcModel NcProps NcCopyProps MsgModel MsgTimeProps HriImageModel HriImageSpec HriImageProofs HriFloatModel HriModel HriSpec HriProofs HriFile HriNcModel.
Open Scope string_scope.
Open Scope list_scope.
Open Scope Z_scope.

(** ** Specification *)
(** Two bytes, the first one the more significant. *)
Definition half_word (b : list Z) (off : nat) : Z := let v := 256 * nth off b 0 + nth (off + 1) b 0 in if v <? 32768 then v else v - 65536.
(** The satellites by their two bytes. *)
Definition crafts : list (Z * Z * string) :=
  [(212, 241, "METEOSAT-1"); (212, 242, "METEOSAT-2"); (212, 243, "METEOSAT-3"); (212, 244, "METEOSAT-4"); (212, 245, "METEOSAT-5"); (212, 246, "METEOSAT-6"); (212, 247, "METEOSAT-7");
   (0, 0, "GOES-E"); (0, 1, "GOES-W"); (0, 2, "GMS"); (0, 3, "GOMS")].
(** An identification of this satellite, day of the year, minute and longitude. *)
Record identifies (b : list Z) (sat : string) (y j hh mi lon : Z) : Prop := {
  iz_sat : In (nth 0 b 0, nth 1 b 0, sat) crafts; iz_year : half_word b 2 = y; iz_y : 1 <= y <= 9999; iz_day : half_word b 4 = j; iz_j : 1 <= j <= (if leap_year y then 366 else 365);
  iz_time : half_word b 6 = hh * 100 + mi; iz_hh : 0 <= hh <= 23; iz_mi : 0 <= mi <= 59; iz_lon : half_word b 24 = lon }.

Lemma i2_ok hs b off : bytes_ok b -> (off + 2 <= List.length b)%nat -> i2_from_buff hs (skipn off b) = Ok (half_word b off).
Proof.
  intros B L. unfold i2_from_buff. rewrite bytes_at_ok by (rewrite skipn_length; lia). cbn [bind]. rewrite skipn_O. unfold half_word.
  assert (X : firstn 2 (skipn off b) = [nth off b 0; nth (off + 1) b 0]).
  { rewrite <- (firstn_skipn off b) at 2 3. rewrite !app_nth2 by (rewrite firstn_length; lia). rewrite firstn_length. replace (off - _)%nat with 0%nat by lia. replace (off + 1 - _)%nat with 1%nat by lia.
    pose proof (skipn_length off b) as SL. destruct (skipn off b) as [|a [|c r]]; cbn [List.length] in SL; try lia. reflexivity. }
  rewrite X. assert (A0 : is_byte (nth off b 0)) by (apply Forall_nth; [exact B|lia]). assert (A1 : is_byte (nth (off + 1) b 0)) by (apply Forall_nth; [exact B|lia]). unfold is_byte in A0, A1.
  set (u := nth off b 0) in *. set (v := nth (off + 1) b 0) in *.
  assert (BL : be_load [u; v] = 256 * u + v) by (unfold be_load; cbn [fold_left]; lia). f_equal. destruct hs; [change (check_endianess LE) with false|change (check_endianess BE) with true]; cbn [rev app]; unfold load_i, load_u; cbn [rev app List.length]; rewrite BL; reflexivity.
Qed.
Lemma year_days y : days_before (y + 1) 1 = days_before y 1 + (if leap_year y then 366 else 365).
Proof. rewrite !year_start. unfold leap_year. replace (y + 1 - 1) with y by lia. destruct (y mod 4 =? 0) eqn:A1, (y mod 100 =? 0) eqn:A2, (y mod 400 =? 0) eqn:A3; cbn [negb andb orb]; lia. Qed.
Lemma new_year n y : date n = (y, 1, 1) -> days_before y 1 = Z.of_nat n - 719162.
Proof. intros E. destruct (date_number n) as [_ D]. rewrite E in D. change (day_number (1, 1, 1)) with (-719162) in D. cbn [day_number] in D. lia. Qed.
Lemma date_year n k y m d y' : date n = (y, 1, 1) -> 0 <= Z.of_nat k < (if leap_year y then 366 else 365) -> date (n + k) = (y', m, d) -> y' = y.
Proof.
  intros N K E. pose proof (new_year n y N) as NY. pose proof (civil_date (Z.of_nat (n + k)) ltac:(lia)) as C. rewrite Nat2Z.id, E in C. unfold civil in C. apply (f_equal (fun x => fst (fst x))) in C. cbn [fst] in C.
  pose proof (year_at_ok (Z.of_nat (n + k) - 719162)) as Y. rewrite C in Y. pose proof (year_days y) as YD. destruct (Z.lt_trichotomy y' y) as [L|[->|L]]; [|reflexivity|]; exfalso; rewrite !year_start in *; destruct (leap_year y); lia.
Qed.
Lemma satellite_ok b : List.length b = 48%nat -> bytes_ok b -> forall sat, In (nth 0 b 0, nth 1 b 0, sat) crafts -> exists s0 s1, read_satellite b = Ok (s0, s1) /\ satellite_text s0 s1 = codes sat.
Proof.
  intros L B sat I. exists (nth 0 b 0), (nth 1 b 0). split.
  - apply read_satellite_ok; try assumption. repeat (destruct I as [I|I]; [injection I as <- <- _; first [left; reflexivity|right; split; reflexivity]|]). destruct I.
  - repeat (destruct I as [I|I]; [injection I as <- <- <-; reflexivity|]). destruct I.
Qed.
(** The identification as it is read; the day is the UTC day of noon in local time. *)
Lemma ident_eq hs west b sat y j hh mi lon n : List.length b = 48%nat -> bytes_ok b -> identifies b sat y j hh mi lon -> date n = (y, 1, 1) -> -86400 * (Z.of_nat n + j - 1) <= 43200 + west ->
  exists y' m d, date (Z.to_nat (Z.of_nat n + (j - 1) + (43200 + west) / 86400)) = (y', m, d) /\ read_ident hs west b = Ok (mk_ident (codes sat) y m d hh mi lon).
Proof.
  intros L B [A1 A2 A3 A4 A5 A6 A7 A8 A9] N W. destruct (satellite_ok b L B sat A1) as (s0 & s1 & E & T). unfold read_ident. rewrite E. cbn [bind]. rewrite !i2_ok by (assumption || lia). cbn [bind]. cbv zeta. rewrite A2, A4, A6, A9.
  pose proof (new_year n y N) as NY. replace ((days_before y 1 * 86400 + 12 * 3600 + west + (j - 1) * 24 * 60 * 60) / 86400) with (Z.of_nat n + (j - 1) + (43200 + west) / 86400 - 719162) by lia.
  rewrite civil_date by lia. destruct (date (Z.to_nat _)) as [[y' m] d]. exists y', m, d. split; [reflexivity|]. cbn [bind]. rewrite T. replace (Z.quot (hh * 100 + mi) 100) with hh; [do 2 f_equal; lia|]. rewrite Z.quot_div_nonneg by lia. lia.
Qed.
(** ** C150 *)
(** On a machine whose standard time is at most twelve hours from UTC the date is the
    day of the year of the identification. *)
Theorem C150_day_partial hs west b sat y j hh mi lon n : List.length b = 48%nat -> bytes_ok b -> identifies b sat y j hh mi lon -> date n = (y, 1, 1) -> -43200 <= west < 43200 ->
  exists m d, date (n + Z.to_nat (j - 1)) = (y, m, d) /\ read_ident hs west b = Ok (mk_ident (codes sat) y m d hh mi lon).
Proof.
  intros L B I N W. pose proof I as [_ _ A3 _ A5 _ _ _ _]. destruct (ident_eq hs west b sat y j hh mi lon n L B I N) as (y' & m & d & E & R); [lia|]. replace ((43200 + west) / 86400) with 0 in E by lia.
  replace (Z.to_nat (Z.of_nat n + (j - 1) + 0)) with (n + Z.to_nat (j - 1))%nat in E by lia. assert (y' = y) by (apply (date_year n (Z.to_nat (j - 1)) y m d y' N); [rewrite Z2Nat.id by lia; lia|exact E]). subst y'. exists m, d. now split.
Qed.
Print Assumptions C150_day_partial.
(** Further east or west it is another day. *)
Lemma same_day y y' m d k k' : date k = (y, m, d) -> date k' = (y', m, d) -> Z.abs (Z.of_nat k - Z.of_nat k') = 1 -> False.
Proof.
  intros E E' A. destruct (date_number k) as [V D]. destruct (date_number k') as [V' D']. rewrite E in D. rewrite E' in D'. cbn [day_number] in D, D'. 
  assert (X : forall c e, c < e -> days_before c m + 364 <= days_before e m).
  { intros c e CE. assert (BB : forall v : bool, 0 <= (if v then 1 else 0) <= 1) by (intros []; lia). unfold days_before. cbv zeta. set (q := (m - 1) / 12). set (t := nth _ _ _).
    match goal with |- context [t + (if ?u then 1 else 0)] => pose proof (BB u) as B1; set (lc := if u then 1 else 0) in * end.
    match goal with |- context [t + (if ?u then 1 else 0)] => pose proof (BB u) as B2; set (le := if u then 1 else 0) in * end. clearbody lc le t q. lia. }
  destruct (Z.lt_trichotomy y y') as [C|[C|C]]; [pose proof (X y y' C); lia|subst; lia|pose proof (X y' y C); lia].
Qed.
Theorem C150_refuted_zone hs west b sat y j hh mi lon n i : List.length b = 48%nat -> bytes_ok b -> identifies b sat y j hh mi lon -> date n = (y, 1, 1) -> (0 < n)%nat -> -129600 <= west < -43200 \/ 43200 <= west < 129600 ->
  read_ident hs west b = Ok i -> date (n + Z.to_nat (j - 1)) <> (y, id_month i, id_day i).
Proof.
  intros L B I N N0 W R F. pose proof I as [_ _ A3 _ A5 _ _ _ _]. destruct (ident_eq hs west b sat y j hh mi lon n L B I N) as (y' & m & d & E & R'); [lia|]. rewrite R in R'. apply Ok_inj in R'. subst i. cbn [id_month id_day] in F. apply (same_day _ _ _ _ _ _ F E). lia.
Qed.
Print Assumptions C150_refuted_zone.
Definition ex_ident : list Z := [212; 247; 7; 208; 0; 60; 4; 176] ++ repeat 0 40.
Example C150_case : identifies ex_ident "METEOSAT-7" 2000 60 12 0 0 /\ bytes_ok ex_ident /\ read_ident LE (-46800) ex_ident = Ok (mk_ident (codes "METEOSAT-7") 2000 2 28 12 0 0) /\ read_ident LE (-3600) ex_ident = Ok (mk_ident (codes "METEOSAT-7") 2000 2 29 12 0 0).
Proof.
  split; [constructor; try reflexivity; try (cbn; lia); vm_compute; tauto|]. split; [unfold ex_ident; apply Forall_app; split; [repeat constructor; unfold is_byte; lia|apply Forall_forall; intros x X; apply repeat_spec in X; subst x; unfold is_byte; lia]|]. split; vm_compute; reflexivity.
Qed.

(** ** The files *)
Definition area_of (f : string) : str := match f with String "A" _ => codes "AFormat" | String "B" _ => codes "BFormat" | _ => codes "XFormat" end.
Lemma area_ok b l f hs : List.length b = 24%nat -> read_label hs b = Ok l -> code_of b = Some f -> get_area_name l = area_of f.
Proof.
  intros L R C. destruct (read_label_ok hs b L) as (l' & R' & F & _). rewrite R in R'. apply Ok_inj in R'. subst l'. unfold get_area_name. rewrite F. unfold code_of, letter in C. destruct (nth 12 b 0 =? 0); [injection C as <-; reflexivity|]. destruct (nth 12 b 0 =? 255); [injection C as <-; reflexivity|].
  destruct (nth 12 b 0 =? 15); [injection C as <-; reflexivity|discriminate].
Qed.
(** A complete HRI file with this identification. *)
Record hri_file (f : string) (h : header) (ds : list dline) (ims : list (hformat * hband)) (o : HriSpec.order) (sat : string) (y j hh mi lon : Z) : Prop := {
  hf_spec : exists n, format_spec f = Some (ims, n, o) /\ List.length ds = n; hf_code : code_of (hd_label h) = Some f; hf_head : header_ok h; hf_lines : Forall (dline_ok f false) ds;
  hf_ident : identifies (hd_ident h) sat y j hh mi lon }.
(** Pixel [p] of line [l] of image [k]: in images that come in halves the second ones
    are two pixels to the left, and the last two pixels are those of the memory. *)
Definition pixel (o : HriSpec.order) (ds : list dline) (junk np : Z) (k l : nat) (p : Z) : Z := match option_map (sample ds) (actual o (np / 2) k l p) with Some v => v | None => junk end.
Definition values (junk : Z) (im : HriImageModel.image) : list Z := map (fun o => match o with Some v => v | None => junk end) (HriImageModel.data im).
Lemma converted zn junk lb tail f h ds ims o sat y j hh mi lon n : hri_file f h ds ims o sat y j hh mi lon -> date n = (y, 1, 1) -> -43200 <= z_west zn < 43200 -> List.length lb = 2500%nat ->
  exists m d images geo, date (n + Z.to_nat (j - 1)) = (y, m, d) /\ geolocation f = Ok geo /\ List.length images = List.length ims /\
    HRI2NetCDF zn junk LE lb (file_bytes f false [] h ds tail) = Ok (image_files zn junk (codes sat) (area_of f) lon geo (mk_tmz y m d hh mi 0) ims images) /\
    forall k fm b, nth_error ims k = Some (fm, b) -> exists np nl im, dims fm b = Some (np, nl) /\ nth_error images k = Some im /\ npixels im = np /\ nlines im = nl /\ 0 < np < 2 ^ 31 /\ 0 < nl < 2 ^ 31 /\ Z.of_nat (List.length (values junk im)) = np * nl /\
      forall l p, Z.of_nat l < nl -> 0 <= p < np -> nth (Z.to_nat (Z.of_nat l * np + p)) (values junk im) 0 = pixel o ds junk np k l p.
Proof.
  intros [(n0 & FS & LD) CO H FD I] N W LB. pose proof H as (L1 & L2 & L3 & L4 & L5 & B1 & B2 & B3 & B4 & B5 & SAT).
  destruct (C150_day_partial LE (z_west zn) (hd_ident h) sat y j hh mi lon n L3 B3 I N W) as (m & d & DT & RI).
  assert (HB : forall pre', head_bytes f false pre' h = head_bytes f false (repeat 0 512) h) by (intros; reflexivity).
  destruct (file_read_wf f false (repeat 0 512) h _ ds _ lb ims n0 o FS CO H (repeat_length _ _) (feeds_lines f false ds tail FD) LD LB) as (lab & interp & keys & images & geo & E & EL & EI & EG & KEYS & LI & PX).
  exists m, d, images, geo. split; [exact DT|]. split; [exact EG|]. split; [exact LI|]. split.
  - unfold HRI2NetCDF. unfold file_bytes. rewrite (HB []). rewrite E. cbn [bind]. destruct (hd_at h H) as (PL & P1 & P2 & P3 & P4). unfold head_bytes at 1. fold (hd_parts h). rewrite framed4, <- !app_assoc.
    assert (C0 : List.length (firstn 360 (hd_parts h)) = 360%nat) by (rewrite firstn_length; lia). rewrite getbuff_frame by exact C0. cbn [bind]. rewrite (frame_piece _ _ 36 48 C0) by lia. rewrite firstn_skipn_le by lia. change (36 - 4)%nat with 32%nat. rewrite P3. cbn [bind]. rewrite RI. cbn [bind h_format h_geo h_label h_images].
    pose proof (plan_spec f) as PS. unfold plan_matches in PS. rewrite FS in PS. destruct PS as (p & -> & <- & _). cbn [bind]. cbn [id_sat id_lon id_year id_month id_day id_hour id_minute]. rewrite (area_ok _ _ f LE L1 EL CO). reflexivity.
  - intros k fm b NE. assert (FO : dims fm b <> None).
    { clear - FS NE. unfold format_spec in FS. repeat match type of FS with (if ?c then _ else _) = _ => destruct c end; try discriminate; apply Some_inj in FS; apply (f_equal (fun x => fst (fst x))) in FS; cbn [fst] in FS; subst ims; destruct k as [|[|k]]; cbn in NE; try discriminate; try (injection NE as <- <-; discriminate); destruct k; discriminate. }
    destruct (dims fm b) as [[np nl]|] eqn:DM; [|contradiction]. destruct (PX k fm b np nl NE DM) as (WF & E1 & E2 & G). assert (K : (k < List.length images)%nat) by (rewrite LI; apply nth_error_Some; congruence).
    exists np, nl, (nth k images no_image). split; [reflexivity|]. split; [now apply nth_error_nth'|]. split; [exact E1|]. split; [exact E2|]. assert (RG : 0 < np < 2 ^ 31 /\ 0 < nl < 2 ^ 31) by (clear - DM; destruct fm, b; cbn in DM; try discriminate; apply Some_inj, pair_inj in DM as [<- <-]; lia).
    split; [apply RG|]. split; [apply RG|]. pose proof WF as (_ & _ & _ & _ & _ & SZ & LN). unfold values. rewrite map_length. split; [rewrite LN, SZ, E1, E2; reflexivity|]. intros l p HL HP. specialize (G l p HL HP). rewrite get_pixel_ok in G by (assumption || lia). apply Ok_inj in G. unfold pixel. rewrite <- G. unfold pix. rewrite E1.
    set (g := fun o0 : option Z => match o0 with Some v => v | None => junk end). assert (IB : Z.of_nat l * np + p < np * nl) by nia. rewrite (nth_indep _ 0 (g None)) by (rewrite map_length; rewrite SZ, E1, E2 in LN; lia). rewrite map_nth. reflexivity.
Qed.

(** ** Times *)
Lemma mktime_at zn n y m d hh mi dst : date n = (y, m, d) -> 0 <= hh <= 23 -> 0 <= mi <= 59 ->
  let r := (Z.of_nat n - 719162) * 86400 + hh * 3600 + mi * 60 - dst + z_west zn in
  let l := Z.of_nat n * 86400 + hh * 3600 + mi * 60 - dst + z_dst zn r in
  0 <= l -> exists y' m' d', date (Z.to_nat (l / 86400)) = (y', m', d') /\ mktime zn (mk_tmz y m d hh mi dst) = (r, mk_tmz y' m' d' (l mod 86400 / 3600) (l mod 3600 / 60) (z_dst zn r)).
Proof.
  intros E H M r l P. destruct (date_number n) as [_ D]. rewrite E in D. change (day_number (1, 1, 1)) with (-719162) in D. cbn [day_number] in D. unfold mktime. cbn [t_year t_month t_day t_hour t_minute t_dst]. rewrite D.
  replace ((-719162 + Z.of_nat n) * 86400 + hh * 3600 + mi * 60 - dst + z_west zn) with r by (unfold r; lia). cbv zeta. replace ((r - z_west zn + z_dst zn r) / 86400) with (l / 86400 - 719162) by (unfold l, r; lia). rewrite civil_date by lia.
  replace ((r - z_west zn + z_dst zn r) mod 86400) with (l mod 86400) by (unfold l, r; lia). replace ((r - z_west zn + z_dst zn r) mod 3600) with (l mod 3600) by (unfold l, r; lia). destruct (date (Z.to_nat _)) as [[y' m'] d']. exists y', m', d'. now split.
Qed.
Lemma mktime_again zn n y m d hh mi r t1 : date n = (y, m, d) -> (0 < n)%nat -> 0 <= hh <= 23 -> 0 <= mi <= 59 -> mktime zn (mk_tmz y m d hh mi 0) = (r, t1) -> Z.abs (z_dst zn r) <= 86400 -> z_dst zn r mod 60 = 0 ->
  r = (Z.of_nat n - 719162) * 86400 + hh * 3600 + mi * 60 + z_west zn /\ mktime zn t1 = (r, t1) /\
  exists y' m' d', let l := Z.of_nat n * 86400 + hh * 3600 + mi * 60 + z_dst zn r in date (Z.to_nat (l / 86400)) = (y', m', d') /\ t1 = mk_tmz y' m' d' (l mod 86400 / 3600) (l mod 3600 / 60) (z_dst zn r).
Proof.
  intros E N H M K A D. assert (R : r = (Z.of_nat n - 719162) * 86400 + hh * 3600 + mi * 60 - 0 + z_west zn).
  { destruct (date_number n) as [_ DN]. rewrite E in DN. change (day_number (1, 1, 1)) with (-719162) in DN. cbn [day_number] in DN. unfold mktime in K. cbn [t_year t_month t_day t_hour t_minute t_dst] in K. rewrite DN in K. cbv zeta in K. destruct (civil _) as [[? ?] ?]. apply (f_equal fst) in K. cbn [fst] in K. lia. }
  pose proof (mktime_at zn n y m d hh mi 0 E H M) as X. cbv zeta in X. rewrite <- R in X. destruct X as (y' & m' & d' & E' & X); [lia|]. rewrite X in K. apply pair_inj in K as [_ <-]. replace (Z.of_nat n * 86400 + hh * 3600 + mi * 60 - 0) with (Z.of_nat n * 86400 + hh * 3600 + mi * 60) in * by lia. set (l := Z.of_nat n * 86400 + hh * 3600 + mi * 60 + z_dst zn r) in *. split; [lia|]. split; [|exists y', m', d'; now split].
  clear X. set (w := Z.to_nat (l / 86400)) in *. set (h1 := l mod 86400 / 3600). set (m1 := l mod 3600 / 60). assert (L0 : 0 <= l) by (unfold l; lia). assert (LE : l = Z.of_nat w * 86400 + h1 * 3600 + m1 * 60) by (assert (l mod 60 = 0) by (unfold l; lia); unfold w, h1, m1; lia).
  pose proof (mktime_at zn w y' m' d' h1 m1 (z_dst zn r) E' ltac:(unfold h1; lia) ltac:(unfold m1; lia)) as X. cbv zeta in X. replace ((Z.of_nat w - 719162) * 86400 + h1 * 3600 + m1 * 60 - z_dst zn r + z_west zn) with r in X by (unfold l in LE; lia).
  replace (Z.of_nat w * 86400 + h1 * 3600 + m1 * 60 - z_dst zn r + z_dst zn r) with l in X by lia. destruct X as (y2 & m2 & d2 & E2 & X); [exact L0|]. fold w in E2. rewrite E' in E2. injection E2 as <- <- <-. exact X.
Qed.
Lemma files_nth zn junk sat area lon g r t1 : mktime zn t1 = (r, t1) -> forall l ims t k f b im, mktime zn t = (r, t1) -> nth_error l k = Some (f, b) -> nth_error ims k = Some im ->
  nth_error (image_files zn junk sat area lon g t l ims) k = Some (fst (image_file zn junk sat area lon g (match k with O => t | S _ => t1 end) f b im)).
Proof.
  intros S1. induction l as [|[f0 b0] l IH]; intros ims t k f b im T A B; [destruct k; discriminate|]. destruct ims as [|im0 ims]; [destruct k; discriminate|]. cbn [image_files].
  assert (X : snd (image_file zn junk sat area lon g t f0 b0 im0) = t1) by (unfold image_file; destruct g as [[[? ?] ?] ?]; rewrite T; reflexivity). destruct (image_file _ _ _ _ _ _ t f0 b0 im0) as [x t'] eqn:EX. cbn [snd] in X. subst t'.
  destruct k as [|k]; cbn [nth_error] in *.
  - injection A as <- <-. injection B as <-. rewrite EX. reflexivity.
  - rewrite (IH ims t1 k f b im S1 A B). destruct k; reflexivity.
Qed.
Lemma file_eq zn junk sat area lon cfac lfac coff loff t f b im : image_file zn junk sat area lon (cfac, lfac, coff, loff) t f b im =
  ((nc_name sat area (image_name f b) t,
    mk_ncfile
     [("Satellite", AText sat); ("Time", AText (nc_time t)); ("Columns", AInt (npixels im)); ("Lines", AInt (nlines im));
      ("SampleX", AFloat (Some (IZR (sampling f b)))); ("SampleY", AFloat (Some (IZR (sampling f b))));
      ("Column_Scale_Factor", AInt cfac); ("Line_Scale_Factor", AInt lfac); ("Column_Offset", AInt coff); ("Line_Offset", AInt loff);
      ("Longitude", AFloat (Some (IZR lon)))]
     [mk_ncvar (codes "calibration") NcFloat [256] [] [];
      time_var (fst (mktime zn t) - 946684800 - z_west zn);
      mk_ncvar (image_name f b) NcByte [1; nlines im; npixels im] [("add_offset", ADouble (Some 0%R)); ("scale_factor", ADouble (Some 1%R)); ("chnum", AInt (band_number b))] (values junk im)]), snd (mktime zn t)).
Proof. unfold image_file. destruct (mktime zn t). reflexivity. Qed.

(** The minute as text, and what is in the name. *)
Definition stamp (y m d hh mi : Z) : str := dddd y ++ dd m ++ dd d ++ [95] ++ dd hh ++ dd mi.
Lemma time_iso y m d hh mi dst : 0 <= y <= 9999 -> two m -> two d -> two hh -> two mi -> nc_time (mk_tmz y m d hh mi dst) = iso_text y m d hh mi 0 ++ 32 :: codes "UTC".
Proof. intros Y M D H I. unfold nc_time. cbn [t_year t_month t_day t_hour t_minute]. rewrite zpad4, !zpad2 by assumption. reflexivity. Qed.
Lemma name_stamp sat area name y m d hh mi dst : 1000 <= y <= 9999 -> two m -> two d -> two hh -> two mi -> nc_name sat area name (mk_tmz y m d hh mi dst) = sat ++ [95] ++ area ++ [95] ++ name ++ [95] ++ stamp y m d hh mi ++ codes ".nc".
Proof.
  intros Y M D H I. unfold nc_name. cbn [t_year t_month t_day t_hour t_minute]. rewrite !zpad2 by assumption. assert (SP : spad 4 y = dddd y).
  { unfold spad. assert (Z0 : zpad 0 y = dddd y) by (unfold zpad; destruct (y <? 0) eqn:E; [lia|]; rewrite print4 by lia; reflexivity). rewrite Z0. reflexivity. }
  rewrite SP. unfold stamp. rewrite <- !app_assoc. reflexivity.
Qed.
Lemma seconds_1970 k n hh mi : date k = (1970, 1, 1) -> seconds_between k n hh mi 0 = (Z.of_nat n - 719162) * 86400 + hh * 3600 + mi * 60.
Proof. intros K. pose proof (new_year k 1970 K) as D. change (days_before 1970 1) with 0 in D. unfold seconds_between. lia. Qed.
Lemma seconds_2000 k n hh mi : date k = (2000, 1, 1) -> seconds_between k n hh mi 0 = (Z.of_nat n - 719162) * 86400 + hh * 3600 + mi * 60 - 946684800.
Proof. intros K. pose proof (new_year k 2000 K) as D. change (days_before 2000 1) with 10957 in D. unfold seconds_between. lia. Qed.
Lemma day_pos n y : date n = (y, 1, 1) -> 2 <= y -> (0 < n)%nat.
Proof. intros E Y. destruct n; [|lia]. cbn in E. injection E as E. lia. Qed.
Lemma files_length zn junk sat area lon g : forall l ims t, List.length ims = List.length l -> List.length (image_files zn junk sat area lon g t l ims) = List.length l.
Proof. induction l as [|[f b] l IH]; intros [|im ims] t L; try discriminate; [reflexivity|]. cbn [image_files]. destruct (image_file _ _ _ _ _ _ _ _ _ _) as [x t']. cbn [List.length] in *. now rewrite IH by lia. Qed.
Lemma converted_files zn junk lb tail f h ds ims o sat y j hh mi lon n k0 : hri_file f h ds ims o sat y j hh mi lon -> date n = (y, 1, 1) -> 1000 <= y <= 9998 -> -43200 <= z_west zn < 43200 -> List.length lb = 2500%nat -> date k0 = (1970, 1, 1) ->
  let n1 := (n + Z.to_nat (j - 1))%nat in let r := seconds_between k0 n1 hh mi 0 + z_west zn in Z.abs (z_dst zn r) <= 86400 -> z_dst zn r mod 60 = 0 ->
  exists m d cfac lfac coff loff fs y' m' d', date n1 = (y, m, d) /\ geolocation f = Ok (cfac, lfac, coff, loff) /\ HRI2NetCDF zn junk LE lb (file_bytes f false [] h ds tail) = Ok fs /\ List.length fs = List.length ims /\
    let l := Z.of_nat n1 * 86400 + hh * 3600 + mi * 60 + z_dst zn r in date (Z.to_nat (l / 86400)) = (y', m', d') /\
    forall k fm b, nth_error ims k = Some (fm, b) -> exists np nl im, dims fm b = Some (np, nl) /\ npixels im = np /\ nlines im = nl /\ 0 < np < 2 ^ 31 /\ 0 < nl < 2 ^ 31 /\ Z.of_nat (List.length (values junk im)) = np * nl /\
      (forall l p, Z.of_nat l < nl -> 0 <= p < np -> nth (Z.to_nat (Z.of_nat l * np + p)) (values junk im) 0 = pixel o ds junk np k l p) /\
      let t := match k with O => mk_tmz y m d hh mi 0 | S _ => mk_tmz y' m' d' (l mod 86400 / 3600) (l mod 3600 / 60) (z_dst zn r) end in
      mktime zn t = (r, mk_tmz y' m' d' (l mod 86400 / 3600) (l mod 3600 / 60) (z_dst zn r)) /\ nth_error fs k = Some (fst (image_file zn junk (codes sat) (area_of f) lon (cfac, lfac, coff, loff) t fm b im)).
Proof.
  intros F N Y W LB K0 n1 r A D. destruct (converted zn junk lb tail f h ds ims o sat y j hh mi lon n F N W LB) as (m & d & images & geo & DT & EG & LI & E & PX). fold n1 in DT. pose proof F as [_ _ _ _ [_ _ _ _ A5 _ A7 A8 _]]. pose proof (day_pos n y N ltac:(lia)) as NP.
  destruct geo as [[[cfac lfac] coff] loff]. destruct (mktime zn (mk_tmz y m d hh mi 0)) as [r' t1] eqn:MK. assert (RR : r' = r).
  { destruct (date_number n1) as [_ DN]. rewrite DT in DN. change (day_number (1, 1, 1)) with (-719162) in DN. cbn [day_number] in DN. unfold mktime in MK. cbn [t_year t_month t_day t_hour t_minute t_dst] in MK. rewrite DN in MK. cbv zeta in MK. destruct (civil _) as [[? ?] ?]. apply (f_equal fst) in MK. cbn [fst] in MK. unfold r. rewrite (seconds_1970 k0 n1 hh mi K0). lia. }
  subst r'. destruct (mktime_again zn n1 y m d hh mi r t1 DT ltac:(unfold n1; lia) A7 A8 MK A D) as (R & MA & y' & m' & d' & DL & T1). cbv zeta in DL, T1. exists m, d, cfac, lfac, coff, loff, (image_files zn junk (codes sat) (area_of f) lon (cfac, lfac, coff, loff) (mk_tmz y m d hh mi 0) ims images), y', m', d'.
  split; [exact DT|]. split; [exact EG|]. split; [exact E|]. split; [now apply files_length|]. cbv zeta. split; [exact DL|]. intros k fm b NE. destruct (PX k fm b NE) as (np & nl & im & DM & NI & E1 & E2 & R1 & R2 & LV & V). exists np, nl, im. do 7 (split; [assumption|]). rewrite <- T1.
  split; [destruct k; assumption|]. rewrite (files_nth zn junk (codes sat) (area_of f) lon _ r t1 MA ims images _ k fm b im MK NE NI). destruct k; reflexivity.
Qed.
(** ** C151 *)
(** The word for a channel in names of files and variables. *)
Definition image_word (fm : hformat) (b : hband) : str :=
  match b with IR_BAND => codes "IR" | WV_BAND => codes "WV" | VIS_BAND => codes "VIS" | VH_BAND => match fm with X_FORMAT => codes "VH" | _ => codes "VIS" end end.
Lemma image_word_ok fm b : image_name fm b = image_word fm b.
Proof. destruct fm, b; reflexivity. Qed.
(** Where no daylight saving is in force at the minute of the image, all files have
    that minute in their names and attributes, and the time in seconds. *)
Theorem C151_minute_partial zn junk lb tail f h ds ims o sat y j hh mi lon n k0 k1 : hri_file f h ds ims o sat y j hh mi lon -> date n = (y, 1, 1) -> 1000 <= y <= 9998 -> -43200 <= z_west zn < 43200 -> List.length lb = 2500%nat -> date k0 = (1970, 1, 1) -> date k1 = (2000, 1, 1) ->
  let n1 := (n + Z.to_nat (j - 1))%nat in z_dst zn (seconds_between k0 n1 hh mi 0 + z_west zn) = 0 ->
  exists m d fs, date n1 = (y, m, d) /\ HRI2NetCDF zn junk LE lb (file_bytes f false [] h ds tail) = Ok fs /\ List.length fs = List.length ims /\
    forall k fm b, nth_error ims k = Some (fm, b) -> exists nc, nth_error fs k = Some (codes sat ++ [95] ++ area_of f ++ [95] ++ image_word fm b ++ [95] ++ stamp y m d hh mi ++ codes ".nc", nc) /\
      get_att (f_attrs nc) "Time" = Some (AText (iso_text y m d hh mi 0 ++ 32 :: codes "UTC")) /\ In (time_var (seconds_between k1 n1 hh mi 0)) (f_vars nc).
Proof.
  intros F N Y W LB K0 K1 n1 DS. destruct (converted_files zn junk lb tail f h ds ims o sat y j hh mi lon n k0 F N Y W LB K0) as (m & d & cfac & lfac & coff & loff & fs & y' & m' & d' & DT & EG & E & LF & DL & PX); [fold n1; rewrite DS; lia|fold n1; rewrite DS; reflexivity|].
  fold n1 in DT, DL, PX. cbv zeta in DL, PX. rewrite DS in DL, PX. exists m, d, fs. split; [exact DT|]. split; [exact E|]. split; [exact LF|]. pose proof F as [_ _ _ _ [_ _ _ _ A5 _ A7 A8 _]]. intros k fm b NE. destruct (PX k fm b NE) as (np & nl & im & _ & _ & _ & _ & _ & _ & _ & MK & NF).
  replace (Z.to_nat ((Z.of_nat n1 * 86400 + hh * 3600 + mi * 60 + 0) / 86400)) with n1 in DL by lia. rewrite DT in DL. injection DL as <- <- <-. replace ((Z.of_nat n1 * 86400 + hh * 3600 + mi * 60 + 0) mod 86400 / 3600) with hh in * by lia. replace ((Z.of_nat n1 * 86400 + hh * 3600 + mi * 60 + 0) mod 3600 / 60) with mi in * by lia.
  assert (NF' : nth_error fs k = Some (fst (image_file zn junk (codes sat) (area_of f) lon (cfac, lfac, coff, loff) (mk_tmz y m d hh mi 0) fm b im))) by (rewrite NF; destruct k; reflexivity). assert (MK' : mktime zn (mk_tmz y m d hh mi 0) = (seconds_between k0 n1 hh mi 0 + z_west zn, mk_tmz y m d hh mi 0)) by (destruct k; exact MK).
  pose proof (date_two n1 y m d DT) as (_ & M2 & D2). rewrite file_eq in NF'. cbn [fst] in NF'. rewrite name_stamp in NF' by (unfold two; lia). rewrite image_word_ok in NF'. eexists. split; [exact NF'|]. cbn [f_attrs f_vars]. split.
  - cbn [get_att String.eqb Ascii.eqb Bool.eqb]. now rewrite time_iso by (unfold two; lia).
  - right. left. rewrite MK'. cbn [fst]. rewrite (seconds_1970 k0 n1 hh mi K0), (seconds_2000 k1 n1 hh mi K1). f_equal. lia.
Qed.
Print Assumptions C151_minute_partial.
(** Where daylight saving is in force only the first file is right: the structure with
    the time is changed when the seconds of the first file are made. All other files
    have another minute. *)
Theorem C151_refuted_summer zn junk lb tail f h ds ims o sat y j hh mi lon n k0 : hri_file f h ds ims o sat y j hh mi lon -> date n = (y, 1, 1) -> 1000 <= y <= 9997 -> -43200 <= z_west zn < 43200 -> List.length lb = 2500%nat -> date k0 = (1970, 1, 1) ->
  let n1 := (n + Z.to_nat (j - 1))%nat in let s := z_dst zn (seconds_between k0 n1 hh mi 0 + z_west zn) in 0 < s <= 86400 -> s mod 60 = 0 ->
  exists m d fs, date n1 = (y, m, d) /\ HRI2NetCDF zn junk LE lb (file_bytes f false [] h ds tail) = Ok fs /\ List.length fs = List.length ims /\
    (forall name nc, nth_error fs 0 = Some (name, nc) -> get_att (f_attrs nc) "Time" = Some (AText (iso_text y m d hh mi 0 ++ 32 :: codes "UTC"))) /\
    forall k name nc, nth_error fs (S k) = Some (name, nc) -> get_att (f_attrs nc) "Time" <> Some (AText (iso_text y m d hh mi 0 ++ 32 :: codes "UTC")).
Proof.
  intros F N Y W LB K0 n1 s SB SM. destruct (converted_files zn junk lb tail f h ds ims o sat y j hh mi lon n k0 F N ltac:(lia) W LB K0) as (m & d & cfac & lfac & coff & loff & fs & y' & m' & d' & DT & EG & E & LF & DL & PX); [fold n1; fold s; lia|exact SM|].
  fold n1 in DT, DL, PX. cbv zeta in DL, PX. fold s in DL, PX. exists m, d, fs. split; [exact DT|]. split; [exact E|]. split; [exact LF|]. pose proof F as [_ _ _ _ [_ _ _ _ A5 _ A7 A8 _]]. pose proof (date_two n1 y m d DT) as (_ & M2 & D2).
  assert (IMS : forall k x, nth_error fs k = Some x -> exists fm b, nth_error ims k = Some (fm, b)).
  { intros k x NK. destruct (nth_error ims k) as [[fm b]|] eqn:NI; [now exists fm, b|]. apply nth_error_None in NI. assert (NK' : nth_error fs k <> None) by congruence. apply nth_error_Some in NK'. lia. }
  split.
  - intros name nc NF. destruct (IMS _ _ NF) as (fm & b & NE). destruct (PX 0%nat fm b NE) as (np & nl & im & _ & _ & _ & _ & _ & _ & _ & _ & NF'). rewrite NF' in NF. rewrite file_eq in NF. cbn [fst] in NF. injection NF as _ <-. cbn [f_attrs get_att String.eqb Ascii.eqb Bool.eqb]. now rewrite time_iso by (unfold two; lia).
  - intros k name nc NF X. destruct (IMS _ _ NF) as (fm & b & NE). destruct (PX (S k) fm b NE) as (np & nl & im & _ & _ & _ & _ & _ & _ & _ & _ & NF'). rewrite NF' in NF. rewrite file_eq in NF. cbn [fst] in NF. injection NF as _ <-. cbn [f_attrs get_att String.eqb Ascii.eqb Bool.eqb] in X.
    set (l := Z.of_nat n1 * 86400 + hh * 3600 + mi * 60 + s) in *. pose proof (date_two _ y' m' d' DL) as (Y2 & M3 & D3). assert (Y' : y' <= 9999).
    { assert (n1 <= n + 366)%nat by (unfold n1; destruct (leap_year y); lia). assert (Z.to_nat (l / 86400) <= n + 368)%nat by (unfold l; lia). destruct (Z_le_gt_dec y' 9999) as [?|G]; [assumption|exfalso].
      destruct (date_number (Z.to_nat (l / 86400))) as [_ DN]. rewrite DL in DN. change (day_number (1, 1, 1)) with (-719162) in DN. cbn [day_number] in DN. pose proof (new_year n y N) as NY. rewrite year_start in NY.
      pose proof (civil_date (Z.of_nat (Z.to_nat (l / 86400))) ltac:(lia)) as C. rewrite Nat2Z.id, DL in C. unfold civil in C. apply (f_equal (fun x => fst (fst x))) in C. cbn [fst] in C. pose proof (year_at_ok (Z.of_nat (Z.to_nat (l / 86400)) - 719162)) as YA. rewrite C in YA. rewrite !year_start in YA. lia. }
    rewrite time_iso in X by (unfold two; lia). apply Some_inj in X. apply (f_equal (fun a => match a with AText q => scan_iso q | _ => None end)) in X. cbv beta iota in X. rewrite !scan_iso_text in X by (unfold two; lia). apply Some_inj in X. injection X as -> -> -> X1 X2. rewrite <- DL in DT. apply date_inj in DT. clear - DT X1 X2 SB SM A7 A8. unfold l in *. lia.
Qed.
Print Assumptions C151_refuted_summer.
Definition ex_label (form vs vn ir wv : Z) : list Z := repeat 0 12 ++ [form; vs; vn; ir; wv] ++ repeat 0 7.
Definition ex_head (lab : list Z) : header := mk_header lab (repeat 0 8) ex_ident (repeat 0 1360) (repeat 0 1440).
Lemma ex_head_ok lab : List.length lab = 24%nat -> bytes_ok lab -> header_ok (ex_head lab).
Proof.
  intros L B. assert (RB : forall k, bytes_ok (repeat 0 k)) by (intros k; apply Forall_forall; intros x X; apply repeat_spec in X; subst x; unfold is_byte; lia). unfold header_ok, ex_head. cbn [hd_label hd_seed hd_ident hd_interp hd_keys]. rewrite !repeat_length. split; [exact L|]. repeat (split; [first [reflexivity|assumption|apply RB|apply C150_case]|]). left. reflexivity.
Qed.
Definition ex_lines (lead size pad n : nat) : list dline := repeat (mk_dline (repeat 0 lead) (repeat 7 size) (repeat 0 pad)) n.
Example C151_case : hri_file "BIW" (ex_head (ex_label 255 0 0 1 1)) (ex_lines 32 1250 158 (Z.to_nat 1250)) [(B_FORMAT, IR_BAND); (B_FORMAT, WV_BAND)] (Turns 2) "METEOSAT-7" 2000 60 12 0 0 /\
  exists n, date n = (2000, 1, 1).
Proof.
  split; [|apply C120_calendar; cbn; lia]. constructor.
  - exists (Z.to_nat 1250). split; [reflexivity|]. apply repeat_length.
  - reflexivity.
  - apply ex_head_ok; [reflexivity|]. change (bytes_ok [0; 0; 0; 0; 0; 0; 0; 0; 0; 0; 0; 0; 255; 0; 0; 1; 1; 0; 0; 0; 0; 0; 0; 0]). repeat (apply Forall_cons; [unfold is_byte; lia|]). apply Forall_nil.
  - apply Forall_forall. intros x X. apply repeat_spec in X. subst x. unfold dline_ok. cbn [dl_data dl_lead dl_pad]. rewrite !repeat_length. repeat split.
  - apply C150_case.
Qed.

(** ** C152 *)
Section Reopen.
Variable number_text : attr -> str.
Lemma float_of_1 : float_one (Some (AFloat (Some (IZR 1)))) = true.
Proof. exact float_one_1. Qed.
Lemma float_of_2 : float_one (Some (AFloat (Some (IZR 2)))) = false.
Proof.
  unfold float_one, as_float, as_double, num_is_one. rewrite float_back; [destruct (Req_EM_T 2 1); [exfalso; lra|reflexivity]|]. unfold StretchFloat.float. apply generic_format_FLX. exists (Float radix2 2 0); [unfold F2R; cbn; lra|cbn; lia].
Qed.
Lemma reopened sat name time a b c d lon t nl np ch px : sat <> [] -> 0 < np < 2 ^ 31 -> 0 < nl < 2 ^ 31 -> In name [codes "IR"; codes "WV"; codes "VIS"; codes "VH"] -> forall y m dd hh mi, time = iso_text y m dd hh mi 0 ++ 32 :: codes "UTC" -> 0 <= y <= 9999 -> two m -> two dd -> two hh -> two mi ->
  exists ds bd, open_nc number_text (mk_ncfile
     [("Satellite", AText sat); ("Time", AText time); ("Columns", AInt np); ("Lines", AInt nl); ("SampleX", AFloat (Some (IZR 1))); ("SampleY", AFloat (Some (IZR 1)));
      ("Column_Scale_Factor", AInt a); ("Line_Scale_Factor", AInt b); ("Column_Offset", AInt c); ("Line_Offset", AInt d); ("Longitude", AFloat (Some (IZR lon)))]
     [mk_ncvar (codes "calibration") NcFloat [256] [] []; time_var t; mk_ncvar name NcByte [1; nl; np] [("add_offset", ADouble (Some 0%R)); ("scale_factor", ADouble (Some 1%R)); ("chnum", AInt ch)] px]) = Some ds /\
    d_size ds = Some (np, nl) /\ d_sat ds = Some sat /\ d_time ds = iso_text y m dd hh mi 0 /\ d_lon ds = Some (as_float (AFloat (Some (IZR lon)))) /\ d_bands ds = [bd] /\ v_name (r_var bd) = name /\ r_chan bd = ch /\ r_type bd = GByte /\ r_offset bd = Some 0%R /\ band_scale (r_var bd) = Some 1%R /\ IReadBlock bd 0 0 = Ok (Some px).
Proof.
  intros S0 NP NL NM y m dd hh mi -> Y M D H I. eexists. eexists. unfold open_nc. cbn [f_attrs f_vars get_att String.eqb Ascii.eqb Bool.eqb]. rewrite float_of_1. cbn [negb]. cbv zeta. unfold attr_text. cbn [get_att String.eqb Ascii.eqb Bool.eqb as_text]. rewrite scan_iso_text by (assumption || (unfold two; lia)).
  set (v := mk_ncvar name NcByte _ _ _). assert (FI : filter (is_band ["time"]) [mk_ncvar (codes "calibration") NcFloat [256] [] []; time_var t; v] = [v]).
  { assert (B3 : is_band ["time"] v = true) by (unfold is_band, v; cbn [v_name v_dims]; repeat (destruct NM as [<-|NM]; [reflexivity|]); destruct NM). cbn [filter]. rewrite B3. reflexivity. }
  rewrite FI. clear FI. cbn [map]. split; [reflexivity|]. cbn [d_size d_sat d_time d_bands d_lon]. unfold read_band at 1 2. cbn [r_bx r_by]. unfold dim, v. cbn [v_dims nth].
  split; [unfold to_int; rewrite !Z.mod_small by lia; do 2 f_equal; lia|]. split; [destruct sat; [contradiction|reflexivity]|]. split; [apply time_text_iso; (assumption || (unfold two; lia))|]. split; [reflexivity|]. split; [reflexivity|]. split; [reflexivity|]. split; [reflexivity|]. split; [reflexivity|].
  split; [|split; [reflexivity|]].
  - unfold read_band, band_offset. cbn [v_attrs get_att String.eqb Ascii.eqb Bool.eqb as_double num_is_one r_offset]. destruct (_ && _); reflexivity.
  - unfold read_band, IReadBlock. cbn [Z.eqb andb negb r_type r_bx r_by r_var v_type v_attrs v_data read_type width]. rewrite Z.ltb_irrefl. reflexivity.
Qed.
Lemma plain_files zn junk lb tail f h ds ims o sat y j hh mi lon n k0 : hri_file f h ds ims o sat y j hh mi lon -> date n = (y, 1, 1) -> 1000 <= y <= 9998 -> -43200 <= z_west zn < 43200 -> List.length lb = 2500%nat -> date k0 = (1970, 1, 1) ->
  let n1 := (n + Z.to_nat (j - 1))%nat in z_dst zn (seconds_between k0 n1 hh mi 0 + z_west zn) = 0 ->
  exists m d cfac lfac coff loff fs, date n1 = (y, m, d) /\ HRI2NetCDF zn junk LE lb (file_bytes f false [] h ds tail) = Ok fs /\ List.length fs = List.length ims /\
    forall k fm b, nth_error ims k = Some (fm, b) -> exists np nl im, dims fm b = Some (np, nl) /\ npixels im = np /\ nlines im = nl /\ 0 < np < 2 ^ 31 /\ 0 < nl < 2 ^ 31 /\ Z.of_nat (List.length (values junk im)) = np * nl /\
      (forall l p, Z.of_nat l < nl -> 0 <= p < np -> nth (Z.to_nat (Z.of_nat l * np + p)) (values junk im) 0 = pixel o ds junk np k l p) /\
      nth_error fs k = Some (fst (image_file zn junk (codes sat) (area_of f) lon (cfac, lfac, coff, loff) (mk_tmz y m d hh mi 0) fm b im)).
Proof.
  intros F N Y W LB K0 n1 DS. destruct (converted_files zn junk lb tail f h ds ims o sat y j hh mi lon n k0 F N Y W LB K0) as (m & d & cfac & lfac & coff & loff & fs & y' & m' & d' & DT & EG & E & LF & DL & PX); [fold n1; rewrite DS; lia|fold n1; rewrite DS; reflexivity|].
  fold n1 in DT, DL, PX. cbv zeta in DL, PX. rewrite DS in DL, PX. exists m, d, cfac, lfac, coff, loff, fs. split; [exact DT|]. split; [exact E|]. split; [exact LF|]. pose proof F as [_ _ _ _ [_ _ _ _ A5 _ A7 A8 _]]. intros k fm b NE. destruct (PX k fm b NE) as (np & nl & im & DM & E1 & E2 & R1 & R2 & LV & V & MK & NF).
  replace (Z.to_nat ((Z.of_nat n1 * 86400 + hh * 3600 + mi * 60 + 0) / 86400)) with n1 in DL by lia. rewrite DT in DL. injection DL as <- <- <-. replace ((Z.of_nat n1 * 86400 + hh * 3600 + mi * 60 + 0) mod 86400 / 3600) with hh in * by lia. replace ((Z.of_nat n1 * 86400 + hh * 3600 + mi * 60 + 0) mod 3600 / 60) with mi in * by lia.
  exists np, nl, im. do 7 (split; [assumption|]). rewrite NF. destruct k; reflexivity.
Qed.
Lemma name_in fm b : In (image_name fm b) [codes "IR"; codes "WV"; codes "VIS"; codes "VH"].
Proof. destruct fm, b; cbn; tauto. Qed.
Lemma craft_name b0 b1 sat : In (b0, b1, sat) crafts -> codes sat <> [].
Proof. intros I. repeat (destruct I as [I|I]; [injection I as _ _ <-; discriminate|]). destruct I. Qed.
(** The images of the A format, and the visible ones of the B format, are opened with
    their size, satellite, minute, longitude and channel number. In images whose lines
    come whole all pixels are those of the data lines, in others those of the first
    halves up to the last two. *)
Theorem C152_reopened_partial zn junk lb tail f h ds ims o sat y j hh mi lon n k0 : hri_file f h ds ims o sat y j hh mi lon -> date n = (y, 1, 1) -> 1000 <= y <= 9998 -> -43200 <= z_west zn < 43200 -> List.length lb = 2500%nat -> date k0 = (1970, 1, 1) ->
  let n1 := (n + Z.to_nat (j - 1))%nat in z_dst zn (seconds_between k0 n1 hh mi 0 + z_west zn) = 0 ->
  exists m d fs, date n1 = (y, m, d) /\ HRI2NetCDF zn junk LE lb (file_bytes f false [] h ds tail) = Ok fs /\ List.length fs = List.length ims /\
    forall k fm b np nl, nth_error ims k = Some (fm, b) -> dims fm b = Some (np, nl) -> fm = A_FORMAT \/ fm = B_FORMAT /\ b = VIS_BAND -> exists name nc dset bd px, nth_error fs k = Some (name, nc) /\ open_nc number_text nc = Some dset /\
      d_size dset = Some (np, nl) /\ d_sat dset = Some (codes sat) /\ d_time dset = iso_text y m d hh mi 0 /\ d_lon dset = Some (as_float (AFloat (Some (IZR lon)))) /\
      d_bands dset = [bd] /\ r_chan bd = (match b with IR_BAND => 0 | WV_BAND => 1 | VIS_BAND => 2 | VH_BAND => 3 end) /\ r_type bd = GByte /\ r_offset bd = Some 0%R /\ band_scale (r_var bd) = Some 1%R /\ IReadBlock bd 0 0 = Ok (Some px) /\ Z.of_nat (List.length px) = np * nl /\
      forall l p, Z.of_nat l < nl -> 0 <= p < (if in_halves o k then np / 2 - 2 else np) -> nth (Z.to_nat (Z.of_nat l * np + p)) px 0 = sample ds (source o (np / 2) k l p).
Proof.
  intros F N Y W LB K0 n1 DS. destruct (plain_files zn junk lb tail f h ds ims o sat y j hh mi lon n k0 F N Y W LB K0 DS) as (m & d & cfac & lfac & coff & loff & fs & DT & E & LF & PX). fold n1 in DT. exists m, d, fs. split; [exact DT|]. split; [exact E|]. split; [exact LF|].
  pose proof F as [_ _ _ _ [A1 _ _ _ A5 _ A7 A8 _]]. pose proof (date_two n1 y m d DT) as (_ & M2 & D2). intros k fm b np nl NE DM G. destruct (PX k fm b NE) as (np' & nl' & im & DM' & E1 & E2 & R1 & R2 & LV & V & NF). rewrite DM in DM'. injection DM' as <- <-.
  rewrite file_eq in NF. cbn [fst] in NF. assert (SA : sampling fm b = 1) by (destruct G as [-> | [-> ->]]; [destruct b|]; reflexivity). rewrite SA, E1, E2 in NF.
  destruct (reopened (codes sat) (image_name fm b) (nc_time (mk_tmz y m d hh mi 0)) cfac lfac coff loff lon (fst (mktime zn (mk_tmz y m d hh mi 0)) - 946684800 - z_west zn) nl np (band_number b) (values junk im) (craft_name _ _ _ A1) R1 R2 (name_in fm b) y m d hh mi) as (dset & bd & O & B1 & B2 & B3 & B4 & B5 & _ & B7 & B8 & B9 & B10 & B11); try (unfold two; lia); [apply time_iso; unfold two; lia|].
  eexists. eexists. exists dset, bd, (values junk im). split; [exact NF|]. split; [exact O|]. do 5 (split; [assumption|]). split; [rewrite B7; destruct b; reflexivity|]. do 5 (split; [assumption|]). intros l p HL HP.
  assert (NP : 8 < np) by (clear - DM; destruct fm, b; cbn in DM; try discriminate; apply Some_inj, pair_inj in DM as [<- _]; reflexivity). rewrite V; [|exact HL|destruct (in_halves o k); lia]. unfold pixel, actual. destruct (in_halves o k) eqn:IH; [|reflexivity]. replace (p <? np / 2 - 2) with true by lia. cbn [option_map]. f_equal.
  destruct o as [mm| |]; cbn [source]; [destruct k; discriminate|..].
  - replace (0 <? np / 2) with true by lia. now replace (p <? np / 2) with true by lia.
  - destruct k; [discriminate|]. replace (0 <? np / 2) with true by lia. now replace (p <? np / 2) with true by lia.
Qed.
Print Assumptions C152_reopened_partial.
(** All other images are written with a sampling of 2: the driver refuses them. *)
Theorem C152_refuted_sampled zn junk lb tail f h ds ims o sat y j hh mi lon n k0 : hri_file f h ds ims o sat y j hh mi lon -> date n = (y, 1, 1) -> 1000 <= y <= 9998 -> -43200 <= z_west zn < 43200 -> List.length lb = 2500%nat -> date k0 = (1970, 1, 1) ->
  z_dst zn (seconds_between k0 (n + Z.to_nat (j - 1)) hh mi 0 + z_west zn) = 0 ->
  exists fs, HRI2NetCDF zn junk LE lb (file_bytes f false [] h ds tail) = Ok fs /\ List.length fs = List.length ims /\
    forall k fm b name nc, nth_error ims k = Some (fm, b) -> nth_error fs k = Some (name, nc) -> fm = X_FORMAT \/ fm = B_FORMAT /\ b <> VIS_BAND -> open_nc number_text nc = None.
Proof.
  intros F N Y W LB K0 DS. destruct (plain_files zn junk lb tail f h ds ims o sat y j hh mi lon n k0 F N Y W LB K0 DS) as (m & d & cfac & lfac & coff & loff & fs & DT & E & LF & PX). exists fs. split; [exact E|]. split; [exact LF|].
  intros k fm b name nc NE NF G. destruct (PX k fm b NE) as (np & nl & im & _ & _ & _ & _ & _ & _ & _ & NF'). rewrite NF' in NF. rewrite file_eq in NF. cbn [fst] in NF. injection NF as _ <-. assert (SA : sampling fm b = 2) by (destruct G as [-> | [-> B]]; destruct b; (reflexivity || contradiction)). rewrite SA.
  unfold open_nc. cbn [f_attrs f_vars get_att String.eqb Ascii.eqb Bool.eqb]. rewrite float_of_2. reflexivity.
Qed.
Print Assumptions C152_refuted_sampled.
(** No converted file has a geotransform. *)
Theorem C152_refuted_position zn junk hs lb file fs name nc : HRI2NetCDF zn junk hs lb file = Ok fs -> In (name, nc) fs -> gt_nc nc = Ok None.
Proof.
  intros E I. unfold HRI2NetCDF in E. destruct (readfrom 4 hs false lb file) as [x| | | |]; try discriminate. cbn [bind] in E. destruct (getbuff hs _) as [[fb s]| | | |]; try discriminate. cbn [bind] in E. destruct (bytes_at fb 36 48) as [idn| | | |]; try discriminate. cbn [bind] in E. destruct (read_ident hs _ idn) as [i| | | |]; try discriminate. cbn [bind] in E.
  destruct (plan_of _) as [p| | | |]; try discriminate. cbn [bind] in E. destruct (h_geo x) as [[[[cfac lfac] coff] loff]|]; [|discriminate]. apply Ok_inj in E. subst fs. revert I. generalize (mk_tmz (id_year i) (id_month i) (id_day i) (id_hour i) (id_minute i) 0). generalize (h_images x).
  induction (p_images p) as [|[f b] l IH]; intros [|im ims] t I; try (exfalso; exact I). cbn [image_files] in I. rewrite file_eq in I. destruct I as [I|I]; [|exact (IH _ _ I)]. injection I as _ <-. unfold gt_nc. cbn [f_attrs get_att String.eqb Ascii.eqb Bool.eqb]. reflexivity.
Qed.
Print Assumptions C152_refuted_position.
End Reopen.
Example C152_case : hri_file "AIW" (ex_head (ex_label 0 0 0 1 1)) (ex_lines 64 2500 316 (Z.to_nat 5000)) [(A_FORMAT, IR_BAND); (A_FORMAT, WV_BAND)] (Turns 2) "METEOSAT-7" 2000 60 12 0 0.
Proof.
  constructor.
  - exists (Z.to_nat 5000). split; [reflexivity|]. apply repeat_length.
  - reflexivity.
  - apply ex_head_ok; [reflexivity|]. change (bytes_ok [0; 0; 0; 0; 0; 0; 0; 0; 0; 0; 0; 0; 0; 0; 0; 1; 1; 0; 0; 0; 0; 0; 0; 0]). repeat (apply Forall_cons; [unfold is_byte; lia|]). apply Forall_nil.
  - apply Forall_forall. intros x X. apply repeat_spec in X. subst x. unfold dline_ok. cbn [dl_data dl_lead dl_pad]. rewrite !repeat_length. repeat split.
  - apply C150_case.
Qed.

(** ** C153 *)
Lemma split_at (a b r s : str) : ~ In 95 a -> ~ In 95 b -> a ++ 95 :: r = b ++ 95 :: s -> a = b /\ r = s.
Proof.
  revert b. induction a as [|x a IH]; intros [|z b] A B E; cbn [app] in E.
  - injection E as E. now split.
  - injection E as E _. exfalso. apply B. now left.
  - injection E as E _. exfalso. apply A. now left.
  - injection E as -> E. destruct (IH b) as [-> ->]; [intros I; apply A; now right|intros I; apply B; now right|exact E|]. now split.
Qed.
Lemma sat_plain b0 b1 sat : In (b0, b1, sat) crafts -> ~ In 95 (codes sat).
Proof. intros I X. repeat (destruct I as [I|I]; [injection I as _ _ <-; vm_compute in X; repeat (destruct X as [X|X]; [discriminate|]); exact X|]). destruct I. Qed.
Lemma area_plain f : ~ In 95 (area_of f).
Proof.
  assert (P : forall t, In t ["AFormat"; "BFormat"; "XFormat"] -> ~ In 95 (codes t)). { intros t I X. repeat (destruct I as [<-|I]; [vm_compute in X; repeat (destruct X as [X|X]; [discriminate|]); exact X|]). destruct I. }
  destruct f as [|c f]; cbn [area_of]; [apply P; cbn; tauto|]. destruct c as [[] [] [] [] [] [] [] []]; apply P; cbn; tauto.
Qed.
Lemma image_plain fm b : ~ In 95 (image_name fm b).
Proof. destruct fm, b; intros X; vm_compute in X; repeat (destruct X as [X|X]; [discriminate|]); exact X. Qed.
Lemma stamp_inj y m d hh mi y' m' d' hh' mi' : 1000 <= y <= 9999 -> two m -> two d -> two hh -> two mi -> 1000 <= y' <= 9999 -> two m' -> two d' -> two hh' -> two mi' -> stamp y m d hh mi = stamp y' m' d' hh' mi' -> (y, m, d, hh, mi) = (y', m', d', hh', mi').
Proof.
  intros Y M D H I Y' M' D' H' I' E. unfold stamp in E. apply app_inj_len in E as [E1 E]; [|reflexivity]. apply app_inj_len in E as [E2 E]; [|reflexivity]. apply app_inj_len in E as [E3 E]; [|reflexivity]. apply app_inj_len in E as [_ E]; [|reflexivity]. apply app_inj_len in E as [E4 E5]; [|reflexivity].
  apply dd_inj in E2, E3, E4, E5; try assumption. unfold dddd in E1. apply app_inj_len in E1 as [E6 E7]; [|reflexivity]. apply dd_inj in E6, E7; try (unfold two; lia). subst. do 4 f_equal. lia.
Qed.
(** Two files made of images have the same name exactly when satellite, format, name
    of the channel and minute are the same. *)
Theorem C153_names_partial zn junk junk' lb lb' tail tail' f h ds ims o sat y j hh mi lon n f' h' ds' ims' o' sat' y' j' hh' mi' lon' n' k0 fs fs' k k' name name' nc nc' fm b fm' b' :
  hri_file f h ds ims o sat y j hh mi lon -> date n = (y, 1, 1) -> 1000 <= y <= 9998 -> hri_file f' h' ds' ims' o' sat' y' j' hh' mi' lon' -> date n' = (y', 1, 1) -> 1000 <= y' <= 9998 ->
  -43200 <= z_west zn < 43200 -> (forall r, z_dst zn r = 0) -> List.length lb = 2500%nat -> List.length lb' = 2500%nat -> date k0 = (1970, 1, 1) ->
  HRI2NetCDF zn junk LE lb (file_bytes f false [] h ds tail) = Ok fs -> HRI2NetCDF zn junk' LE lb' (file_bytes f' false [] h' ds' tail') = Ok fs' ->
  nth_error fs k = Some (name, nc) -> nth_error ims k = Some (fm, b) -> nth_error fs' k' = Some (name', nc') -> nth_error ims' k' = Some (fm', b') ->
  (name = name' <-> sat = sat' /\ area_of f = area_of f' /\ image_word fm b = image_word fm' b' /\ (y, j, hh, mi) = (y', j', hh', mi')).
Proof.
  rewrite <- !image_word_ok.
  intros F N Y F' N' Y' W DS LB LB' K0 E E' NK NE NK' NE'.
  destruct (plain_files zn junk lb tail f h ds ims o sat y j hh mi lon n k0 F N Y W LB K0 (DS _)) as (m & d & cfac & lfac & coff & loff & fs0 & DT & E0 & _ & PX). rewrite E in E0. apply Ok_inj in E0. subst fs0.
  destruct (plain_files zn junk' lb' tail' f' h' ds' ims' o' sat' y' j' hh' mi' lon' n' k0 F' N' Y' W LB' K0 (DS _)) as (m' & d' & cfac' & lfac' & coff' & loff' & fs0' & DT' & E0' & _ & PX'). rewrite E' in E0'. apply Ok_inj in E0'. subst fs0'.
  destruct (PX k fm b NE) as (np & nl & im & _ & _ & _ & _ & _ & _ & _ & NF). destruct (PX' k' fm' b' NE') as (np' & nl' & im' & _ & _ & _ & _ & _ & _ & _ & NF'). rewrite NF in NK. rewrite NF' in NK'. rewrite file_eq in NK, NK'. cbn [fst] in NK, NK'.
  apply Some_inj in NK, NK'. apply (f_equal fst) in NK, NK'. cbn [fst] in NK, NK'. pose proof F as [_ _ _ _ [A1 _ _ _ A5 _ A7 A8 _]]. pose proof F' as [_ _ _ _ [A1' _ _ _ A5' _ A7' A8' _]]. pose proof (date_two _ y m d DT) as (_ & M2 & D2). pose proof (date_two _ y' m' d' DT') as (_ & M2' & D2').
  rewrite name_stamp in NK, NK' by (unfold two; lia). subst name name'. cbn [app]. split.
  - intros X. apply split_at in X as [X1 X]; [|now apply (sat_plain _ _ _ A1)|now apply (sat_plain _ _ _ A1')]. apply split_at in X as [X2 X]; [|apply area_plain|apply area_plain]. apply split_at in X as [X3 X]; [|apply image_plain|apply image_plain].
    apply app_inj_len in X as [X _]; [|reflexivity]. apply stamp_inj in X; try (unfold two; lia). injection X as <- <- <- <- <-. split.
    { clear - A1 A1' X1. repeat (destruct A1 as [A1|A1]; [injection A1 as _ _ <-; repeat (destruct A1' as [A1'|A1']; [injection A1' as _ _ <-; first [reflexivity|exfalso; vm_compute in X1; discriminate]|]); destruct A1'|]). destruct A1. }
    split; [exact X2|]. split; [exact X3|]. assert (NN : n = n') by (apply date_inj; congruence). subst n'. rewrite <- DT' in DT. apply date_inj in DT. do 3 f_equal. lia.
  - intros (<- & <- & <- & X). injection X as <- <- <- <-. assert (NN : n = n') by (apply date_inj; congruence). subst n'. rewrite DT in DT'. injection DT' as <- <-. reflexivity.
Qed.
Print Assumptions C153_names_partial.
(** The images of one file have names of their own. *)
Theorem C153_one_file zn junk lb tail f h ds ims o sat y j hh mi lon n k0 fs : hri_file f h ds ims o sat y j hh mi lon -> date n = (y, 1, 1) -> 1000 <= y <= 9998 ->
  -43200 <= z_west zn < 43200 -> (forall r, z_dst zn r = 0) -> List.length lb = 2500%nat -> date k0 = (1970, 1, 1) ->
  HRI2NetCDF zn junk LE lb (file_bytes f false [] h ds tail) = Ok fs -> List.length fs = List.length ims /\ NoDup (map fst fs).
Proof.
  intros F N Y W DS LB K0 E. assert (L : List.length fs = List.length ims).
  { destruct (C152_refuted_sampled (fun _ => []) zn junk lb tail f h ds ims o sat y j hh mi lon n k0 F N Y W LB K0 (DS _)) as (fs' & E' & L & _). rewrite E in E'. injection E' as <-. exact L. }
  split; [exact L|]. apply NoDup_nth_error. intros k k' B Q. rewrite map_length in B. rewrite !nth_error_map in Q.
  destruct (nth_error fs k) as [[name nc]|] eqn:E1; [|apply nth_error_None in E1; lia]. destruct (nth_error fs k') as [[name' nc']|] eqn:E2; [|discriminate]. cbn in Q. injection Q as Q.
  assert (B' : (k' < List.length fs)%nat) by (apply nth_error_Some; congruence).
  destruct (nth_error ims k) as [[fm b]|] eqn:I1; [|apply nth_error_None in I1; lia]. destruct (nth_error ims k') as [[fm' b']|] eqn:I2; [|apply nth_error_None in I2; lia].
  apply (C153_names_partial zn junk junk lb lb tail tail f h ds ims o sat y j hh mi lon n f h ds ims o sat y j hh mi lon n k0 fs fs k k' name name' nc nc' fm b fm' b' F N Y F N Y W DS LB LB K0 E E E1 I1 E2 I2) in Q as (_ & _ & Q & _).
  destruct F as [(n0 & FS & _) _ _ _ _]. clear - FS Q I1 I2.
  assert (D : NoDup (map (fun x => image_word (fst x) (snd x)) ims)).
  { unfold format_spec in FS. repeat match type of FS with (if ?c then _ else _) = _ => destruct c | Some _ = Some _ => injection FS as <- _ _ | _ => discriminate end;
    repeat (constructor; [cbn; intuition discriminate|]); constructor. }
  rewrite NoDup_nth_error in D. apply D; [rewrite map_length; apply nth_error_Some; congruence|]. rewrite !nth_error_map, I1, I2. cbn. now rewrite Q.
Qed.
Print Assumptions C153_one_file.
(** Visible images of full and of reduced resolution have the same name: of two files
    of the same minute the second one replaces the first. *)
Theorem C153_refuted_visible zn junk lb tail tail' h ds h' ds' sat y j hh mi lon n k0 ims ims' o o' fs fs' x x' :
  hri_file "AV" h ds ims o sat y j hh mi lon -> hri_file "AVH" h' ds' ims' o' sat y j hh mi lon -> date n = (y, 1, 1) -> 1000 <= y <= 9998 ->
  -43200 <= z_west zn < 43200 -> (forall r, z_dst zn r = 0) -> List.length lb = 2500%nat -> date k0 = (1970, 1, 1) ->
  HRI2NetCDF zn junk LE lb (file_bytes "AV" false [] h ds tail) = Ok fs -> HRI2NetCDF zn junk LE lb (file_bytes "AVH" false [] h' ds' tail') = Ok fs' -> nth_error fs 0 = Some x -> nth_error fs' 0 = Some x' ->
  fst x = fst x' /\ get_att (f_attrs (snd x)) "Lines" = Some (AInt 5000) /\ get_att (f_attrs (snd x')) "Lines" = Some (AInt 2500).
Proof.
  intros F F' N Y W DS LB K0 E E' NK NK'.
  destruct (plain_files zn junk lb tail "AV" h ds ims o sat y j hh mi lon n k0 F N Y W LB K0 (DS _)) as (m & d & cfac & lfac & coff & loff & fs0 & DT & E0 & _ & PX). rewrite E in E0. apply Ok_inj in E0. subst fs0.
  destruct (plain_files zn junk lb tail' "AVH" h' ds' ims' o' sat y j hh mi lon n k0 F' N Y W LB K0 (DS _)) as (m' & d' & cfac' & lfac' & coff' & loff' & fs0' & DT' & E0' & _ & PX'). rewrite E' in E0'. apply Ok_inj in E0'. subst fs0'. rewrite DT in DT'. injection DT' as <- <-.
  assert (I1 : ims = [(A_FORMAT, VIS_BAND)]) by (destruct F as [(? & FS & _) _ _ _ _]; cbn in FS; now injection FS). assert (I2 : ims' = [(A_FORMAT, VH_BAND)]) by (destruct F' as [(? & FS & _) _ _ _ _]; cbn in FS; now injection FS). subst ims ims'.
  destruct (PX 0%nat _ _ eq_refl) as (np & nl & im & DM & _ & E2 & _ & _ & _ & _ & NF). destruct (PX' 0%nat _ _ eq_refl) as (np' & nl' & im' & DM' & _ & E2' & _ & _ & _ & _ & NF'). cbn in DM, DM'. injection DM as _ <-. injection DM' as _ <-. rewrite NF in NK. rewrite NF' in NK'. apply Some_inj in NK, NK'. subst x x'. rewrite !file_eq. cbn [fst snd f_attrs get_att String.eqb Ascii.eqb Bool.eqb]. rewrite E2, E2'. repeat split.
Qed.
Print Assumptions C153_refuted_visible.
Example C153_case : nc_name (codes "METEOSAT-7") (area_of "AV") (image_name A_FORMAT VIS_BAND) (mk_tmz 2000 2 29 12 0 0) = codes "METEOSAT-7_AFormat_VIS_20000229_1200.nc" /\ nc_name (codes "METEOSAT-7") (area_of "AVH") (image_name A_FORMAT VH_BAND) (mk_tmz 2000 2 29 12 0 0) = codes "METEOSAT-7_AFormat_VIS_20000229_1200.nc".
Proof. split; vm_compute; reflexivity. Qed.
