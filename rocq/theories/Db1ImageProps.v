(** Property C199: pictures made from ThornSDS DB1 directories. *)
From Coq Require Import Reals.
From Verif Require Import BaseFacts IniModel IniSpec IniProofs IniFile IniProps MachineModel FactsModel ScanModel GeoModel PixModel GribModel GribProps NcModel NativeImageModel Db1Model Db1Spec Db1Props Db1NcProps Db1ImageModel.
Open Scope string_scope.
Open Scope list_scope.
Open Scope Z_scope.

(** What the files say about the picture. *)
Record picture_info (info : list item) (sat start : text) (wd hg : Z) : Prop := {
  pi_sat : sat = text_in info (codes "satellite:name") (codes "Undefined");
  pi_start : start = text_in info (codes "schedule:start") (codes "01/01/2000 00:00:00.000");
  pi_wd : is_number (text_in info (codes "image:pixels") []) wd /\ 0 < wd < 2 ^ 31;
  pi_hg : is_number (text_in info (codes "image:lines") (codes "1")) hg /\ 0 < hg < 2 ^ 31 }.
(** Yes, true and 1, by the first letter. *)
Definition says_yes (t : text) : bool := existsb (Z.eqb (nth 0 t 0)) (codes "yY1tT").
(** The picture with its first line on top when the scan goes from north to south;
    otherwise the last sample comes first. *)
Definition upright (info : list item) (px : list Z) : list Z :=
  if says_yes (text_in info (codes "schedule:northsouth") []) then px else rev px.

Section Picture.
Variable flt : Type.
Variable zero : flt.
Variable atof : text -> flt.
Variable h : host.
Variable normalize : list Z -> list Z.
Variable scale : pic -> Z -> Z -> pic.
Variable times : text -> Z -> Z.
Variable plus : pic -> pic -> pic.
Notation tool := (db1_to_image flt zero atof h normalize scale times plus).

Ltac hashed := let X := fresh in intro X; vm_compute in X; discriminate.
Ltac key_ok := first [assumption | lia | (vm_compute; tauto) | hashed].
Lemma getboolean_yes d doc key : tidy_doc doc -> reads d doc -> dictionary_hash (folded key) <> 0 -> In 58 (folded key) -> getboolean (Some d) key 0 = Ok (if says_yes (text_in doc (folded key) []) then 1 else 0).
Proof.
  intros [_ T] R H C. unfold getboolean, iniparser_getboolean. rewrite R by exact H. cbn [bind]. pose proof (says_not_null doc (folded key) T C) as N. unfold text_in. destruct (content nothing (assigns [] doc) (folded key)) as [[v|]|]; [|contradiction|reflexivity].
  cbn [as_lookup]. cbv zeta. unfold says_yes. change (codes "yY1tT") with [121; 89; 49; 116; 84]. cbn [existsb]. rewrite orb_false_r, !orb_assoc. destruct (_ || _); [reflexivity|]. destruct (_ || _); reflexivity.
Qed.
(** The tool, all accessors done. *)
Lemma tool_eq fs pictures dir ch format factor overlay info aoi cal raw k tk b name variable letter sat start wd hg :
  directory fs dir ch info aoi cal raw -> channel info ch k tk b name variable letter -> keys_fit variable letter (2 ^ b) -> picture_info info sat start wd hg ->
  tool fs pictures dir ch format factor overlay =
    if Z.of_nat (List.length raw) <? 2 * (hg * wd) then UB
    else let image := mk_pic wd hg (upright info (normalize (shorts h (Z.to_nat (hg * wd)) raw))) in
         match overlay with
         | None => Ok (Some (image_name sat name start format, scale image (times factor wd) (times factor hg)))
         | Some _ => match pictures (codes "SEVIRI_OVERLAY.pgm") with None => Terminate | Some o => Ok (Some (image_name sat name start format, scale (plus image o) (times factor wd) (times factor hg))) end
         end.
Proof.
  intros D C KF II. pose proof D as [SH [TI _] [TA _] [ER [NR LR]] _]. destruct (open_ok flt atof _ _ _ _ _ _ _ (fresh flt) D) as (da & di & RA & RI & EO).
  unfold db1_to_image. rewrite EO. cbn [bind fresh x_dir x_aoi x_info x_cal x_chnum x_raw x_ncal x_cals x_size x_leaks].
  unfold has_channel. cbn [x_dir x_aoi x_info x_cal x_chnum x_raw x_ncal x_cals x_size x_leaks]. rewrite (path_ok dir ch) by (assumption || (cbn; lia)). cbn [bind]. rewrite ER. cbn [bind negb].
  match goal with |- context [set_channel _ _ _ _ ?s _] => destruct (set_ok flt zero atof fs s dir di ch info aoi cal raw k tk b name variable letter eq_refl eq_refl TI RI D C KF) as (c & RC & ES) end.
  rewrite ES. clear ES. cbn [bind x_dir x_aoi x_info x_cal x_chnum x_raw x_ncal x_cals x_size x_leaks]. destruct C as [(K & _) TK EN EV _ [_ BR]]. assert (tk = print k) by (apply plain_print; [exact TK|lia]). subst tk.
  unfold get_INFO_satellite_name, get_channel_INFO_name, get_INFO_schedule_start, get_INFO_image_pixels, get_INFO_image_lines, get_INFO_schedule_northsouth, get_RAW_data, sized, int_of_key, str_of, is_data_ok.
  cbn [x_dir x_aoi x_info x_cal x_chnum x_raw x_ncal x_cals x_size x_leaks]. replace (0 <? k) with true by lia. cbn [negb].
  destruct II as [-> -> [W1 W2] [H1 H2]].
  rewrite (getstring_doc di info (codes "Satellite:Name")) by key_ok. cbn [bind text_of]. change (folded (codes "Satellite:Name")) with (codes "satellite:name").
  rewrite (getstring_channel di info "Name" "name") by (try assumption; apply chkey_name; lia). cbn [bind text_of]. rewrite <- EN.
  rewrite (getstring_doc di info (codes "Schedule:Start")) by key_ok. cbn [bind text_of]. change (folded (codes "Schedule:Start")) with (codes "schedule:start").
  unfold half_size. cbn [x_size need bind].
  change (codes "image:pixels") with (folded (codes "Image:Pixels")) in W1. rewrite (getint_present di info (codes "Image:Pixels") _ wd) by key_ok. cbn [bind].
  assert (ON : is_number (codes "1") 1) by (apply plain_is_number, (print_plain 1); lia).
  change (codes "image:lines") with (folded (codes "Image:Lines")) in H1. rewrite (getint_doc di info (codes "Image:Lines") 1 hg (codes "1")) by key_ok. cbn [bind].
  replace ((wd <=? 0) || (hg <=? 0)) with false by lia. destruct (_ <? _); [reflexivity|]. rewrite (getboolean_yes di info (codes "Schedule:NorthSouth")) by key_ok. cbn [bind]. change (folded (codes "Schedule:NorthSouth")) with (codes "schedule:northsouth"). unfold upright.
  destruct (says_yes _); cbn [Z.eqb]; unfold rotate180, normalized; cbn [p_wd p_hg p_px]; cbv zeta; (destruct overlay; [destruct (pictures _); reflexivity|reflexivity]).
Qed.

(** ** C199 *)
Theorem C199_picture_partial fs pictures dir ch format factor info aoi cal raw k tk b name variable letter sat start wd hg :
  directory fs dir ch info aoi cal raw -> channel info ch k tk b name variable letter -> keys_fit variable letter (2 ^ b) -> picture_info info sat start wd hg -> 2 * (hg * wd) <= Z.of_nat (List.length raw) ->
  exists px, tool fs pictures dir ch format factor None = Ok (Some (image_name sat name start format, scale (mk_pic wd hg (upright info (normalize px))) (times factor wd) (times factor hg))) /\
    Z.of_nat (List.length px) = hg * wd /\ forall j, 0 <= j < hg * wd -> nth_error px (Z.to_nat j) = Some (sample_at h raw (Z.to_nat j)).
Proof.
  intros D C KF II RL. exists (shorts h (Z.to_nat (hg * wd)) raw). rewrite (tool_eq fs pictures dir ch format factor None info aoi cal raw k tk b name variable letter sat start wd hg D C KF II). replace (_ <? _) with false by lia. split; [reflexivity|].
  assert (0 <= hg * wd) by (destruct II as [_ _ [_ ?] [_ ?]]; nia). rewrite shorts_length. split; [lia|]. intros j J. apply (shorts_at flt atof h (fun _ => true) (fun _ => 0)); lia.
Qed.
(** With an overlay the picture read is always SEVIRI_OVERLAY.pgm of the current
    directory, whatever the argument names. *)
Theorem C199_refuted_overlay fs pictures dir ch format factor info aoi cal raw k tk b name variable letter sat start wd hg overlay :
  directory fs dir ch info aoi cal raw -> channel info ch k tk b name variable letter -> keys_fit variable letter (2 ^ b) -> picture_info info sat start wd hg -> 2 * (hg * wd) <= Z.of_nat (List.length raw) ->
  (forall other, tool fs pictures dir ch format factor (Some other) = tool fs pictures dir ch format factor (Some overlay)) /\
  (pictures (codes "SEVIRI_OVERLAY.pgm") = None -> tool fs pictures dir ch format factor (Some overlay) = Terminate) /\
  (forall o, pictures (codes "SEVIRI_OVERLAY.pgm") = Some o -> exists px, tool fs pictures dir ch format factor (Some overlay) = Ok (Some (image_name sat name start format, scale (plus (mk_pic wd hg (upright info (normalize px))) o) (times factor wd) (times factor hg))) /\ forall j, 0 <= j < hg * wd -> nth_error px (Z.to_nat j) = Some (sample_at h raw (Z.to_nat j))).
Proof.
  intros D C KF II RL. split; [|split].
  - intros other. rewrite !(tool_eq fs pictures dir ch format factor _ info aoi cal raw k tk b name variable letter sat start wd hg D C KF II). reflexivity.
  - intros P. rewrite (tool_eq fs pictures dir ch format factor _ info aoi cal raw k tk b name variable letter sat start wd hg D C KF II). replace (_ <? _) with false by lia. now rewrite P.
  - intros o P. exists (shorts h (Z.to_nat (hg * wd)) raw). rewrite (tool_eq fs pictures dir ch format factor _ info aoi cal raw k tk b name variable letter sat start wd hg D C KF II). replace (_ <? _) with false by lia. rewrite P. split; [reflexivity|].
    intros j J. assert (0 <= hg * wd) by (destruct II as [_ _ [_ ?] [_ ?]]; nia). apply (shorts_at flt atof h (fun _ => true) (fun _ => 0)); lia.
Qed.
(** A data file that is smaller than the INFO file says is read past its end. *)
Theorem C199_refuted_small_file fs pictures dir ch format factor overlay info aoi cal raw k tk b name variable letter sat start wd hg :
  directory fs dir ch info aoi cal raw -> channel info ch k tk b name variable letter -> keys_fit variable letter (2 ^ b) -> picture_info info sat start wd hg -> Z.of_nat (List.length raw) < 2 * (hg * wd) ->
  tool fs pictures dir ch format factor overlay = UB.
Proof. intros D C KF II RL. rewrite (tool_eq fs pictures dir ch format factor overlay info aoi cal raw k tk b name variable letter sat start wd hg D C KF II). now replace (_ <? _) with true by lia. Qed.
(** The name: no slash, blank or colon is left, not even in the format; and two pictures
    of one satellite, channel and time have the same name only if the format is the same. *)
Theorem C199_file_name sat name start format : let n := image_name sat name start format in ~ In 47 n /\ ~ In 32 n /\ ~ In 58 n /\
  forall other, (List.length sat + List.length name + List.length start + List.length format <= 4000)%nat -> (List.length sat + List.length name + List.length start + List.length other <= 4000)%nat ->
    image_name sat name start other = n -> Forall (fun c => c <> 47 /\ c <> 32 /\ c <> 58) format -> Forall (fun c => c <> 47 /\ c <> 32 /\ c <> 58) other -> other = format.
Proof.
  assert (K : forall c, c = 47 \/ c = 32 \/ c = 58 -> ~ In c (image_name sat name start format)). { intros c C I. unfold image_name in I. apply in_map_iff in I. destruct I as (x & E & _). unfold tidy in E. destruct (x =? 47) eqn:E1; [lia|]. destruct (x =? 32) eqn:E2; [lia|]. destruct (x =? 58) eqn:E3; lia. }
  cbv zeta. split; [apply K; auto|]. split; [apply K; auto|]. split; [apply K; auto|]. intros other L1 L2 E F1 F2. unfold image_name in E. rewrite !firstn_all2 in E by (rewrite !app_length; cbn [List.length]; lia). rewrite !map_app in E. repeat apply app_inv_head in E.
  assert (T : forall l, Forall (fun c => c <> 47 /\ c <> 32 /\ c <> 58) l -> map tidy l = l). { induction 1 as [|c l H _ IH]; [reflexivity|]. cbn [map]. rewrite IH. f_equal. unfold tidy. replace (c =? 47) with false by lia. replace (c =? 32) with false by lia. replace (c =? 58) with false by lia. reflexivity. }
  now rewrite !T in E by assumption.
Qed.
End Picture.
Print Assumptions C199_picture_partial.
Print Assumptions C199_refuted_overlay.
Print Assumptions C199_refuted_small_file.
Print Assumptions C199_file_name.

(** The directory of the examples of C139. *)
Example ex_picture : picture_info ex_info (codes "MSG1") (day_text 2005 12 24 11 45 9 (codes ".120")) 3 2.
Proof. destruct ex_image as [? ? ? ? _ _ _ _]. split; assumption. Qed.
Example C199_case : db1_to_image text [] (fun v => v) LE (fun l => l) (fun p w h => p) (fun _ n => n) (fun p o => o) ex_fs (fun _ => None) (codes "/data") (codes "IR_108") (codes "gif") (codes "1") None
    = Ok (Some (codes "MSG1_IR_108_24-12-2005_11-45-09.120.gif", mk_pic 3 2 [259; 0; 1; 3; 2; 1])) /\
  db1_to_image text [] (fun v => v) LE (fun l => l) (fun p w h => p) (fun _ n => n) (fun p o => o) ex_fs (fun p => if str_eqb p (codes "mine.pgm") then Some (mk_pic 3 2 [0; 0; 0; 0; 0; 0]) else None) (codes "/data") (codes "IR_108") (codes "gif") (codes "1") (Some (codes "mine.pgm")) = Terminate.
Proof.
  destruct (C199_picture_partial text [] (fun v => v) LE (fun l => l) (fun p _ _ => p) (fun _ n => n) (fun _ o => o) ex_fs (fun _ => None) _ _ (codes "gif") (codes "1") _ _ _ _ _ _ _ _ _ _ _ _ _ _ ex_directory ex_channel ex_fit ex_picture) as (px & E & _); [vm_compute; discriminate|]. split.
  - rewrite (tool_eq text [] (fun v => v) LE (fun l => l) (fun p _ _ => p) (fun _ n => n) (fun _ o => o) ex_fs (fun _ => None) _ _ (codes "gif") (codes "1") None _ _ _ _ _ _ _ _ _ _ _ _ _ _ ex_directory ex_channel ex_fit ex_picture). vm_compute. reflexivity.
  - apply (C199_refuted_overlay text [] (fun v => v) LE (fun l => l) (fun p _ _ => p) (fun _ n => n) (fun _ o => o) ex_fs _ _ _ (codes "gif") (codes "1") _ _ _ _ _ _ _ _ _ _ _ _ _ _ (codes "mine.pgm") ex_directory ex_channel ex_fit ex_picture); [vm_compute; discriminate|reflexivity].
Qed.
