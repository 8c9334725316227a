(** C218: slope and offset of the channels. *)
From Coq Require Import Reals Lra.
From Verif Require Import Base BaseFacts CalibModel CalibSpec CalibProofs CalibProps.
Open Scope list_scope.
Open Scope Z_scope.

(** The solar channels: the line through the radiances of the counts. *)
Theorem C218_radiance_partial cal ch : List.length cal = 12%nat -> 1 <= ch <= 12 -> thermal ch = None ->
  exists s o, slope_offset cal ch = Ok (s, o, true) /\ forall i, (IZR i * s + o = radiance cal ch i)%R.
Proof.
  intros L C T. assert (C1 : is_cold ch = false).
  { unfold is_cold. assert (D : ch = 1 \/ ch = 2 \/ ch = 3 \/ ch = 4 \/ ch = 5 \/ ch = 6 \/ ch = 7 \/ ch = 8 \/ ch = 9 \/ ch = 10 \/ ch = 11 \/ ch = 12) by lia.
    repeat (destruct D as [D|D]; [subst ch; discriminate T || reflexivity|]). now subst. }
  unfold slope_offset. rewrite C1, cal_at by assumption. cbn [bind]. eexists. eexists. split; [reflexivity|]. reflexivity.
Qed.
Print Assumptions C218_radiance_partial.
(** The thermal ones: not the line that gives the brightness temperature [x] of a body
    that radiates as one of a * x + b degrees, but one that is off by the same amount
    everywhere. *)
Theorem C218_refuted_thermal cal ch nu a b : thermal ch = Some (nu, a, b) ->
  exists s o, slope_offset cal ch = Ok (s, o, false) /\ forall x, ((a * x + b) * s + o = x + (b / a - b))%R /\ (0 < b / a - b < 15 / 1000)%R.
Proof.
  intros T. assert (G : at_ cold_A (ch - 4) = a -> at_ cold_B (ch - 4) = b -> is_cold ch = true -> (0 < a)%R -> (0 < b / a - b < 15 / 1000)%R ->
    exists s o, slope_offset cal ch = Ok (s, o, false) /\ forall x, ((a * x + b) * s + o = x + (b / a - b))%R /\ (0 < b / a - b < 15 / 1000)%R).
  { intros EA EB C P Q. unfold slope_offset. rewrite C, EA, EB. eexists. eexists. split; [reflexivity|]. intros x. split; [field; lra|exact Q]. }
  unfold thermal in T. destruct ch as [|p|p]; try discriminate;
  do 4 (try (destruct p as [p|p|]; try discriminate)); injection T as <- <- <-;
  (apply G; [cbv -[IZR Rdiv]; lra|cbv -[IZR Rdiv]; lra|reflexivity|lra|lra]).
Qed.
Print Assumptions C218_refuted_thermal.
(** Channels there are none of are not refused. *)
Theorem C218_refuted_channels cal ch : List.length cal = 12%nat -> ch < 1 \/ 12 < ch -> slope_offset cal ch = UB.
Proof.
  intros L C. unfold slope_offset. replace (is_cold ch) with false by (unfold is_cold; lia).
  unfold calibration_of. destruct (Z.ltb_spec ch 1); [reflexivity|].
  replace (nth_error cal (Z.to_nat (ch - 1))) with (@None (R * R)); [reflexivity|]. symmetry. apply nth_error_None. lia.
Qed.
Print Assumptions C218_refuted_channels.
Example C218_case : List.length sample_cal = 12%nat /\ thermal 1 = None /\ (exists nu a b, thermal 9 = Some (nu, a, b)) /\ slope_offset sample_cal 13 = UB.
Proof. split; [reflexivity|]. split; [reflexivity|]. split; [repeat eexists|]. apply C218_refuted_channels; [reflexivity|lia]. Qed.
