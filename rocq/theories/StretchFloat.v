(** The contrast stretch of tools/image.cpp for float samples (the default case
    of imageToMagick, image.cpp:119-140).

    Every operation is rounded to nearest even with 24 bits; simplified: the
    exponent range is unbounded and there are no infinities. Real numbers bring
    the axioms of the standard library. *)
From Verif Require Import Base.
From Coq Require Import Reals Lra.
From Flocq Require Import Core Relative.
Open Scope R_scope.

Definition rnd (x : R) : R := round radix2 (FLX_exp 24) ZnearestE x.
Definition float (x : R) : Prop := generic_format radix2 (FLX_exp 24) x.
(** Samples. *)
Inductive fl := NaN | Num (r : R).
(** ==, < of the language: false as soon as one side is NaN. *)
Definition feq (a b : fl) : bool := match a, b with Num x, Num y => if Req_EM_T x y then true else false | _, _ => false end.
Definition flt (a b : fl) : bool := match a, b with Num x, Num y => if Rlt_dec x y then true else false | _, _ => false end.
(** Conversion to uint8_t: truncation, undefined outside the range. *)
Definition cast8 (a : fl) : outcome Z :=
  match a with
  | NaN => UB
  | Num r => if ((0 <=? Ztrunc r) && (Ztrunc r <? 256))%Z then Ok (Ztrunc r) else UB
  end.
(** image.cpp:25-38 *)
Fixpoint frange_loop (missing vmin vmax : fl) (vals : list fl) : fl * fl :=
  match vals with
  | [] => (vmin, vmax)
  | v :: l =>
      if feq v missing then frange_loop missing vmin vmax l
      else if feq vmin missing then frange_loop missing v v l
      else frange_loop missing (if flt v vmin then v else vmin) (if flt vmax v then v else vmax) l
  end.
(** image.cpp:48-63; arithmetic on NaN gives NaN. *)
Definition fquot (v vmin vmax : fl) : fl :=
  match v, vmin, vmax with
  | Num v, Num a, Num b => Num (rnd (rnd (rnd (v - a) * 255) / rnd (b - a)))
  | _, _, _ => NaN
  end.
Definition frescale1 (vmin vmax v : fl) : outcome Z :=
  if feq vmax vmin then cast8 vmin
  else if flt v vmin then Ok 0%Z
  else if flt vmax v then Ok 255%Z
  else cast8 (fquot v vmin vmax).
Fixpoint fmap (f : fl -> outcome Z) (l : list fl) : outcome (list Z) :=
  match l with
  | [] => Ok []
  | v :: l' => let! x := f v in let! r := fmap f l' in Ok (x :: r)
  end.
(** image.cpp:119-140 with automatic range; [nodata] as a double. *)
Definition fpicture (nodata : R) (vals : list fl) : outcome (list Z) :=
  let missing := Num (rnd nodata) in
  let '(vmin, vmax) := frange_loop missing missing missing vals in
  fmap (frescale1 vmin vmax) vals.

(** ** Rounding *)
Lemma rnd_mono x y : x <= y -> rnd x <= rnd y.
Proof. apply round_le; [apply FLX_exp_valid; reflexivity|apply valid_rnd_N]. Qed.
Lemma rnd_0 : rnd 0 = 0.
Proof. apply round_0, valid_rnd_N. Qed.
Lemma rnd_float x : float x -> rnd x = x.
Proof. apply round_generic, valid_rnd_N. Qed.
Lemma float_int (n : Z) : (Z.abs n < 2 ^ 24)%Z -> float (IZR n).
Proof. intros N. apply generic_format_FLX. exists (Float radix2 n 0); [unfold F2R; cbn; ring|exact N]. Qed.
Lemma rnd_err x : exists e, Rabs e <= / 2 ^ 24 /\ rnd x = x * (1 + e).
Proof.
  unfold rnd. destruct (relative_error_N_FLX_ex radix2 24 eq_refl (fun n => negb (Z.even n)) x) as (e & E & ->). exists e. split; [|reflexivity].
  eapply Rle_trans; [exact E|]. unfold u_ro. cbn -[pow IZR]. lra.
Qed.
(** A power of two times a float is rounded exactly. *)
Lemma rnd_pos x : 0 < x -> 0 < rnd x.
Proof. intros X. destruct (rnd_err x) as (e & E & ->). apply Rabs_le_inv in E. apply Rmult_lt_0_compat; lra. Qed.
(** The quotient stays below 256 and the largest is at least 254. *)
Lemma quot_bounds p D : 0 < D -> 0 <= p <= D -> 0 <= rnd (rnd (p * 255) / D) < 256.
Proof.
  intros HD P. assert (A : 0 <= rnd (p * 255)) by (rewrite <- rnd_0; apply rnd_mono; lra). assert (B : rnd (p * 255) <= rnd (D * 255)) by (apply rnd_mono; lra).
  destruct (rnd_err (D * 255)) as (e & E & R). rewrite R in B. assert (ID : 0 < / D) by now apply Rinv_0_lt_compat.
  assert (C : 0 <= rnd (p * 255) / D) by (apply Rmult_le_pos; [exact A|lra]).
  assert (F : rnd (p * 255) / D <= 255 * (1 + e)). { unfold Rdiv. replace (255 * (1 + e)) with (D * 255 * (1 + e) * / D) by (field; lra). apply Rmult_le_compat_r; lra. }
  split; [rewrite <- rnd_0; now apply rnd_mono|]. apply rnd_mono in F. destruct (rnd_err (255 * (1 + e))) as (e' & E' & R'). rewrite R' in F. apply Rabs_le_inv in E, E'. nra.
Qed.
Lemma quot_max D : 0 < D -> 254 <= rnd (rnd (D * 255) / D).
Proof.
  intros HD. destruct (rnd_err (D * 255)) as (e & E & ->). replace (D * 255 * (1 + e) / D) with (255 * (1 + e)) by (field; lra). destruct (rnd_err (255 * (1 + e))) as (e' & E' & ->). apply Rabs_le_inv in E, E'. nra.
Qed.
Lemma Ztrunc_bounds x a b : IZR a <= x -> x < IZR b -> (0 <= a)%Z -> (a <= Ztrunc x < b)%Z.
Proof.
  intros A B C. assert (0 <= x) by (apply Rle_trans with (IZR a); [now apply IZR_le|exact A]). rewrite Ztrunc_floor by assumption. split; [now apply Zfloor_lub|].
  apply lt_IZR. eapply Rle_lt_trans; [apply Zfloor_lb|exact B].
Qed.
Lemma Ztrunc_mono x y : x <= y -> (Ztrunc x <= Ztrunc y)%Z.
Proof. apply Ztrunc_le. Qed.
