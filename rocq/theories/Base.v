(** Shared definitions: outcomes of C/C++ calls, byte strings, lists. *)
From Coq Require Export List ZArith NArith Lia Bool Arith.
From Coq Require Export ZifyBool ZifyNat ZifyN.
From Coq Require Export Ascii String.
Export ListNotations.
#[global] Open Scope list_scope.
#[global] Open Scope Z_scope.

(** Outcome of running a C/C++ function.
    - [Ok v]      : normal return;
    - [Throw]     : a C++ exception object was thrown (catchable);
    - [Terminate] : std::terminate/abort, in particular a bare [throw;] with no
                    exception in flight, the error idiom of hrit/hri/openmtp;
    - [UB]        : undefined behaviour (out-of-bounds, null, overflow, dangling);
    - [Loop]      : the call provably never returns. *)
Inductive outcome (A : Type) : Type :=
| Ok (a : A)
| Throw
| Terminate
| UB
| Loop.
Arguments Ok {A} a.
Arguments Throw {A}.
Arguments Terminate {A}.
Arguments UB {A}.
Arguments Loop {A}.

Definition bind {A B} (m : outcome A) (f : A -> outcome B) : outcome B :=
  match m with
  | Ok a => f a
  | Throw => Throw
  | Terminate => Terminate
  | UB => UB
  | Loop => Loop
  end.
Notation "'let!' x ':=' m 'in' k" := (bind m (fun x => k))
  (at level 200, x pattern, m at level 100, k at level 200).

Definition is_ok {A} (m : outcome A) : bool :=
  match m with Ok _ => true | _ => false end.

(** An outcome a caller can survive or at least observe: neither undefined
    behaviour nor divergence. *)
Definition defined {A} (m : outcome A) : bool :=
  match m with UB | Loop => false | _ => true end.

(** Bytes: integers 0..255. *)
Definition is_byte (z : Z) : Prop := 0 <= z < 256.
Definition bytes_ok (l : list Z) : Prop := Forall is_byte l.

(** Reading [n] bytes of an array at offset [off]; outside the array: UB. *)
Definition bytes_at (b : list Z) (off n : nat) : outcome (list Z) :=
  if (off + n <=? List.length b)%nat then Ok (firstn n (skipn off b)) else UB.

(** Specification-side big-endian value and encoding of a byte string. *)
Fixpoint be_val (l : list Z) : Z :=
  match l with
  | [] => 0
  | b :: l' => b * 256 ^ Z.of_nat (List.length l') + be_val l'
  end.
Fixpoint be (n : nat) (v : Z) : list Z :=
  match n with
  | O => []
  | S m => (v / 256 ^ Z.of_nat m) mod 256 :: be m v
  end.

(** Two's complement reading of an unsigned [bits]-bit value. *)
Definition to_signed (bits v : Z) : Z :=
  if v <? 2 ^ (bits - 1) then v else v - 2 ^ bits.

(** List update. *)
Fixpoint set_nth {A} (l : list A) (i : nat) (x : A) : list A :=
  match l, i with
  | [], _ => []
  | _ :: l', O => x :: l'
  | a :: l', S i' => a :: set_nth l' i' x
  end.

(** Prefix of a C string: the bytes before the first NUL, [None] if the array
    holds no NUL. *)
Fixpoint upto_nul (l : list Z) : option (list Z) :=
  match l with
  | [] => None
  | b :: l' => if b =? 0 then Some [] else option_map (cons b) (upto_nul l')
  end.

(** ASCII codes of a literal. *)
Fixpoint codes (s : string) : list Z :=
  match s with
  | EmptyString => []
  | String a s' => Z.of_N (N_of_ascii a) :: codes s'
  end.
