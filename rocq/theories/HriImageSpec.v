(** What the HRI image store, the key table and the ASCII numbers should be. *)
From Verif Require Import Base HriImageModel.
From Coq Require Import QArith.
#[local] Open Scope Z_scope.

(** ** Dimensions (pixels per line, lines) of the disseminated images. *)
Definition dims (f : hformat) (b : hband) : option (Z * Z) :=
  match f, b with
  | A_FORMAT, VIS_BAND => Some (5000, 5000)
  | A_FORMAT, _ => Some (2500, 2500)
  | B_FORMAT, VIS_BAND => Some (2500, 1250)
  | B_FORMAT, VH_BAND => None
  | B_FORMAT, _ => Some (1250, 625)
  | X_FORMAT, VIS_BAND => None
  | X_FORMAT, _ => Some (1250, 1250)
  end.

(** ** Histories of line writes, oldest first: the last content of line [l]. *)
Fixpoint latest (h : list (Z * list Z)) (l : Z) : option (list Z) :=
  match h with
  | [] => None
  | (k, c) :: h' => match latest h' l with
                    | Some x => Some x
                    | None => if k =? l then Some c else None
                    end
  end.
(** Histories of line and half line writes: what the last write touching pixel
    [p] of line [l] put there. [second] is the first pixel of second halves. *)
Inductive write := Whole (l : Z) (c : list Z) | Half (l : Z) (c : list Z) (first : bool).
Definition puts (half second : Z) (w : write) (l p : Z) : option Z :=
  match w with
  | Whole k c => if k =? l then Some (nth (Z.to_nat p) c 0) else None
  | Half k c first =>
      let a := if first then 0 else second in
      if (k =? l) && (a <=? p) && (p <? a + half) then Some (nth (Z.to_nat (p - a)) c 0) else None
  end.
Fixpoint last_put (half second : Z) (h : list write) (l p : Z) : option Z :=
  match h with
  | [] => None
  | w :: h' => match last_put half second h' l p with
               | Some v => Some v
               | None => puts half second w l p
               end
  end.

(** The calls that perform a history. *)
Fixpoint put_lines (im : image) (h : list (Z * list Z)) : outcome image :=
  match h with
  | [] => Ok im
  | (k, c) :: h' => let! im := put_line im c (npixels im) k in put_lines im h'
  end.
Fixpoint put_all (im : image) (h : list write) : outcome image :=
  match h with
  | [] => Ok im
  | Whole k c :: h' => let! im := put_line im c (npixels im) k in put_all im h'
  | Half k c first :: h' => let! im := put_halfline im c (halflin im) k first in put_all im h'
  end.
Definition fits (np half nl : Z) (w : write) : Prop :=
  match w with
  | Whole k c => 0 <= k < nl /\ np <= Z.of_nat (List.length c)
  | Half k c _ => 0 <= k < nl /\ half <= Z.of_nat (List.length c)
  end.

(** ** Keys: a table of 120 slots, a used one holding key number, station and
    8 bytes of key. A station number below 4096 is stored as its quotient and
    rest by 16. *)
Definition entry := option (Z * Z * list Z).
Definition entry_ok (e : entry) : Prop :=
  match e with
  | None => True
  | Some (k, s, m) => 0 <= k < 256 /\ 0 <= s < 4096 /\ bytes_ok m /\ List.length m = 8%nat
  end.
Definition entry_bytes (e : entry) : list Z :=
  match e with
  | None => repeat 0 12
  | Some (k, s, m) => [1; k; s / 16; s mod 16] ++ m
  end.
Definition table_bytes (t : list entry) : list Z := List.concat (map entry_bytes t).
Definition is_first {A} (P : A -> Prop) (l : list A) (a : A) : Prop :=
  exists l1 l2, l = l1 ++ a :: l2 /\ P a /\ Forall (fun x => ~ P x) l1.

(** ** Decimal numbers written with digits and blanks. *)
Definition digit_or_blank (b : Z) : Prop := b = 32 \/ 48 <= b <= 57.
Definition digit (b : Z) : Z := if b =? 32 then 0 else b - 48.
Fixpoint decimal (l : list Z) : Z :=
  match l with
  | [] => 0
  | b :: l' => digit b * 10 ^ Z.of_nat (List.length l') + decimal l'
  end.
(** ... with [n] of them after the decimal point. *)
Definition decimals (l : list Z) (n : nat) : Q := (inject_Z (decimal l) / inject_Z (10 ^ Z.of_nat n))%Q.
