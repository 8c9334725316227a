(** sscanf(3) with integer fields, as used for dates by the derived datasets and
    by the GRIB driver. *)
From Verif Require Import Base IniModel.
Open Scope list_scope.
Open Scope Z_scope.

(** At most [w] digits. *)
Fixpoint take_digits (w : nat) (s : str) : str :=
  match w, s with
  | S w', c :: s' => if (48 <=? c) && (c <=? 57) then c :: take_digits w' s' else []
  | _, _ => []
  end.
(** %<w>d: blanks are skipped, the sign counts in the width. A value that does
    not fit an int is undefined; here it is just the number. *)
Definition scan_int (w : nat) (s : str) : option (Z * str) :=
  let r := strskp s in
  let '(neg, r', w') := match w, r with
                        | S v, c :: r' => if c =? 45 then (true, r', v) else if c =? 43 then (false, r', v) else (false, r, w)
                        | _, _ => (false, r, w)
                        end in
  match take_digits w' r' with
  | [] => None
  | ds => Some ((if neg : bool then - digits 0 ds else digits 0 ds), skipn (List.length ds) r')
  end.
(** A character of the format: a blank matches any number of blanks. *)
Definition scan_char (c : Z) (s : str) : option str :=
  if c =? 32 then Some (strskp s)
  else match s with d :: s' => if d =? c then Some s' else None | [] => None end.
(** The fields of a format: each a width and the character after it. Some when all
    of them are converted. *)
Fixpoint scan_fields (f : list (nat * option Z)) (s : str) : option (list Z) :=
  match f with
  | [] => Some []
  | (w, after) :: f' =>
      match scan_int w s with
      | None => None
      | Some (v, r) =>
          match f', after with
          | [], _ => Some [v]
          | _, None => match scan_fields f' r with Some l => Some (v :: l) | None => None end
          | _, Some c => match scan_char c r with
                         | None => None
                         | Some r' => match scan_fields f' r' with Some l => Some (v :: l) | None => None end
                         end
          end
      end
  end.
(** "%04d-%02d-%02d %02d:%02d:%02d": reflectance.cpp:62-66, cos_sol_za.cpp:38-42,
    jday.cpp:35-39. *)
Definition iso_format : list (nat * option Z) := [(4%nat, Some 45); (2%nat, Some 45); (2%nat, Some 32); (2%nat, Some 58); (2%nat, Some 58); (2%nat, None)].
Definition scan_iso (s : str) : option (list Z) := scan_fields iso_format s.
(** "%d-%d-%d %d:%d:%d": gdal/grib/grib.cpp setTime. *)
Definition free_format (s : str) : list (nat * option Z) :=
  let w := List.length s in [(w, Some 45); (w, Some 45); (w, Some 32); (w, Some 58); (w, Some 58); (w, None)].
Definition scan_free (s : str) : option (list Z) := scan_fields (free_format s) s.
