(** msat/utils/term.cc: coloured output on a terminal. *)
From Verif Require Import Base BaseFacts IniModel GribModel.
Open Scope string_scope.
Open Scope list_scope.
Open Scope Z_scope.

(** The constants of lines 9-18: colours 1 to 8, bright = 16, mask 15. *)
Definition bright : Z := 16.
Definition color_mask : Z := 15.
(** SGR, lines 50-86: the codes appended so far, in order; append and end write
    them separated by ";" between "ESC [" and "m". *)
Definition set_fg (col : Z) : list Z :=
  (if Z.land col bright =? 0 then [] else [1]) ++ (if Z.land col color_mask =? 0 then [] else [29 + Z.land col color_mask]).
Definition set_bg (col : Z) : list Z :=
  if negb (Z.land col bright =? 0) && negb (Z.land col color_mask =? 0) then [99 + Z.land col color_mask]
  else if negb (Z.land col color_mask =? 0) then [89 + Z.land col color_mask] else [].
Fixpoint joined (l : list Z) : str :=
  match l with [] => [] | [x] => print x | x :: l' => print x ++ 59 :: joined l' end.
Definition sequence (fg bg : Z) : str :=
  [27; 91] ++ joined ((if fg =? 0 then [] else set_fg fg) ++ (if bg =? 0 then [] else set_bg bg)) ++ [109].
Definition reset : str := [27; 91; 48; 109].
(** Terminal::set_color, lines 90-101, and Restore::~Restore, lines 25-29: what is
    written to the stream. *)
Definition set_color (isatty : bool) (fg bg : Z) : str := if isatty then sequence fg bg else [].
Definition restore (isatty : bool) : str := if isatty then reset else [].
(** Terminal::color, lines 113-125 *)
Definition color (isatty : bool) (fg bg : Z) (s : str) : str := if isatty then sequence fg bg ++ s ++ reset else s.
(** set_color_fg, set_color_bg, color_fg, color_bg, lines 103-111, 127-135 *)
Definition color_fg (isatty : bool) (col : Z) (s : str) : str := color isatty col 0 s.
Definition color_bg (isatty : bool) (col : Z) (s : str) : str := color isatty 0 col s.
(** The constructor, lines 32-46: [fd] is what fileno gives, [res] what isatty gives
    and [err] the value of errno after it (22 is EINVAL, 25 is ENOTTY). *)
Definition terminal (fd res err : Z) : outcome bool :=
  if fd =? -1 then Ok false
  else if res =? 1 then Ok true
  else if (err =? 22) || (err =? 25) then Ok false else Throw.
