(** What a ThornSDS DB1 directory says, from the texts of its files. *)
From Verif Require Import Base IniSpec.
Open Scope string_scope.
Open Scope list_scope.
Open Scope Z_scope.

(** A well formed configuration file in which no section is called like an entry. *)
Definition tidy_doc (doc : list item) : Prop :=
  Forall good_item doc /\ Forall (fun i => match i with Section_ _ n _ => ~ In 58 n | _ => True end) doc.
(** The text under a key, or else a default. Keys in lower case. *)
Definition text_in (doc : list item) (key def : text) : text :=
  match content nothing (assigns [] doc) key with Some (Some v) => v | _ => def end.

(** Decimal numbers. *)
Definition digit (c : Z) : Prop := 48 <= c <= 57.
Definition dec_val (t : text) : Z := fold_left (fun a c => 10 * a + (c - 48)) t 0.
Definition is_number (t : text) (n : Z) : Prop :=
  exists ds, ds <> [] /\ Forall digit ds /\ (t = ds /\ n = dec_val ds \/ t = 45 :: ds /\ n = - dec_val ds).
(** The usual way to write a number that is not negative. *)
Definition plain_number (t : text) (n : Z) : Prop :=
  t <> [] /\ Forall digit t /\ n = dec_val t /\ (t = [48] \/ ~ starts_with 48 t).

(** The names of the channels of a directory, by number. *)
Definition channel_key (t : text) (k : string) : text := codes "channel" ++ t ++ [58] ++ codes k.
Definition num12 (k : Z) (t : text) : Prop := 1 <= k <= 12 /\ plain_number t k.
Definition channel_is (info : list item) (k : Z) (ch : text) : Prop :=
  forall t, num12 k t -> firstn 6 (text_in info (channel_key t "name") (codes "Undefined")) = firstn 6 ch.
Definition channel_number (info : list item) (k : Z) (ch : text) : Prop :=
  1 <= k <= 12 /\ channel_is info k ch /\ forall j, 1 <= j < k -> ~ channel_is info j ch.
(** The letter in the calibration keys: temperatures, radiances of the first three
    channels, other radiances, anything else. *)
Definition solar (name : text) : Prop := Exists (fun n => firstn 6 name = codes n) ["VIS006"; "VIS008"; "IR_016"].
Definition infrared (name : text) : Prop :=
  Exists (fun n => firstn 6 name = codes n) ["IR_039"; "WV_062"; "WV_073"; "IR_087"; "IR_097"; "IR_108"; "IR_120"; "IR_134"; "HRV"].
Definition letter_of (variable name : text) (l : string) : Prop :=
  starts_with 84 variable /\ l = "T" \/
  starts_with 82 variable /\ solar name /\ l = "V" \/
  starts_with 82 variable /\ infrared name /\ l = "N" \/
  ~ starts_with 84 variable /\ ~ starts_with 82 variable /\ l = "U".
(** variable:letter(count) *)
Definition cal_key (variable : text) (letter : string) (count : text) : text :=
  map lower (variable ++ [58] ++ codes letter ++ [40] ++ count ++ [41]).
