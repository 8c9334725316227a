(** msat/hrit/MSG_data_NavigExtrResult.cpp: the navigation extraction result of the level 1.5
    trailer, read and listed. As in DescListModel, fields of one kind that follow each other are
    lists, a float is the number of its eight bytes and an enumeration a number. *)
From Verif Require Import Base IniModel MachineModel GribModel CodeTextModel MsgModel HeadListModel ProdListModel.
Open Scope string_scope.
Open Scope list_scope.
Open Scope Z_scope.

Definition read_r8s (h : host) (b : list Z) (off n : nat) : outcome (list Z) := each (fun i => rd_ui h b (off + i * 8)%nat 8) 0 n.
(** An observation: an identifier, floats, a time, floats. *)
Record observation := mk_observation { ob_id : Z; ob_first : list Z; ob_time : cds_short * Z; ob_rest : list Z }.
(** MSG_data_NavigExtrResult.cpp:58-70 *)
Definition read_horizon (h : host) (b : list Z) (off : nat) : outcome observation :=
  let! i := rd1 b off in let! f := read_r8s h b (off + 1) 4 in let! t := read_cds h b (off + 33) in let! r := read_r8s h b (off + 41) 3 in Ok (mk_observation i f t r).
(** MSG_data_NavigExtrResult.cpp:87-99 *)
Definition read_star (h : host) (b : list Z) (off : nat) : outcome observation :=
  let! i := rd_ui h b off 2 in let! f := read_r8s h b (off + 2) 4 in let! t := read_cds h b (off + 34) in let! r := read_r8s h b (off + 42) 3 in Ok (mk_observation i f t r).
(** MSG_data_NavigExtrResult.cpp:117-131. The spin rate is read from byte 60, although the time
    ends before byte 58. *)
Definition read_landmark (h : host) (b : list Z) (off : nat) : outcome observation :=
  let! i := rd_ui h b off 2 in let! f := read_r8s h b (off + 2) 6 in let! t := read_cds h b (off + 50) in
  let! spin := rd_ui h b (off + 60) 8 in let! r := read_r8s h b (off + 66) 2 in Ok (mk_observation i f t (spin :: r)).
(** MSG_data_NavigExtrResult.cpp:159-170 *)
Record navigation := mk_navigation { na_horizons : list observation; na_stars : list observation; na_landmarks : list observation }.
Definition read_navigation (h : host) (b : list Z) : outcome navigation :=
  let! o := each (fun i => read_horizon h b (i * 65)%nat) 0 4 in let! s := each (fun i => read_star h b (260 + i * 66)%nat) 0 20 in let! l := each (fun i => read_landmark h b (1580 + i * 82)%nat) 0 50 in
  Ok (mk_navigation o s l).

Section Real.
(** A float, printed. *)
Variable real : Z -> str.
(** What the three operators << have in common; the text of a time may throw. *)
Definition observed (names : list string) (o : observation) : outcome str :=
  let! t := timestring_us (fst (ob_time o)) (snd (ob_time o)) in
  Ok (fields names real (ob_first o) ++ field "Observation Time    : " t ++ fields ["Spin Rate           : "; "Alpha Deviation     : "; "Beta Deviation      : "] real (ob_rest o)).
Definition angles : list string := ["Alpha               : "; "Alpha Confidence    : "; "Beta                : "; "Beta Confidence     : "].
(** MSG_data_NavigExtrResult.cpp:72-85 *)
Definition horizon_text (o : observation) : outcome str := let! t := observed angles o in Ok (field "Horizon Id          : " (codes (text_of MSG_horizon_id (ob_id o))) ++ t).
(** MSG_data_NavigExtrResult.cpp:101-115 *)
Definition star_text (o : observation) : outcome str := if ob_id o =? 0 then Ok [] else let! t := observed angles o in Ok (field "Star Id             : " (print (ob_id o)) ++ t).
(** MSG_data_NavigExtrResult.cpp:133-149 *)
Definition landmark_text (o : observation) : outcome str :=
  if ob_id o =? 0 then Ok [] else
  let! t := observed ("Longitude           : " :: "Latitude            : " :: angles) o in Ok (field "Landmark Id         : " (print (ob_id o)) ++ t).
Fixpoint texts (f : observation -> outcome str) (l : list observation) : outcome str :=
  match l with [] => Ok [] | o :: l' => let! t := f o in let! r := texts f l' in Ok (t ++ r) end.
(** MSG_data_NavigExtrResult.cpp:172-185 *)
Definition navigation_text (n : navigation) : outcome str :=
  let! o := texts horizon_text (na_horizons n) in let! s := texts star_text (na_stars n) in let! l := texts landmark_text (na_landmarks n) in
  Ok (title "-         MSG NAVIGATION EXTRACTION RESULT           -" ++ o ++ s ++ l).
End Real.
