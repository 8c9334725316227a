(** C178: colours on a terminal. *)
From Verif Require Import Base BaseFacts IniModel GribModel TermModel.
Open Scope string_scope.
Open Scope list_scope.
Open Scope Z_scope.

(** ** Specification: a terminal that understands ECMA-48 "select graphic
    rendition" with the usual bright colours.  Colours are numbered 0 (black) to 7
    (white); the boolean tells whether the colour is bright. *)
Record style := mk_style { bold : bool; fore : option (Z * bool); back : option (Z * bool) }.
Definition plain : style := mk_style false None None.
Definition rendition (s : style) (n : Z) : style :=
  if n =? 0 then plain
  else if n =? 1 then mk_style true (fore s) (back s)
  else if (30 <=? n) && (n <=? 37) then mk_style (bold s) (Some (n - 30, false)) (back s)
  else if (40 <=? n) && (n <=? 47) then mk_style (bold s) (fore s) (Some (n - 40, false))
  else if (90 <=? n) && (n <=? 97) then mk_style (bold s) (Some (n - 90, true)) (back s)
  else if (100 <=? n) && (n <=? 107) then mk_style (bold s) (fore s) (Some (n - 100, true))
  else s.
Inductive mode := Text | Escape | Numbers (before : list Z) (current : Z).
(** Every character shown, with its style, and the state at the end. *)
Fixpoint display (m : mode) (s : style) (t : str) : list (Z * style) * mode * style :=
  match t with
  | [] => ([], m, s)
  | c :: t' =>
      match m with
      | Text => if c =? 27 then display Escape s t'
                else let '(l, m', s') := display Text s t' in ((c, s) :: l, m', s')
      | Escape => display (if c =? 91 then Numbers [] 0 else Text) s t'
      | Numbers b n =>
          if (48 <=? c) && (c <=? 57) then display (Numbers b (10 * n + (c - 48))) s t'
          else if c =? 59 then display (Numbers (b ++ [n]) 0) s t'
          else if c =? 109 then display Text (fold_left rendition (b ++ [n]) s) t'
          else display Text s t'
      end
  end.
(** What the constants ask for. *)
Definition colour_of (col : Z) (c : option Z) (br : bool) : Prop :=
  match c with None => col = (if br then 16 else 0) | Some k => 0 <= k <= 7 /\ col = k + 1 + (if br then 16 else 0) end.
Definition with_bright (c : option Z) (br : bool) : option (Z * bool) := match c with None => None | Some k => Some (k, br) end.

Lemma display_app : forall t u m s, display m s (t ++ u) =
  let '(l, m', s') := display m s t in let '(l', m'', s'') := display m' s' u in (l ++ l', m'', s'').
Proof.
  induction t as [|c t IH]; intros u m s; cbn [app display]; [now destruct (display m s u) as [[? ?] ?]|].
  destruct m; [destruct (c =? 27)| |].
  - apply IH.
  - rewrite IH. destruct (display Text s t) as [[l m'] s'], (display m' s' u) as [[l' m''] s'']. reflexivity.
  - apply IH.
  - destruct ((48 <=? c) && (c <=? 57)); [apply IH|]. destruct (c =? 59); [apply IH|]. destruct (c =? 109); apply IH.
Qed.
Lemma display_text s : forall t, ~ In 27 t -> display Text s t = (map (fun c => (c, s)) t, Text, s).
Proof.
  induction t as [|c t IH]; intros N; [reflexivity|]. cbn [display map]. destruct (Z.eqb_spec c 27) as [->|_]; [exfalso; apply N; now left|].
  rewrite IH by (intros I; apply N; now right). reflexivity.
Qed.
Lemma display_reset s : display Text s reset = ([], Text, plain).
Proof. reflexivity. Qed.
Definition numbers8 : list Z := [0; 1; 2; 3; 4; 5; 6; 7].
Lemma in8 k : 0 <= k <= 7 -> In k numbers8.
Proof. intros R. assert (X : k = 0 \/ k = 1 \/ k = 2 \/ k = 3 \/ k = 4 \/ k = 5 \/ k = 6 \/ k = 7) by lia. destruct X as [->|[->|[->|[->|[->|[->|[-> | -> ]]]]]]]; cbn; tauto. Qed.
Definition fore_style (c : option Z) (br : bool) : style := mk_style br (with_bright c false) None.
Definition fcol (c : option Z) (br : bool) : Z := match c with None => if br then 16 else 0 | Some k => k + 1 + (if br then 16 else 0) end.
Definition choices : list (option Z) := None :: map Some numbers8.
Lemma in_choices c col br : colour_of col c br -> In c choices /\ col = fcol c br.
Proof. destruct c as [k|]; cbn [colour_of fcol]; [intros [R ->]; split; [right; apply in_map, in8, R|reflexivity]|intros ->; split; [now left|reflexivity]]. Qed.
Lemma sequence_display : Forall (fun f => Forall (fun b => forall fb bb : bool, bb = true \/ b = None ->
  display Text plain (sequence (fcol f fb) (fcol b bb)) = ([], Text, mk_style fb (with_bright f false) (with_bright b true))) choices) choices.
Proof. unfold choices, numbers8. cbn [map]. repeat constructor; intros [] [] [Q|Q]; try discriminate; reflexivity. Qed.
(** On a terminal, the text is shown in the colour asked for - bright as bold - and
    on the bright background asked for, and the terminal is left plain. *)
Theorem C178_colours_partial : forall fg f fb bg b bb s, colour_of fg f fb -> colour_of bg b bb -> bb = true \/ b = None -> ~ In 27 s ->
  display Text plain (color true fg bg s) = (map (fun c => (c, mk_style fb (with_bright f false) (with_bright b true))) s, Text, plain) /\
  set_color true fg bg ++ s ++ restore true = color true fg bg s.
Proof.
  intros fg f fb bg b bb s F B Q N. split; [|reflexivity]. destruct (in_choices _ _ _ F) as [If ->], (in_choices _ _ _ B) as [Ib ->].
  unfold color. rewrite display_app. pose proof (proj1 (Forall_forall _ _) sequence_display f If) as X. pose proof (proj1 (Forall_forall _ _) X b Ib fb bb Q) as Y. cbv beta in Y. rewrite Y.
  rewrite display_app, display_text by exact N. rewrite display_reset, app_nil_r. reflexivity.
Qed.
Print Assumptions C178_colours_partial.
Example C178_case : display Text plain (color true 18 21 [72; 105]) = ([(72, mk_style true (Some (1, false)) (Some (4, true))); (105, mk_style true (Some (1, false)) (Some (4, true)))], Text, plain)
  /\ colour_of 18 (Some 1) true /\ colour_of 21 (Some 4) true.
Proof. unfold colour_of. repeat split; lia. Qed.
(** A background colour that is not bright is not shown: it becomes the colour of
    the text, whatever colour was asked for the text. *)
Lemma sequence_display_bg : Forall (fun f => Forall (fun k => forall fb : bool,
  display Text plain (sequence (fcol f fb) (k + 1)) = ([], Text, mk_style fb (Some (k, true)) None)) numbers8) choices.
Proof. unfold choices, numbers8. cbn [map]. repeat constructor; intros []; reflexivity. Qed.
Theorem C178_refuted_background : forall fg f fb bg k s, colour_of fg f fb -> colour_of bg (Some k) false -> ~ In 27 s ->
  display Text plain (color true fg bg s) = (map (fun c => (c, mk_style fb (Some (k, true)) None)) s, Text, plain).
Proof.
  intros fg f fb bg k s F [R ->] N. destruct (in_choices _ _ _ F) as [If ->]. rewrite Z.add_0_r.
  unfold color. rewrite display_app. pose proof (proj1 (Forall_forall _ _) sequence_display_bg f If) as X. pose proof (proj1 (Forall_forall _ _) X k (in8 _ R) fb) as Y. cbv beta in Y. rewrite Y.
  rewrite display_app, display_text by exact N. rewrite display_reset, app_nil_r. reflexivity.
Qed.
Print Assumptions C178_refuted_background.
(** Anything that is not a terminal gets the text alone, for all arguments. *)
Theorem C178_not_a_terminal : forall fg bg s, color false fg bg s = s /\ color_fg false fg s = s /\ color_bg false bg s = s /\
  set_color false fg bg ++ s ++ restore false = s.
Proof. intros fg bg s. cbn. rewrite app_nil_r. now repeat split. Qed.
Print Assumptions C178_not_a_terminal.
