(** * Lists of one-line items (C52) *)
From Verif Require Import Base Common Node Spec SpecTree SpecSame SpecLines SpecParas.

(** A bullet, or digits and a delimiter *)
Inductive mark := Bullet (c : N) | Number (ds : str) (d : N).
Definition mark_text (m : mark) : str := match m with Bullet c => [c] | Number ds d => ds ++ [d] end.
Definition digit (c : N) : Prop := (48 <= c <= 57)%N.
Definition mark_ok (m : mark) : Prop :=
  match m with
  | Bullet c => In c (u "*+-")
  | Number ds d => 1 <= length ds <= 9 /\ Forall digit ds /\ (d = 46%N \/ d = 41%N)
  end.
(** Two marks are of one kind if they have the same bullet, or the same delimiter; the digits do
    not matter *)
Definition same_kind (m m' : mark) : bool :=
  match m, m' with
  | Bullet c, Bullet c' => N.eqb c c'
  | Number _ d, Number _ d' => N.eqb d d'
  | _, _ => false
  end.

(** An item: at most one space, the mark, some spaces, words without markup, and the blank lines
    that follow *)
Record li := LI { li_indent : nat; li_mark : mark; li_gap : nat; li_words : str; li_blanks : list str }.
Definition li_ok (i : li) : Prop :=
  li_indent i <= 1 /\ mark_ok (li_mark i) /\ 1 <= li_gap i <= 4 /\
  words_ok (li_words i) /\ (forall c, hd_error (li_words i) = Some c -> ~ block_char c) /\ ~ list_number (li_words i) /\
  Forall blanks (li_blanks i).
Definition li_line (i : li) : str := repeat 32%N (li_indent i) ++ mark_text (li_mark i) ++ repeat 32%N (li_gap i) ++ li_words i.
Definition li_text (i : li) : str := li_line i ++ [10%N] ++ flat_map (fun b => b ++ [10%N]) (li_blanks i).

(** The longest runs of items with marks of one kind *)
Fixpoint runs (l : list li) : list (list li) :=
  match l with
  | [] => []
  | i :: l' =>
      match runs l' with
      | (j :: r) :: rs => if same_kind (li_mark i) (li_mark j) then (i :: j :: r) :: rs else [i] :: (j :: r) :: rs
      | rs => [i] :: rs
      end
  end.

(** A run is loose if there is a blank line between two of its items *)
Definition loose (run : list li) : bool := existsb (fun i => negb (is_nil (li_blanks i))) (removelast run).

(** The number a list starts with, printed without leading zeros *)
Fixpoint no_zeros (ds : str) : str :=
  match ds with
  | [] => []
  | [c] => [c]
  | c :: ds' => if N.eqb c 48 then no_zeros ds' else ds
  end.
Definition open_tag (m : mark) : str :=
  match m with
  | Bullet _ => u "<ul>"
  | Number ds _ =>
      if str_eqb (no_zeros ds) (u "1") then u "<ol>"
      else u "<ol start=" ++ [34%N] ++ no_zeros ds ++ [34%N] ++ u ">"
  end.
Definition close_tag (m : mark) : str := match m with Bullet _ => u "</ul>" | Number _ _ => u "</ol>" end.
Definition li_html (loose : bool) (i : li) : str :=
  (if loose then u "<li>" ++ [10%N] ++ u "<p>" ++ html_text (li_words i) ++ u "</p>" ++ [10%N] ++ u "</li>"
   else u "<li>" ++ html_text (li_words i) ++ u "</li>") ++ [10%N].
(** A run is a list; its first mark says which *)
Definition run_html (run : list li) : str :=
  match run with
  | [] => []
  | i :: _ => open_tag (li_mark i) ++ [10%N] ++ flat_map (li_html (loose run)) run ++ close_tag (li_mark i) ++ [10%N]
  end.
