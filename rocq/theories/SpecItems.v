(** * Blocks indented under a list item (C55) *)
From Verif Require Import Base Common Node Spec SpecTree SpecSame SpecLines SpecParas SpecLists.

(** How far the text of an item is from the left margin: its indentation, its mark and the spaces
    behind the mark *)
Definition li_width (i : li) : nat := li_indent i + (length (mark_text (li_mark i)) + li_gap i).

(** The line with [n] spaces before it; an empty line may have any number of spaces instead *)
Definition indented (n : nat) (l l' : str) : Prop :=
  l' = repeat 32%N n ++ l \/ (l = [] /\ exists j, l' = repeat 32%N j).
(** [t] is [s] with all its lines indented by [n] *)
Definition indented_text (n : nat) (s t : str) : Prop := Forall2 (indented n) (text_lines s) (text_lines t).
(** no tabs, and no spaces in otherwise empty lines *)
Definition plain_spaces (s : str) : Prop :=
  ~ In 9%N s /\ forall l, In l (text_lines s) -> (forall c, In c l -> c = 32%N) -> l = [].

(** lines [m] further down, columns [n] further right; the last column of a block that ends with
    an empty line is not compared *)
Definition moved (m n : nat) (sp sp' : nat * nat * (nat * nat)) : Prop :=
  let '(l, c, (el, ec)) := sp in
  let '(l', c', (el', ec')) := sp' in
  l' = l + m /\ c' = c + n /\ el' = el + m /\ (ec' = ec + n \/ ec = 0).
(** The same tree up to a flag which the block parser leaves on the blocks it looked at when it
    decided if a list is tight *)
Inductive same_unflagged : tree -> tree -> Prop :=
| su_node d k b k' : Forall2 same_unflagged k k' -> same_unflagged (T d k) (T (set_n_last_line_checked b d) k').
(** the blocks of [k] and [k'] *)
Definition moved_blocks (m n : nat) (k k' : list tree) : Prop :=
  exists k1, Forall2 (same_blocks (moved m n)) k k1 /\ Forall2 same_unflagged k1 k'.

(** The HTML of a list of one item: its first paragraph and, if there are any, more blocks, whose
    HTML is [h] *)
Definition item_html (i : li) (h : str) : str :=
  open_tag (li_mark i) ++ [10%N] ++
  (if is_nil h then u "<li>" ++ html_text (li_words i) ++ u "</li>"
   else u "<li>" ++ [10%N] ++ u "<p>" ++ html_text (li_words i) ++ u "</p>" ++ [10%N] ++ h ++ u "</li>") ++ [10%N] ++
  close_tag (li_mark i) ++ [10%N].
