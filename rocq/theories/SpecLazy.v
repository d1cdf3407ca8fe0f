(** * Vocabulary for C61: lines that continue a paragraph *)
From Verif Require Import Base Common Node Main Spec SpecTree.

(** the text made of some lines *)
Definition lines_text (ls : list str) : str := flat_map (fun l => l ++ [10%N]) ls.
(** a paragraph of that text reaches to its last line *)
Definition ends_open (smart : bool) (ls : list str) : Prop :=
  exists t d, parse_doc smart (lines_text ls) = Ok t /\ In d (nodes t) /\ n_t d = paragraph /\ last_line d = length ls.
(** a line whose first character that is not a space cannot begin a block *)
Definition plain_start (x : str) : Prop := exists c r, x = c :: r /\ ~ In c (u " #`~*+_=<>-0123456789").

(** [lazy_lines smart ls qs]: [qs] are the lines [ls] with a quote mark put before each, except that
    before a plain line that comes after an open paragraph there may be any number of spaces, and no
    mark *)
Inductive lazy_lines (smart : bool) : list str -> list str -> Prop :=
| lazy_none : lazy_lines smart [] []
| lazy_mark ls qs l : lazy_lines smart ls qs -> lazy_lines smart (ls ++ [l]) (qs ++ [u "> " ++ l])
| lazy_text ls qs x m n : lazy_lines smart ls qs -> ends_open smart ls -> plain_start x ->
    lazy_lines smart (ls ++ [repeat 32%N m ++ x]) (qs ++ [repeat 32%N n ++ x]).
(** [moved_lines smart ls qs]: only the number of spaces before such lines differs *)
Inductive moved_lines (smart : bool) : list str -> list str -> Prop :=
| moved_none : moved_lines smart [] []
| moved_same ls qs l : moved_lines smart ls qs -> moved_lines smart (ls ++ [l]) (qs ++ [l])
| moved_text ls qs x m n : moved_lines smart ls qs -> ends_open smart ls -> plain_start x ->
    moved_lines smart (ls ++ [repeat 32%N m ++ x]) (qs ++ [repeat 32%N n ++ x]).
(** where the blocks are: on the same lines, the first line's column two to the right *)
Definition lazy_right (a b : nat * nat * (nat * nat)) : Prop :=
  match a, b with (l, c, (el, _)), (l', c', (el', _)) => l' = l /\ c' = c + 2 /\ el' = el end.
(** on the same lines, the first line's column the same *)
Definition still_place (a b : nat * nat * (nat * nat)) : Prop :=
  match a, b with (l, c, (el, _)), (l', c', (el', _)) => l' = l /\ c' = c /\ el' = el end.
