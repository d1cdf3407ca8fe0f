(** * Vocabulary for C62: lines that cannot interrupt a paragraph *)
From Verif Require Import Base Common Node Main Spec SpecTree SpecParas SpecBreak SpecLazy.
From Verif Require SpecLines.

(** the text made of the lines ends inside a paragraph that is in no other block: the last block of
    the document is a paragraph, and its last line is the last line *)
Definition ends_top (smart : bool) (ls : list str) : Prop :=
  exists d k pd pk, parse_doc smart (lines_text ls) = Ok (T d (k ++ [T pd pk])) /\ n_t pd = paragraph /\ last_line pd = length ls.

Definition tag_char (c : N) : Prop := (48 <= c <= 57 \/ 65 <= c <= 90 \/ 97 <= c <= 122)%N.
(** the tags of HTML blocks that may interrupt a paragraph *)
Definition block_tags : list str := [u "script"; u "pre"; u "style"] ++ SpecLines.block_names.

(** [weak_start x]: the line [x], without its leading spaces, cannot interrupt a paragraph *)
Inductive weak_start : str -> Prop :=
(** it begins with none of the marks, is no list number [1.] or [1)] with a blank, and no underline *)
| weak_word c r : ~ block_char c -> c <> 32%N -> ~ first_number (c :: r) -> ~ underline (c :: r) -> weak_start (c :: r)
(** a list mark with nothing behind it *)
| weak_empty c n : c = 43%N \/ c = 42%N -> weak_start (c :: repeat 32%N n)
(** a number sign or a plus sign with something else right behind it *)
| weak_joined c d r : c = 35%N \/ c = 43%N -> d <> c -> d <> 32%N -> weak_start (c :: d :: r)
(** asterisks or hyphens, no blank right behind the first, and something else on the line *)
| weak_rule c d r x : c = 42%N \/ c = 45%N -> d <> 32%N -> In x (d :: r) -> x <> c -> x <> 32%N -> weak_start (c :: d :: r)
(** underscores, and something else on the line *)
| weak_line r x : In x r -> x <> 95%N -> x <> 32%N -> weak_start (95%N :: r)
(** fewer than three backticks or tildes *)
| weak_ticks c n r : c = 96%N \/ c = 126%N -> n < 2 -> hd_error r <> Some c -> weak_start (c :: repeat c n ++ r)
(** an HTML tag, or the like, with a name that is not the name of a block *)
| weak_tag sl name r : sl = [] \/ sl = u "/" -> name <> [] -> Forall tag_char name -> (forall c, hd_error r = Some c -> (0 < c < 128)%N /\ ~ tag_char c) -> ~ In (map SpecLines.ascii_lower name) block_tags ->
    weak_start (60%N :: sl ++ name ++ r)
(** anything else that is not in the list of lines that interrupt a paragraph (see C63) and not an
    underline; there must be no NUL, and none of the four letters that Python takes for [i], [s] or [k]
    when it ignores case *)
| weak_other c r : c <> 32%N -> ~ break_start (c :: r) -> ~ underline (c :: r) -> (forall x, In x (c :: r) -> ~ In x [0; 304; 305; 383; 8490]%N) ->
    weak_start (c :: r).

(** [deep m x]: after [m] spaces, four or more, comes something other than a space *)
Definition deep (m : nat) (x : str) : Prop := 4 <= m /\ x <> [] /\ hd_error x <> Some 32%N.

(** [weak_lines smart ls qs]: the lines differ only in the number of spaces before such lines, where
    they come after a paragraph that is open and in no other block; before any other line there the
    number of spaces may differ if it stays at four or more *)
Inductive weak_lines (smart : bool) : list str -> list str -> Prop :=
| weak_none : weak_lines smart [] []
| weak_same ls qs l : weak_lines smart ls qs -> weak_lines smart (ls ++ [l]) (qs ++ [l])
| weak_text ls qs x m n : weak_lines smart ls qs -> ends_top smart ls -> weak_start x ->
    weak_lines smart (ls ++ [repeat 32%N m ++ x]) (qs ++ [repeat 32%N n ++ x])
| weak_deep ls qs x m n : weak_lines smart ls qs -> ends_top smart ls -> deep m x -> deep n x ->
    weak_lines smart (ls ++ [repeat 32%N m ++ x]) (qs ++ [repeat 32%N n ++ x]).
