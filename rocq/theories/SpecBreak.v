(** * Vocabulary for C63: lines that interrupt a paragraph *)
From Verif Require Import Base Spec SpecLines SpecParas.

(** something other than white space stands there *)
Definition has_text (s : str) : Prop := exists x, In x s /\ ~ In x [9; 10; 11; 12; 13; 32]%N.

(** what may follow the name of such a tag: nothing, white space or [>] *)
Definition after_raw (rest : str) : Prop :=
  rest = [] \/ exists c r, rest = c :: r /\ (is_space c = true \/ c = 62%N).

(** [break_start x]: the line [x], without the spaces in front, starts a block that may interrupt a
    paragraph *)
Inductive break_start : str -> Prop :=
(** a quote *)
| break_quote r : break_start (62%N :: r)
(** a heading *)
| break_heading l n s : atx_line l n s -> break_start l
(** a fence *)
| break_fence l c n info : opens_fence l c n info -> break_start l
(** the tag of a block, one of three other opening tags, a comment, a processing instruction, a
    declaration or a CDATA section *)
| break_tag l : opens_html l -> break_start l
| break_raw name rest : In (map ascii_lower name) [u "script"; u "pre"; u "style"] -> after_raw rest -> break_start (60%N :: name ++ rest)
| break_comment r : break_start (u "<!--" ++ r)
| break_instruction r : break_start (u "<?" ++ r)
| break_declaration c r : (65 <= c <= 90)%N -> break_start (u "<!" ++ c :: r)
| break_cdata r : break_start (u "<![CDATA[" ++ r)
(** a thematic break, unless it underlines the paragraph as a heading *)
| break_rule l : rule_line l -> ~ underline l -> break_start l
(** a list item with something in it; if it has a number, the number is 1 *)
| break_bullet c b r : In c (u "*+-") -> b = 32%N \/ b = 9%N -> has_text r -> break_start (c :: b :: r)
| break_number d b r : d = 46%N \/ d = 41%N -> b = 32%N \/ b = 9%N -> has_text r -> break_start (49%N :: d :: b :: r).

(** the line interrupts a paragraph: it is indented by at most three spaces *)
Definition interrupts (l : str) : Prop :=
  exists i x, l = repeat 32%N i ++ x /\ i <= 3 /\ break_start x.
