(** * Property theorems: what interrupts a paragraph *)
From Verif Require Import Base Regex Common Node Html Main Spec SpecTree SpecSame SpecLines SpecParas SpecBreak SpecJoin ItemHtml JoinBlank BreakFacts.

(** ** C63 *)

(** The last block of a text is a paragraph, and a second text begins with a line that interrupts
    paragraphs: the HTML of both is the HTML of the first and then that of the second, as if there
    were a blank line between them. There are no reference definitions. *)
Theorem C63_interrupted_html :
  forall smart o a b d k pd pk A, ho_sourcepos o = false -> Forall code_point a -> Forall code_point b ->
    last_opt a = Some LF -> without (u "]:") (a ++ b) ->
    parse_doc smart a = Ok (T d (k ++ [T pd pk])) -> n_t pd = paragraph ->
    interrupts (hd [] (text_lines b)) ->
    md_to_html smart o a = Ok A ->
    md_to_html smart o (a ++ b) = let* B := md_to_html smart o b in Ok (A ++ B).
Proof. exact break_html. Qed.
Print Assumptions C63_interrupted_html.

(** The trees: the blocks of the first text, its paragraph the last one, and then those of the second
    text, moved down. *)
Theorem C63_interrupted_tree :
  forall smart a b d k pd pk, Forall code_point a -> Forall code_point b ->
    last_opt a = Some LF -> without (u "]:") (a ++ b) ->
    parse_doc smart a = Ok (T d (k ++ [T pd pk])) -> n_t pd = paragraph ->
    interrupts (hd [] (text_lines b)) ->
    match parse_doc smart b with
    | Ok (T db kb) => exists d' k1 k2, parse_doc smart (a ++ b) = Ok (T d' (k1 ++ k2)) /\
        same_but_last_note (k ++ [T pd pk]) k1 /\ Forall2 (same_blocks (lines_down (length (text_lines a)))) kb k2
    | Err e => parse_doc smart (a ++ b) = Err e
    end.
Proof. exact break_tree. Qed.
Print Assumptions C63_interrupted_tree.

(** Every form of such lines *)
Example C63_lines :
  Forall interrupts [u "> q"; u "   ## h"; u "#"; u "``` py"; u "~~~~ a`b"; u "<DIV class=x>"; u "</table>"; u "<PRE"; u "<style>"; u "<!-- c"; u "  <?php"; u "<!DOCTYPE html>"; u "<![CDATA[x"; u " ***"; u "_ _ _"; u "- - -"; u "* i"; u " -	i"; u "1) i"; u "1. i"].
Proof.
  assert (J : forall i x l, l = repeat 32%N i ++ x -> i <= 3 -> break_start x -> interrupts l) by (intros i x l E Hi Hx; exists i, x; auto).
  assert (K : forall (x : N) s, In x s -> ~ In x [9; 10; 11; 12; 13; 32]%N -> has_text s) by (intros x s Hx Hn; exists x; auto).
  constructor; [apply (J 0 (u "> q")); [reflexivity|auto|apply break_quote]|].
  constructor; [apply (J 3 (u "## h")); [reflexivity|auto|apply (break_heading _ 2 (u "h")); split; [repeat constructor|exists [32%N]; split; [reflexivity|split; [repeat (constructor; [auto|]); constructor|split; [discriminate|intros x E; injection E as <-; split; discriminate]]]]]|].
  constructor; [apply (J 0 (u "#")); [reflexivity|auto|apply (break_heading _ 1 []); split; [repeat constructor|exists []; split; [reflexivity|split; [constructor|split; [reflexivity|discriminate]]]]]|].
  constructor; [apply (J 0 (u "``` py")); [reflexivity|auto|apply (break_fence _ 96 3 (u " py")); repeat split; [left; reflexivity|auto|discriminate|intros _; vm_compute; intuition discriminate]]|].
  constructor; [apply (J 0 (u "~~~~ a`b")); [reflexivity|auto|apply (break_fence _ 126 4 (u " a`b")); repeat split; [right; reflexivity|auto|discriminate|discriminate]]|].
  constructor; [apply (J 0 (u "<DIV class=x>")); [reflexivity|auto|apply break_tag; exists [], (u "DIV"), (u " class=x>"); repeat split; [left; reflexivity|vm_compute; tauto|right; do 2 eexists; split; [reflexivity|left; reflexivity]]]|].
  constructor; [apply (J 0 (u "</table>")); [reflexivity|auto|apply break_tag; exists [47%N], (u "table"), (u ">"); repeat split; [right; reflexivity|vm_compute; tauto|right; do 2 eexists; split; [reflexivity|right; left; reflexivity]]]|].
  constructor; [apply (J 0 (u "<PRE")); [reflexivity|auto|apply (break_raw (u "PRE") []); [vm_compute; tauto|left; reflexivity]]|].
  constructor; [apply (J 0 (u "<style>")); [reflexivity|auto|apply (break_raw (u "style") (u ">")); [vm_compute; tauto|right; do 2 eexists; split; [reflexivity|right; reflexivity]]]|].
  constructor; [apply (J 0 (u "<!-- c")); [reflexivity|auto|apply (break_comment (u " c"))]|].
  constructor; [apply (J 2 (u "<?php")); [reflexivity|auto|apply (break_instruction (u "php"))]|].
  constructor; [apply (J 0 (u "<!DOCTYPE html>")); [reflexivity|auto|apply (break_declaration 68 (u "OCTYPE html>")); vm_compute; split; discriminate]|].
  constructor; [apply (J 0 (u "<![CDATA[x")); [reflexivity|auto|apply (break_cdata (u "x"))]|].
  constructor; [apply (J 1 (u "***")); [reflexivity|auto|apply break_rule; [exists 42%N; repeat split; [vm_compute; tauto|vm_compute; repeat constructor|repeat (constructor; [auto|]); constructor]|intros [(n & w & E & _)|(n & w & E & _)]; discriminate]]|].
  constructor; [apply (J 0 (u "_ _ _")); [reflexivity|auto|apply break_rule; [exists 95%N; repeat split; [vm_compute; tauto|vm_compute; repeat constructor|repeat (constructor; [auto|]); constructor]|intros [(n & w & E & _)|(n & w & E & _)]; discriminate]]|].
  constructor.
  { apply (J 0 (u "- - -")); [reflexivity|auto|]. apply break_rule; [exists 45%N; repeat split; [vm_compute; tauto|vm_compute; repeat constructor|repeat (constructor; [auto|]); constructor]|].
    intros [(n & w & E & _)|(n & w & E & Hw)]; [discriminate|]. destruct n as [|n]; [|discriminate]. injection E as <-. inversion_clear Hw as [|x y H1 H2]. inversion_clear H2 as [|x y H3 H4]. destruct H3 as [H3|H3]; discriminate. }
  constructor; [apply (J 0 (u "* i")); [reflexivity|auto|apply (break_bullet 42 32 (u "i")); [vm_compute; tauto|auto|apply (K 105%N); [left; reflexivity|vm_compute; intuition discriminate]]]|].
  constructor; [apply (J 1 (u "-	i")); [reflexivity|auto|apply (break_bullet 45 9 (u "i")); [vm_compute; tauto|auto|apply (K 105%N); [left; reflexivity|vm_compute; intuition discriminate]]]|].
  constructor; [apply (J 0 (u "1) i")); [reflexivity|auto|apply (break_number 41 32 (u "i")); [auto|auto|apply (K 105%N); [left; reflexivity|vm_compute; intuition discriminate]]]|].
  constructor; [apply (J 0 (u "1. i")); [reflexivity|auto|apply (break_number 46 32 (u "i")); [auto|auto|apply (K 105%N); [left; reflexivity|vm_compute; intuition discriminate]]]|].
  constructor.
Qed.

Definition c63_a : str := u "# t

one *x*
  two
".
Definition c63_b : str := u " 1) item

   more
> quote
".
Example C63_case :
  Forall code_point c63_a /\ Forall code_point c63_b /\ last_opt c63_a = Some LF /\ without (u "]:") (c63_a ++ c63_b) /\
  (exists d k pd pk, parse_doc false c63_a = Ok (T d (k ++ [T pd pk])) /\ n_t pd = paragraph /\ last_line pd = 4) /\
  interrupts (hd [] (text_lines c63_b)) /\
  exists A B, md_to_html false default_opts c63_a = Ok A /\ md_to_html false default_opts c63_b = Ok B /\
    md_to_html false default_opts (c63_a ++ c63_b) = Ok (A ++ B) /\ 0 < length A /\ 0 < length B.
Proof.
  split; [apply code_pointsb; vm_compute; reflexivity|]. split; [apply code_pointsb; vm_compute; reflexivity|]. split; [reflexivity|]. split; [apply infixb_not; vm_compute; reflexivity|]. split.
  { destruct (parse_doc false c63_a) as [[d [|t1 [|[pd pk] [|]]]]|] eqn:E; try (vm_compute in E; discriminate). exists d, [t1], pd, pk. split; [reflexivity|]. vm_compute in E. injection E as _ _ <- _. split; reflexivity. }
  split. { exists 1, (u "1) item"). split; [reflexivity|]. split; [auto|]. apply (break_number 41 32 (u "item")); [auto|auto|]. exists 105%N. split; [left; reflexivity|vm_compute; intuition discriminate]. }
  do 2 eexists. split; [vm_compute; reflexivity|]. split; [vm_compute; reflexivity|]. split; [vm_compute; reflexivity|]. split; vm_compute; repeat constructor.
Qed.

(** The conditions are needed. A list that begins with another number does not interrupt: *)
Theorem C63_number_refuted :
  exists a b d k pd pk A B, last_opt a = Some LF /\ without (u "]:") (a ++ b) /\ parse_doc false a = Ok (T d (k ++ [T pd pk])) /\ n_t pd = paragraph /\
    hd [] (text_lines b) = u "2. b" /\ md_to_html false default_opts a = Ok A /\ md_to_html false default_opts b = Ok B /\
    md_to_html false default_opts (a ++ b) <> Ok (A ++ B).
Proof.
  exists (u "a
"), (u "2. b
"). destruct (parse_doc false (u "a
")) as [[d [|[pd pk] [|]]]|] eqn:E; try (vm_compute in E; discriminate). exists d, [], pd, pk. do 2 eexists. split; [reflexivity|]. split; [apply infixb_not; vm_compute; reflexivity|]. split; [reflexivity|].
  split; [vm_compute in E; injection E as _ <- _; reflexivity|]. split; [vm_compute; reflexivity|]. split; [vm_compute; reflexivity|]. split; [vm_compute; reflexivity|]. vm_compute. discriminate.
Qed.
Print Assumptions C63_number_refuted.
(** and a thematic break that is also an underline makes the paragraph a heading. *)
Theorem C63_underline_refuted :
  exists a b d k pd pk A B, last_opt a = Some LF /\ without (u "]:") (a ++ b) /\ parse_doc false a = Ok (T d (k ++ [T pd pk])) /\ n_t pd = paragraph /\
    rule_line (hd [] (text_lines b)) /\ md_to_html false default_opts a = Ok A /\ md_to_html false default_opts b = Ok B /\
    md_to_html false default_opts (a ++ b) <> Ok (A ++ B).
Proof.
  exists (u "a
"), (u "---
"). destruct (parse_doc false (u "a
")) as [[d [|[pd pk] [|]]]|] eqn:E; try (vm_compute in E; discriminate). exists d, [], pd, pk. do 2 eexists. split; [reflexivity|]. split; [apply infixb_not; vm_compute; reflexivity|]. split; [reflexivity|].
  split; [vm_compute in E; injection E as _ <- _; reflexivity|]. split; [exists 45%N; repeat split; [vm_compute; tauto|vm_compute; repeat constructor|vm_compute; repeat (constructor; [auto|]); constructor]|]. split; [vm_compute; reflexivity|]. split; [vm_compute; reflexivity|]. vm_compute. discriminate.
Qed.
Print Assumptions C63_underline_refuted.
