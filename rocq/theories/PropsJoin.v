(** * Property theorems about one text behind another *)
From Verif Require Import Base Regex Common Node Html Main Spec SpecTree SpecSame SpecLines SpecJoin ItemHtml JoinDoc JoinBlank.

(** ** C56 *)

(** A text that ends with a blank line, and whose last block is neither fenced code nor HTML, followed by a
    text that is not indented and does not begin with a list item: the HTML is the HTML of the first text
    followed by the HTML of the second one. There are no reference definitions. *)
Theorem C56_blank_line_between :
  forall smart o a b da ka A, ho_sourcepos o = false -> Forall code_point a -> Forall code_point b ->
    without (u "]:") (a ++ b) -> parse_doc smart a = Ok (T da ka) ->
    last_opt a = Some LF -> last_opt (text_lines a) = Some [] ->
    match last_opt ka with
    | Some t => t_type t <> html_block /\ n_is_fenced (t_data t) = false
    | None => True
    end ->
    flush_left (hd [] (text_lines b)) -> no_item (hd [] (text_lines b)) ->
    md_to_html smart o a = Ok A ->
    md_to_html smart o (a ++ b) = let* B := md_to_html smart o b in Ok (A ++ B).
Proof. exact blank_between. Qed.
Print Assumptions C56_blank_line_between.

(** Without a blank line, wherever the last block of the first text is over. *)
Theorem C56_join_html :
  forall smart o a b da ka A, ho_sourcepos o = false -> Forall code_point a -> Forall code_point b ->
    last_opt a = Some LF -> without (u "]:") (a ++ b) ->
    parse_doc smart a = Ok (T da ka) -> separated ka a b ->
    md_to_html smart o a = Ok A ->
    md_to_html smart o (a ++ b) = let* B := md_to_html smart o b in Ok (A ++ B).
Proof. exact joined_html. Qed.
Print Assumptions C56_join_html.

(** The trees: the blocks of the first text and then those of the second one, moved down; only the note that
    a blank line follows the last block of the first text may change. If the second text cannot be parsed,
    neither can both. *)
Theorem C56_join_tree :
  forall smart a b da ka, Forall code_point a -> Forall code_point b ->
    last_opt a = Some LF -> without (u "]:") (a ++ b) ->
    parse_doc smart a = Ok (T da ka) -> separated ka a b ->
    match parse_doc smart b with
    | Ok (T db kb) => exists d k1 k2, parse_doc smart (a ++ b) = Ok (T d (k1 ++ k2)) /\
        same_but_last_note ka k1 /\ Forall2 (same_blocks (lines_down (length (text_lines a)))) kb k2
    | Err e => parse_doc smart (a ++ b) = Err e
    end.
Proof. exact joined_doc. Qed.
Print Assumptions C56_join_tree.

Definition C56_a : str := u "# head
para *x*
two

> quote

1. one

   - two

".
Definition C56_b : str := u "next `c`

- three
> four
".
Example C56_case :
  Forall code_point C56_a /\ Forall code_point C56_b /\ last_opt C56_a = Some LF /\ without (u "]:") (C56_a ++ C56_b) /\
  (exists da ka, parse_doc false C56_a = Ok (T da ka) /\ separated ka C56_a C56_b /\
     match last_opt ka with Some t => t_type t = list_ /\ n_is_fenced (t_data t) = false | None => False end) /\
  last_opt (text_lines C56_a) = Some [] /\
  flush_left (hd [] (text_lines C56_b)) /\ no_item (hd [] (text_lines C56_b)) /\
  md_to_html false default_opts (C56_a ++ C56_b) = Ok (u "<h1>head</h1>
<p>para <em>x</em>
two</p>
<blockquote>
<p>quote</p>
</blockquote>
<ol>
<li>
<p>one</p>
<ul>
<li>two</li>
</ul>
</li>
</ol>
<p>next <code>c</code></p>
<ul>
<li>three</li>
</ul>
<blockquote>
<p>four</p>
</blockquote>
").
Proof.
  split; [apply code_pointsb; vm_compute; reflexivity|]. split; [apply code_pointsb; vm_compute; reflexivity|]. split; [reflexivity|]. split; [apply infixb_not; vm_compute; reflexivity|].
  split. { do 2 eexists. split; [vm_compute; reflexivity|]. split; [right; vm_compute; intuition discriminate|vm_compute; auto]. }
  split; [reflexivity|]. split; [vm_compute; intuition discriminate|]. split; [vm_compute; intuition discriminate|]. vm_compute. reflexivity.
Qed.
(** Without a blank line: a heading, a thematic break or indented code may end the first text. *)
Example C56_no_blank :
  (exists da ka, parse_doc false (u "a

# b
") = Ok (T da ka) /\ separated ka (u "a

# b
") (u "  - c")) /\
  exists da ka, parse_doc false (u "    code
") = Ok (T da ka) /\ separated ka (u "    code
") (u "- c").
Proof. split; do 2 eexists; (split; [vm_compute; reflexivity|]); right; vm_compute; intuition discriminate. Qed.

(** The conditions are needed. Two lists with a blank line between them are one list: *)
Theorem C56_lists_refuted :
  exists a b A B, last_opt a = Some LF /\ last_opt (text_lines a) = Some [] /\ flush_left (hd [] (text_lines b)) /\ without (u "]:") (a ++ b) /\
    md_to_html false default_opts a = Ok A /\ md_to_html false default_opts b = Ok B /\
    md_to_html false default_opts (a ++ b) <> Ok (A ++ B).
Proof.
  exists (u "- a

"), (u "- b"). do 2 eexists. split; [reflexivity|]. split; [reflexivity|]. split; [vm_compute; intuition discriminate|]. split; [apply infixb_not; vm_compute; reflexivity|].
  split; [vm_compute; reflexivity|]. split; [vm_compute; reflexivity|]. vm_compute. discriminate.
Qed.
Print Assumptions C56_lists_refuted.
(** and a definition in the second text gives meaning to brackets in the first one. *)
Theorem C56_references_refuted :
  exists a b da ka A B, last_opt a = Some LF /\ parse_doc false a = Ok (T da ka) /\ separated ka a b /\
    md_to_html false default_opts a = Ok A /\ md_to_html false default_opts b = Ok B /\
    md_to_html false default_opts (a ++ b) <> Ok (A ++ B).
Proof.
  exists (u "[a]

"), (u "[a]: /u"). do 4 eexists. split; [reflexivity|]. split; [vm_compute; reflexivity|]. split; [left; vm_compute; repeat constructor|].
  split; [vm_compute; reflexivity|]. split; [vm_compute; reflexivity|]. vm_compute. discriminate.
Qed.
Print Assumptions C56_references_refuted.
