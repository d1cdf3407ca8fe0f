(** * Property theorems about link references *)
From Verif Require Import Base Regex Common NormRef Node Inlines Blocks Html Rst Dump Main
  Spec SpecTree SpecSame SpecLines SpecRefs RefMapFacts RefDoc LinkNest.

(** ** C25 *)

(** In every text: whatever a label stands for after some of the lines, it stands for at the end, when the
    references are resolved; and no label has two entries. *)
Theorem C25_entries_stay :
  forall p s t p', parse p s = Ok (t, p') ->
    NoDup (map fst (p_refmap p')) /\
    forall before after q label v, input_lines s = before ++ after -> incorporate_lines before (reset p) = Ok q ->
      assoc_str label (p_refmap q) = Some v -> assoc_str label (p_refmap p') = Some v.
Proof. exact entries_stay. Qed.
Print Assumptions C25_entries_stay.

(** For texts of definitions and references, in any order and number, one to a line: each reference links
    to the destination of the first definition of its label in the text, compared without regard to case,
    and is plain text if there is none. *)
Theorem C25_first_definition_wins :
  forall smart o l, ho_sourcepos o = false -> Forall ref_line_ok l ->
    md_to_html smart o (ref_doc l) = Ok (flat_map (ref_html (first_dest l)) l).
Proof. exact refs_html. Qed.
Print Assumptions C25_first_definition_wins.

Definition C25_lines : list ref_line :=
  [Refers false (u "Foo") None; Defines (u "foo") (u "/first"); Refers true (u "pic") (Some (u "FOO"));
   Defines (u "FOO") (u "/second"); Refers false (u "foo") (Some []); Refers false (u "foo") (Some (u "bar"))].
Example C25_case :
  Forall ref_line_ok C25_lines /\
  ref_doc C25_lines = u "[Foo]

[foo]: /first

![pic][FOO]

[FOO]: /second

[foo][]

[foo][bar]

" /\
  md_to_html false default_opts (ref_doc C25_lines) = Ok (u "<p><a href=""/first"">Foo</a></p>
<p><img src=""/first"" alt=""pic"" /></p>
<p><a href=""/first"">foo</a></p>
<p>[foo][bar]</p>
").
Proof.
  split; [|split; vm_compute; reflexivity]. unfold C25_lines, ref_line_ok, plain_word, url.
  repeat first [apply Forall_cons | apply Forall_nil | split | discriminate | (cbn; lia) | (unfold url_char, word_char; cbn; lia) | (right; cbn; tauto) | (left; unfold word_char; cbn; lia) | (unfold word_char; cbn; lia)].
Qed.

(** ** C26 *)

(** In every text: the children of every paragraph and heading are those that its content gives with the
    map of all definitions of the text. *)
Theorem C26_final_map :
  forall p s t p', Forall code_point s -> parse p s = Ok (t, p') ->
    forall x, In x (subtrees t) -> t_type x = paragraph \/ t_type x = heading ->
    exists content s', n_string_content (t_data x) = Some content /\
      parseInlines content (IP [] 0 (p_refmap p') (p_smart p) [] [] [] 0) = Ok (t_kids x, s').
Proof. exact parse_final. Qed.
Print Assumptions C26_final_map.

(** Moving a definition to the end of the text changes the HTML of no reference, if no other definition
    has its label. *)
Theorem C26_place_of_definition :
  forall smart o l1 l2 label dest, ho_sourcepos o = false -> Forall ref_line_ok (l1 ++ Defines label dest :: l2) ->
    first_dest (l1 ++ l2) label = None ->
    md_to_html smart o (ref_doc (l1 ++ Defines label dest :: l2)) = md_to_html smart o (ref_doc (l1 ++ l2 ++ [Defines label dest])).
Proof. exact move_definition. Qed.
Print Assumptions C26_place_of_definition.

Example C26_case :
  md_to_html false default_opts (ref_doc [Defines (u "foo") (u "/first"); Refers false (u "Foo") None]) =
  md_to_html false default_opts (ref_doc [Refers false (u "Foo") None; Defines (u "foo") (u "/first")]).
Proof. apply (C26_place_of_definition false default_opts [] [Refers false (u "Foo") None]); [reflexivity| |reflexivity].
  unfold ref_line_ok, plain_word, url.
  repeat first [apply Forall_cons | apply Forall_nil | split | discriminate | (cbn; lia) | (right; cbn; tauto) | (left; unfold word_char; cbn; lia) | (unfold word_char; cbn; lia)].
Qed.

(** ** C27 *)

(** As stated the property is false: an address in angle brackets makes a link inside a link. *)
Theorem C27_no_link_in_link_refuted :
  exists s t p' x y, Forall code_point s /\ parse (new_parser false) s = Ok (t, p') /\
    In x (subtrees t) /\ t_type x = link /\ lies_below x y /\ t_type y = link.
Proof. exact nested_sample. Qed.
Print Assumptions C27_no_link_in_link_refuted.

(** In every text: a link below a link is always such an address. *)
Theorem C27_only_autolinks :
  forall p s t p', Forall code_point s -> parse p s = Ok (t, p') ->
    forall x y, In x (subtrees t) -> t_type x = link -> lies_below x y -> t_type y = link ->
      autolink_of y (replace_char 0 65533 s).
Proof. exact only_autolinks. Qed.
Print Assumptions C27_only_autolinks.

(** In every text without a left angle bracket: no link lies below a link. *)
Theorem C27_no_link_in_link :
  forall p s t p', Forall code_point s -> ~ In 60%N s -> parse p s = Ok (t, p') ->
    forall x y, In x (subtrees t) -> t_type x = link -> lies_below x y -> t_type y <> link.
Proof. exact no_nested_links. Qed.
Print Assumptions C27_no_link_in_link.

(** Such texts have links, also inside brackets, images and emphasis. *)
Example C27_case :
  md_to_html false default_opts (u "[a [b](/c) d](/e) ![f [g](/h)](/i) [*[j](/k)*](/l) [![m](/n)](/o)") =
  Ok (u "<p>[a <a href=""/c"">b</a> d](/e) <img src=""/i"" alt=""f g"" /> [<em><a href=""/k"">j</a></em>](/l) <a href=""/o""><img src=""/n"" alt=""m"" /></a></p>
").
Proof. vm_compute. reflexivity. Qed.
