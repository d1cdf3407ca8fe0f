(** * Property theorem: an underline turns a paragraph into a heading *)
From Verif Require Import Base Regex Common Node Html Main Spec SpecTree SpecSame SpecLines SpecParas SpecLazy BreakUnder UnderHtml.

(** ** C65 *)

(** A text ends inside a paragraph of the document, and a setext underline is added. The blocks before
    the paragraph stay as they are. The paragraph becomes a heading with the same inlines, which starts
    where the paragraph started and ends with the underline. *)
Theorem C65_underline :
  forall smart ls i c ul d k pd pk,
    Forall (Forall code_point) ls -> Forall no_eol ls -> i <= 3 -> c = 61%N \/ c = 45%N -> underline_of c ul ->
    parse_doc smart (lines_text ls) = Ok (T d (k ++ [T pd pk])) -> n_t pd = paragraph -> last_line pd = length ls ->
    exists d' hd a e,
      parse_doc smart (lines_text (ls ++ [repeat 32%N i ++ ul])) = Ok (T d' (k ++ [T hd pk])) /\
      n_t hd = heading /\ n_level hd = Some (if N.eqb c 61 then 1 else 2) /\
      n_sourcepos pd = Some (a, e) /\ n_sourcepos hd = Some (a, (S (length ls), i + length ul)).
Proof. exact under_turns. Qed.
Print Assumptions C65_underline.

(** The same for the HTML, with source positions off: after the HTML of the blocks before it, the
    paragraph's element becomes that of a heading, around the same text. *)
Theorem C65_underline_html :
  forall smart o ls i c ul d k pd pk h,
    ho_sourcepos o = false ->
    Forall (Forall code_point) ls -> Forall no_eol ls -> i <= 3 -> c = 61%N \/ c = 45%N -> underline_of c ul ->
    parse_doc smart (lines_text ls) = Ok (T d (k ++ [T pd pk])) -> n_t pd = paragraph -> last_line pd = length ls ->
    md_to_html smart o (lines_text ls) = Ok h ->
    exists a b,
      render_html o (T d k) = Ok a /\ h = a ++ u "<p>" ++ b ++ u "</p>" ++ [10%N] /\
      md_to_html smart o (lines_text (ls ++ [repeat 32%N i ++ ul])) =
        Ok (if N.eqb c 61 then a ++ u "<h1>" ++ b ++ u "</h1>" ++ [10%N] else a ++ u "<h2>" ++ b ++ u "</h2>" ++ [10%N]).
Proof. exact under_html. Qed.
Print Assumptions C65_underline_html.

(** A text that meets the conditions: a list, a link reference definition and two lines of a paragraph *)
Example C65_case :
  let ls := [u "- x"; u ""; u "[a]: /u"; u "*b*"; u "[a]"] in
  Forall (Forall code_point) ls /\ Forall no_eol ls /\ underline_of 45 (u "-- ") /\
  (exists d k pd pk, parse_doc false (lines_text ls) = Ok (T d (k ++ [T pd pk])) /\ n_t pd = paragraph /\ last_line pd = length ls /\ length k = 1) /\
  md_to_html false default_opts (lines_text (ls ++ [repeat 32%N 2 ++ u "-- "])) =
    Ok (u "<ul>" ++ [10%N] ++ u "<li>x</li>" ++ [10%N] ++ u "</ul>" ++ [10%N] ++ u "<h2><em>b</em>" ++ [10%N] ++ u "<a href=""/u"">a</a></h2>" ++ [10%N]).
Proof.
  cbv zeta. split; [|split; [|split; [|split]]].
  - repeat (constructor; [repeat (constructor; [vm_compute; discriminate|]); constructor|]). constructor.
  - repeat (constructor; [intros x Hx; cbn in Hx; repeat (destruct Hx as [<-|Hx]; [split; discriminate|]); destruct Hx|]). constructor.
  - exists 1, [32%N]. split; [reflexivity|]. constructor; [left; reflexivity|constructor].
  - match goal with |- exists d k pd pk, parse_doc false ?s = _ /\ _ => destruct (parse_doc false s) as [[d [|t1 [|[pd pk] [|]]]]|] eqn:E; try (vm_compute in E; discriminate E) end.
    exists d, [t1], pd, pk. split; [reflexivity|]. vm_compute in E. injection E as _ _ <- <-. split; [reflexivity|]. split; [reflexivity|]. reflexivity.
  - vm_compute. reflexivity.
Qed.

(** A paragraph without inlines, a no-break space, becomes a heading without inlines *)
Example C65_empty_case :
  (exists d pd, parse_doc false (lines_text [[160%N]]) = Ok (T d [T pd []]) /\ n_t pd = paragraph /\ last_line pd = 1) /\
  md_to_html false default_opts (lines_text ([[160%N]] ++ [repeat 32%N 0 ++ u "==="])) = Ok (u "<h1></h1>" ++ [10%N]).
Proof. split; [eexists; eexists; split; [vm_compute; reflexivity|split; reflexivity]|vm_compute; reflexivity]. Qed.
