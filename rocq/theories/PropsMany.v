(** * Property theorems about lists of several items with texts under each item *)
From Verif Require Import Base Common Node Html Main Spec SpecTree SpecSame SpecLines SpecParas SpecLists SpecItems SpecJoin SpecMany ListHtml ItemHtml JoinBlank ManyHtml.

(** ** C59 *)

(** Two or more items with marks of one kind, each with a line of words, at least one blank line and any text indented
    under it: the HTML is one list, and in each item stand a paragraph of the words and the HTML of the text on its own. *)
Theorem C59_many_items :
  forall o x es hs, ho_sourcepos o = false -> es <> [] -> Forall entry_ok (x :: es) ->
    Forall (fun y => same_kind (li_mark (en_item x)) (li_mark (en_item y)) = true) es ->
    Forall2 (fun y h => md_to_html false o (en_text y) = Ok h) (x :: es) hs ->
    md_to_html false o (flat_map entry_source (x :: es)) =
    Ok (open_tag (li_mark (en_item x)) ++ [10%N] ++ entries_html (x :: es) hs ++ close_tag (li_mark (en_item x)) ++ [10%N]).
Proof. exact many_html. Qed.
Print Assumptions C59_many_items.

Definition C59_first : entry := Entry (LI 0 (Number (u "7") 41) 1 (u "one > all") [[]]) (u "- a

  b
- c

> lazy
quote
") (u "   - a

     b
   - c
  
   > lazy
   quote
").
Definition C59_second : entry := Entry (LI 1 (Number (u "3") 41) 3 (u "two") [u "  "; []]) (u "    code
```
open fence
") (u "          code
      ```
      open fence
").
Definition C59_third : entry := Entry (LI 0 (Number (u "10") 41) 1 (u "three") [[]]) (u "last *words*
===
") (u "    last *words*
    ===
").
Definition C59_htmls : list str := [u "<ul>
<li>
<p>a</p>
<p>b</p>
</li>
<li>
<p>c</p>
</li>
</ul>
<blockquote>
<p>lazy
quote</p>
</blockquote>
"; u "<pre><code>code
</code></pre>
<pre><code>open fence
</code></pre>
"; u "<h1>last <em>words</em></h1>
"].
Example C59_case :
  Forall entry_ok [C59_first; C59_second; C59_third] /\
  Forall (fun y => same_kind (li_mark (en_item C59_first)) (li_mark (en_item y)) = true) [C59_second; C59_third] /\
  Forall2 (fun y h => md_to_html false default_opts (en_text y) = Ok h) [C59_first; C59_second; C59_third] C59_htmls /\
  flat_map entry_source [C59_first; C59_second; C59_third] = u "7) one > all

   - a

     b
   - c
  
   > lazy
   quote
 3)   two
  

          code
      ```
      open fence
10) three

    last *words*
    ===
" /\
  md_to_html false default_opts (flat_map entry_source [C59_first; C59_second; C59_third]) =
    Ok (u "<ol start=""7"">" ++ [10%N] ++ entries_html [C59_first; C59_second; C59_third] C59_htmls ++ u "</ol>" ++ [10%N]).
Proof.
  split; [do 3 (constructor; [apply entry_okb; vm_compute; reflexivity|]); constructor|]. split; [do 2 (constructor; [reflexivity|]); constructor|]. split; [do 3 (constructor; [vm_compute; reflexivity|]); constructor|]. split; vm_compute; reflexivity.
Qed.

(** That the texts define no references is needed: a definition under one item is used under another. *)
Theorem C59_references_refuted :
  exists x y hx hy, Forall (fun z => li_ok (en_item z) /\ li_blanks (en_item z) <> [] /\ plain_spaces (en_text z) /\ indented_text (li_width (en_item z)) (en_text z) (en_under z) /\ last_opt (en_under z) = Some 10%N) [x; y] /\
    same_kind (li_mark (en_item x)) (li_mark (en_item y)) = true /\ md_to_html false default_opts (en_text x) = Ok hx /\ md_to_html false default_opts (en_text y) = Ok hy /\
    md_to_html false default_opts (entry_source x ++ entry_source y) <>
    Ok (open_tag (li_mark (en_item x)) ++ [10%N] ++ entries_html [x; y] [hx; hy] ++ close_tag (li_mark (en_item x)) ++ [10%N]).
Proof.
  exists (Entry (LI 0 (Bullet 45) 1 (u "x") [[]]) (u "[r]
") (u "  [r]
")), (Entry (LI 0 (Bullet 45) 1 (u "y") [[]]) (u "[r]: /u
") (u "  [r]: /u
")), (u "<p>[r]</p>
"), []. split.
  - do 2 (constructor; [split; [apply li_okb_ok; vm_compute; reflexivity|]; split; [discriminate|]; split; [apply plain_spacesb; vm_compute; reflexivity|]; split; [apply indented_textb; vm_compute; reflexivity|reflexivity]|]). constructor.
  - split; [reflexivity|]. split; [vm_compute; reflexivity|]. split; [vm_compute; reflexivity|]. vm_compute. discriminate.
Qed.
Print Assumptions C59_references_refuted.
