(** * Property theorems about blocks under a list item *)
From Verif Require Import Base Common Node Html Main Spec SpecTree SpecSame SpecLines SpecParas SpecLists SpecItems ListHtml ItemDoc ItemHtml.

(** ** C55 *)

(** A list item, at least one blank line, and a text indented by the width of the item's mark: the HTML
    is that of the text on its own, wrapped in the item. *)
Theorem C55_item_html :
  forall o i s t, ho_sourcepos o = false -> li_ok i -> li_blanks i <> [] -> Forall code_point (li_words i) ->
    Forall code_point s -> plain_spaces s -> indented_text (li_width i) s t -> t <> [] ->
    md_to_html false o (li_text i ++ t) = let* h := md_to_html false o s in Ok (item_html i h).
Proof. exact item_html_doc. Qed.
Print Assumptions C55_item_html.

(** The same of the tree: the blocks of the text are the blocks of the item behind its first paragraph,
    further down and further right; if the text alone cannot be parsed, neither can the whole. *)
Theorem C55_item_tree :
  forall i s t, li_ok i -> li_blanks i <> [] -> Forall code_point (li_words i) ->
    Forall code_point s -> plain_spaces s -> indented_text (li_width i) s t -> t <> [] ->
    match parse_doc false s with
    | Ok (T d k) => exists e l it pd words kb,
        parse_doc false (li_text i ++ t) = Ok (T e [T l [T it (T pd words :: kb)]]) /\
        n_t d = document /\ n_t e = document /\ n_t l = list_ /\ n_t it = item /\ n_t pd = paragraph /\
        (exists data, n_list_data l = Some data /\ ld_tight data = is_nil k) /\
        moved_blocks (1 + length (li_blanks i)) (li_width i) k kb
    | Err x => parse_doc false (li_text i ++ t) = Err x
    end.
Proof. exact item_tree. Qed.
Print Assumptions C55_item_tree.

Definition C55_li : li := LI 1 (Number (u "12") 46) 2 (u "a > b") [[]; u "  "].
Definition C55_text : str := u "# head
para *x*
two

    code

      more
> quote
- a
  - b

[r]: /u
".
Definition C55_under : str := u "      # head
      para *x*
      two
 
          code

            more
      > quote
      - a
        - b
         
      [r]: /u
".
Example C55_case :
  li_ok C55_li /\ li_blanks C55_li <> [] /\ Forall code_point (li_words C55_li) /\ Forall code_point C55_text /\
  plain_spaces C55_text /\ indented_text (li_width C55_li) C55_text C55_under /\ C55_under <> [] /\
  li_text C55_li = u " 12.  a > b

  
" /\
  md_to_html false default_opts (li_text C55_li ++ C55_under) = Ok (u "<ol start=""12"">
<li>
<p>a &gt; b</p>
<h1>head</h1>
<p>para <em>x</em>
two</p>
<pre><code>code

  more
</code></pre>
<blockquote>
<p>quote</p>
</blockquote>
<ul>
<li>a
<ul>
<li>b</li>
</ul>
</li>
</ul>
</li>
</ol>
").
Proof.
  split; [apply li_okb_ok; vm_compute; reflexivity|]. split; [discriminate|]. split; [apply code_pointsb; vm_compute; reflexivity|]. split; [apply code_pointsb; vm_compute; reflexivity|].
  split; [apply plain_spacesb; vm_compute; reflexivity|]. split; [apply indented_textb; vm_compute; reflexivity|]. split; [discriminate|]. split; vm_compute; reflexivity.
Qed.

(** The condition on lines of spaces is needed: in an indented code block two of the six spaces of such a line
    belong to the code, but under an item they are lost. *)
Definition C55_spaces : str := u "    a
      
    b".
Definition C55_spaces_under : str := u "      a
        
      b".
Theorem C55_spaces_refuted :
  exists i s t, li_ok i /\ li_blanks i <> [] /\ Forall2 (fun l l' => l' = repeat 32%N (li_width i) ++ l) (text_lines s) (text_lines t) /\
    exists h, md_to_html false default_opts s = Ok h /\ md_to_html false default_opts (li_text i ++ t) <> Ok (item_html i h).
Proof.
  exists (LI 0 (Bullet 45) 1 (u "x") [[]]), C55_spaces, C55_spaces_under. split; [apply li_okb_ok; vm_compute; reflexivity|]. split; [discriminate|]. split; [vm_compute; repeat constructor|].
  exists (u "<pre><code>a
  
b
</code></pre>
"). split; [vm_compute; reflexivity|]. vm_compute. discriminate.
Qed.
Print Assumptions C55_spaces_refuted.
