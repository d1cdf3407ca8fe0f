(** * Property theorems about lists *)
From Verif Require Import Base Common Node Html Main Spec SpecTree SpecSame SpecLines SpecParas SpecLists ListHtml.

(** ** C52 *)

(** Lines that begin with a list mark, each followed by any number of blank lines: the longest runs of marks
    of one kind are the lists.  The first mark of a run says whether the list is ordered and where it starts,
    and the items are paragraphs exactly if there is a blank line between two items of the run. *)
Theorem C52_lists :
  forall o l, ho_sourcepos o = false -> l <> [] -> Forall li_ok l ->
    md_to_html false o (flat_map li_text l) = Ok (flat_map run_html (runs l)).
Proof. exact lists_html. Qed.
Print Assumptions C52_lists.

Definition C52_items : list li :=
  [LI 0 (Bullet 45) 1 (u "one") []; LI 1 (Bullet 45) 4 (u "two > more") [[]; u "  "];
   LI 0 (Bullet 42) 1 (u "three") []; LI 0 (Bullet 42) 2 (u "four") [u " "]; LI 1 (Bullet 42) 1 (u "five") [];
   LI 0 (Number (u "007") 46) 1 (u "six") []; LI 0 (Number (u "3") 46) 1 (u "seven") []; LI 0 (Number (u "01") 41) 1 (u "eight") [[]]].
Example C52_case :
  C52_items <> [] /\ Forall li_ok C52_items /\
  flat_map li_text C52_items = u "- one
 -    two > more

  
* three
*  four
 
 * five
007. six
3. seven
01) eight

" /\
  md_to_html false default_opts (flat_map li_text C52_items) = Ok (u "<ul>
<li>one</li>
<li>two &gt; more</li>
</ul>
<ul>
<li>
<p>three</p>
</li>
<li>
<p>four</p>
</li>
<li>
<p>five</p>
</li>
</ul>
<ol start=""7"">
<li>six</li>
<li>seven</li>
</ol>
<ol>
<li>eight</li>
</ol>
").
Proof. split; [discriminate|split; [apply lis_okb_ok; vm_compute; reflexivity|split; vm_compute; reflexivity]]. Qed.
