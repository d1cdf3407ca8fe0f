(** * Property theorem about documents of blocks inside blocks *)
From Verif Require Import Base Common Node Html Main Spec SpecTree SpecSame SpecLines SpecRefs SpecParas SpecLists SpecPieces SpecNest SpecItems SpecJoin SpecDoc FlankFacts ParaDoc ListHtml GramFacts.
From Coq Require Import ZifyBool ZifyNat ZifyN.

(** ** C57 *)

(** A document written from a tree of blocks has the HTML of that tree. *)
Theorem C57_documents :
  forall o bs, ho_sourcepos o = false -> ho_safe o = false -> doc_ok is_space punctuation bs ->
    md_to_html false o (doc_text bs) = Ok (doc_html (ho_softbreak o) bs).
Proof. intros o bs Ho Hs H. exact (documents o Ho Hs bs H). Qed.
Print Assumptions C57_documents.

Ltac flank := vm_compute; solve [intuition (congruence || discriminate)].
Ltac one_char := first
  [ assumption | reflexivity | discriminate
  | unfold word_char; lia
  | left; one_char
  | right; one_char
  | let X := fresh in intros X; vm_compute in X; solve [intuition discriminate]
  | vm_compute; solve [auto 30]
  | split; one_char ].
Ltac all_chars := repeat (apply Forall_cons; [one_char|]); apply Forall_nil.
Ltac words := split; [all_chars|discriminate].

Definition C57_phrase : phrase := Marked 42 1 (u "very ") (Marked 95 2 (u "bold") End [] End) (u " text") End.
Definition C57_doc : list block :=
  [ Heading 2 (u "so ") C57_phrase;
    Quote
      [ Phrase (u "so ") C57_phrase;
        Item (LI 0 (Number (u "3") 41) 1 (u "three") [[]])
          [ Fenced 96 3 [u "x < y"; []; u "  z"];
            Quote [ Lines [PL 0 (u "a") (Spaces 0); PL 2 (u "b") (Spaces 0)]; Indented [u "code"; []; u " more"] ];
            Items [LI 0 (Bullet 45) 1 (u "p") []; LI 0 (Bullet 45) 1 (u "q") [[]]; LI 0 (Bullet 43) 1 (u "r") []] ];
        Rule (u "***") ];
    Html [u "<div>"; u "*raw*"];
    Underlined 61 4 [PL 0 (u "end") (Spaces 0)] ].
Lemma C57_phrase_ok : phrase_ok is_space punctuation true [] (last (u "so ") 10%N) C57_phrase 10%N.
Proof.
  unfold C57_phrase. do 3 (cbn [phrase_ok]; repeat match goal with |- _ /\ _ => split end;
    try exact I; try words; try discriminate; try (left; reflexivity); try (right; reflexivity); try flank).
Qed.
Lemma not_closing c n l x : In x l -> x <> 32%N -> x <> c -> ~ closes_fence c n l.
Proof. intros H H1 H2 (i & k & m & _ & _ & ->). rewrite !in_app_iff in H. destruct H as [H|[H|H]]; apply repeat_spec in H; congruence. Qed.
Ltac clean := apply clean_linesb_ok; vm_compute; reflexivity.
Ltac ends := let X := fresh in let c := fresh in intros c X; vm_compute in X; try (destruct X as [X|X]); injection X as <-; try split; (reflexivity || discriminate).
Lemma C57_doc_ok : doc_ok is_space punctuation C57_doc.
Proof.
  split; [discriminate|]. split; [|vm_compute; intuition discriminate]. unfold C57_doc. repeat (apply Forall_cons; [split|]); [| | | | | | | |apply Forall_nil].
  - split; [lia|]. split; [words|]. split; [exact C57_phrase_ok|]. split; [ends|discriminate].
  - split; [clean|exact I].
  - exact I.
  - split; [apply Forall_nil|]. split; [discriminate|]. split; [|vm_compute; intuition discriminate].
    split; [|split; [|split; [|exact I]]].
    + split; [|split; [clean|exact I]]. split; [words|]. split; [exact C57_phrase_ok|]. split; [|ends]. split; [reflexivity|]. split; [intros H; vm_compute in H; intuition discriminate|].
      intros (ds & x & r & E & H1 & H2 & _). destruct ds as [|d ds]; [congruence|]. injection E as <- E. apply Forall_inv in H2. discriminate H2.
    + split; [split; [apply li_okb_ok; vm_compute; reflexivity|reflexivity]|]. split; [clean|]. split; [discriminate|]. split; [|vm_compute; intuition discriminate].
      split; [|split; [|split; [|exact I]]].
      * split; [|split; [clean|exact I]]. split; [left; reflexivity|]. split; [lia|]. apply Forall_cons; [apply (not_closing _ _ _ 120%N); [left; reflexivity|discriminate|discriminate]|].
        apply Forall_cons; [intros (i & k & m & _ & H & E); destruct i; [destruct k; [lia|discriminate]|discriminate]|]. apply Forall_cons; [apply (not_closing _ _ _ 122%N); [right; right; left; reflexivity|discriminate|discriminate]|]. apply Forall_nil.
      * split; [exact I|]. split; [apply Forall_nil|]. split; [discriminate|]. split; [|vm_compute; intuition discriminate]. split; [|split; [|exact I]].
        { split; [apply para_okb_ok; vm_compute; reflexivity|]. split; [clean|exact I]. }
        { split; [split; discriminate|]. split; [clean|exact I]. }
      * split; [|split; [clean|exact I]]. split; [discriminate|]. split; [apply lis_okb_ok; vm_compute; reflexivity|]. intros i X. injection X as <-. reflexivity.
    + split; [|split; [clean|exact I]]. exists 42%N. split; [left; reflexivity|]. split; [reflexivity|]. split; [vm_compute; lia|]. repeat (apply Forall_cons; [left; reflexivity|]). apply Forall_nil.
  - split; [|intros H; vm_compute in H; intuition discriminate]. exists [], (u "div"), (u ">"). split; [reflexivity|]. split; [left; reflexivity|]. split; [vm_compute; auto 80|]. right. exists 62%N, []. split; [reflexivity|]. right. left. reflexivity.
  - split; [clean|exact I].
  - split; [left; reflexivity|]. split; [lia|]. apply para_okb_ok; vm_compute; reflexivity.
  - split; [clean|exact I].
Qed.
Example C57_case :
  doc_ok is_space punctuation C57_doc /\
  doc_text C57_doc = u "## so *very __bold__* text

> so *very __bold__* text
> 
> 3) three
> 
>    ```
>    x < y
> 
>      z
>    ```
> 
>    > a
>    >   b
>    > 
>    >     code
>    > 
>    >      more
> 
>    - p
>    - q
> 
>    + r
> 
> ***

<div>
*raw*

end
====
" /\
  md_to_html false default_opts (doc_text C57_doc) = Ok (u "<h2>so <em>very <strong>bold</strong></em> text</h2>
<blockquote>
<p>so <em>very <strong>bold</strong></em> text</p>
<ol start=""3"">
<li>
<p>three</p>
<pre><code>x &lt; y

  z
</code></pre>
<blockquote>
<p>a
b</p>
<pre><code>code

 more
</code></pre>
</blockquote>
<ul>
<li>p</li>
<li>q</li>
</ul>
<ul>
<li>r</li>
</ul>
</li>
</ol>
<hr />
</blockquote>
<div>
*raw*
<h1>end</h1>
").
Proof. split; [exact C57_doc_ok|]. split; vm_compute; reflexivity. Qed.

(** Lists of several items that hold blocks, one in another *)
Definition C57_list : list block :=
  [ Entries
      [ (LI 0 (Bullet 42) 1 (u "one") [[]],
          [ Lines [PL 0 (u "a") (Spaces 2); PL 0 (u "b") (Spaces 0)];
            Entries [ (LI 0 (Number (u "1") 46) 2 (u "in") [[]], [Indented [u "code"]]);
                      (LI 1 (Number (u "9") 46) 1 (u "out") [[]], [Quote [Rule (u "---")]]) ] ]);
        (LI 0 (Bullet 42) 3 (u "two") [[]], [ Fenced 126 3 [u "* x"] ]);
        (LI 0 (Bullet 42) 1 (u "three") [[]], [ Items [LI 0 (Bullet 42) 1 (u "tight") []] ]) ];
    Rule (u "***") ].
Ltac clean1 := apply clean_linesb_ok; vm_compute; reflexivity.
Lemma C57_list_ok : doc_ok is_space punctuation C57_list.
Proof.
  assert (Hr : forall c, c = 42%N \/ c = 45%N -> rule_line [c; c; c]) by (intros c Hc; exists c; split; [destruct Hc as [->| ->]; vm_compute; auto|]; split; [destruct Hc as [->| ->]; reflexivity|]; split; [destruct Hc as [->| ->]; vm_compute; lia|]; repeat (apply Forall_cons; [left; reflexivity|]); apply Forall_nil).
  split; [discriminate|]. split; [|vm_compute; intuition discriminate]. unfold C57_list. apply Forall_cons; [|apply Forall_cons; [split; [apply (Hr 42%N); auto|split; [clean1|exact I]]|apply Forall_nil]].
  split.
  { split; [cbn; lia|]. split; [repeat (apply Forall_cons; [split; [apply li_okb_ok; vm_compute; reflexivity|reflexivity]|]); apply Forall_nil|]. intros x y Hx Hy. cbn [In] in Hx, Hy. intuition (subst; reflexivity). }
  split; [clean1|]. split; [|split; [|split; [|exact I]]].
  - split; [discriminate|]. split; [|vm_compute; intuition discriminate]. split; [|split; [|exact I]].
    + split; [apply para_okb_ok; vm_compute; reflexivity|]. split; [clean1|exact I].
    + split.
      { split; [cbn; lia|]. split; [repeat (apply Forall_cons; [split; [apply li_okb_ok; vm_compute; reflexivity|reflexivity]|]); apply Forall_nil|]. intros x y Hx Hy. cbn [In] in Hx, Hy. intuition (subst; reflexivity). }
      split; [clean1|]. split; [|split; [|exact I]].
      * split; [discriminate|]. split; [|exact I]. split; [|exact I]. split; [split; discriminate|]. split; [clean1|exact I].
      * split; [discriminate|]. split; [|exact I]. split; [|exact I]. split; [exact I|]. split; [apply Forall_nil|]. split; [discriminate|]. split; [|exact I]. split; [|exact I]. split; [apply (Hr 45%N); auto|]. split; [clean1|exact I].
  - split; [discriminate|]. split; [|exact I]. split; [|exact I]. split; [|split; [clean1|exact I]]. split; [right; reflexivity|]. split; [lia|]. apply Forall_cons; [apply (not_closing _ _ _ 120%N); [right; right; left; reflexivity|discriminate|discriminate]|apply Forall_nil].
  - split; [discriminate|]. split; [|exact I]. split; [|exact I]. split; [|split; [clean1|exact I]]. split; [discriminate|]. split; [apply lis_okb_ok; vm_compute; reflexivity|]. intros i X. injection X as <-. reflexivity.
Qed.
Example C57_list_case :
  doc_ok is_space punctuation C57_list /\
  doc_text C57_list = u "* one

  a  
  b

  1.  in

          code

   9. out

      > ---

*   two

    ~~~
    * x
    ~~~

* three

  * tight

***
" /\
  md_to_html false default_opts (doc_text C57_list) = Ok (u "<ul>
<li>
<p>one</p>
<p>a<br />
b</p>
<ol>
<li>
<p>in</p>
<pre><code>code
</code></pre>
</li>
<li>
<p>out</p>
<blockquote>
<hr />
</blockquote>
</li>
</ol>
</li>
<li>
<p>two</p>
<pre><code>* x
</code></pre>
</li>
<li>
<p>three</p>
<ul>
<li>tight</li>
</ul>
</li>
</ul>
<hr />
").
Proof. split; [exact C57_list_ok|]. split; vm_compute; reflexivity. Qed.

(** The order of the blocks matters: two items with an empty line between them are one list, and blocks behind
    an item that are indented belong to it. *)
Theorem C57_order_refuted :
  exists bs, bs <> [] /\ Forall (block_ok is_space punctuation) bs /\
    md_to_html false default_opts (doc_text bs) <> Ok (doc_html (ho_softbreak default_opts) bs).
Proof.
  exists [Items [LI 0 (Bullet 45) 1 (u "p") []]; Items [LI 0 (Bullet 45) 1 (u "q") []]]. split; [discriminate|]. split; [|vm_compute; discriminate].
  repeat (apply Forall_cons; [split; [split; [discriminate|split; [apply lis_okb_ok; vm_compute; reflexivity|intros i X; injection X as <-; reflexivity]]|split; [clean|exact I]]|]). apply Forall_nil.
Qed.
Print Assumptions C57_order_refuted.
