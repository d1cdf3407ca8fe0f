(** * Property theorems about code blocks *)
From Verif Require Import Base Regex Entities Common NormRef Node Inlines Blocks Html Rst Dump Main
  Spec SpecTree SpecSame SpecLines LineFacts Sim ColumnFacts FenceFacts IndentFacts CodeHtml CodeThen HtmlBlockFacts.

(** ** C17 *)
Theorem C17_fenced_tree :
  forall smart i l c n info ls close, i <= 3 -> opens_fence l c n info -> no_eol info -> Forall no_eol ls ->
    Forall (fun x => ~ closes_fence c n x) ls -> fence_end c n close ->
    exists dd cd, parse_doc smart (flat_map (fun x => x ++ [10%N]) ((repeat 32%N i ++ l) :: ls ++ close)) = Ok (T dd [T cd []]) /\
      n_t dd = document /\ n_t cd = code_block /\
      n_info cd = Some (unescape_string (strip (replace_char 0 65533 info))) /\
      n_literal cd = Some (flat_map (fun x => unindent i (replace_char 0 65533 x) ++ [10%N]) ls).
Proof. exact fence_doc. Qed.
Print Assumptions C17_fenced_tree.

Theorem C17_fenced_html :
  forall smart o i c n ls close, ho_sourcepos o = false -> i <= 3 -> fence_char c -> 3 <= n -> Forall no_eol ls ->
    Forall (fun x => ~ closes_fence c n x) ls -> fence_end c n close ->
    md_to_html smart o (flat_map (fun x => x ++ [10%N]) ((repeat 32%N i ++ repeat c n) :: ls ++ close)) =
    Ok (u "<pre><code>" ++ html_text (flat_map (fun x => unindent i (replace_char 0 65533 x) ++ [10%N]) ls) ++ u "</code></pre>" ++ [10%N]).
Proof. exact fence_md. Qed.
Print Assumptions C17_fenced_html.

Theorem C17_fenced_info_html :
  forall smart o i c n w1 w r ls close, ho_sourcepos o = false -> i <= 3 ->
    opens_fence (repeat c n ++ w1 ++ w ++ r) c n (w1 ++ w ++ r) -> no_eol (w1 ++ w ++ r) ->
    ~ In 0%N (w1 ++ w ++ r) -> ~ In 92%N (w1 ++ w ++ r) -> ~ In 38%N (w1 ++ w ++ r) ->
    Forall (fun x => is_space x = true) w1 -> Forall (fun x => is_space x = false) w -> w <> [] ->
    (forall x, hd_error r = Some x -> is_space x = true) ->
    Forall no_eol ls -> Forall (fun x => ~ closes_fence c n x) ls -> fence_end c n close ->
    md_to_html smart o (flat_map (fun x => x ++ [10%N]) ((repeat 32%N i ++ repeat c n ++ w1 ++ w ++ r) :: ls ++ close)) =
    Ok (u "<pre><code class=""language-" ++ html_text w ++ u """>" ++
        html_text (flat_map (fun x => unindent i (replace_char 0 65533 x) ++ [10%N]) ls) ++ u "</code></pre>" ++ [10%N]).
Proof. exact fence_info_md. Qed.
Print Assumptions C17_fenced_info_html.

(** Two spaces before the fence, a shorter fence, a blank line, a tab and a NUL inside, no end *)
Example C17_case :
  let ls := [u "``"; []; u " <a>"; 9%N :: u "x" ++ [0%N]; u "``` x"; u "~~~"] in
  md_to_html false default_opts (flat_map (fun x => x ++ [10%N]) (u "  ```" :: ls)) =
  Ok (u "<pre><code>``" ++ [10; 10]%N ++ u "&lt;a&gt;" ++ [10%N] ++ u "  x" ++ [65533; 10]%N ++ u "``` x" ++ [10%N] ++ u "~~~" ++ [10%N] ++ u "</code></pre>" ++ [10%N]).
Proof.
  intros ls. pose proof (C17_fenced_html false default_opts 2 96%N 3 ls [] eq_refl ltac:(lia) ltac:(left; reflexivity) ltac:(lia)) as H.
  rewrite app_nil_r in H. change (u "  ```") with (repeat 32%N 2 ++ repeat 96%N 3). rewrite H; [vm_compute; reflexivity| | |left; reflexivity].
  - repeat (apply Forall_cons; [intros x Hx; repeat (destruct Hx as [<-|Hx]; [split; discriminate|]); destruct Hx|]). constructor.
  - repeat (apply Forall_cons; [intros (i & k & m & Hi & Hk & E); destruct i as [|[|[|[|i]]]]; [| | | |lia]; destruct k as [|[|[|k]]]; try lia; cbn in E; try discriminate E;
      repeat (destruct k as [|k]; cbn in E; try discriminate E); repeat (destruct m as [|m]; cbn in E; try discriminate E) |]). constructor.
Qed.
Example C17_info_case :
  md_to_html false default_opts (u "~~~  ruby x=1" ++ [10%N] ++ u "a" ++ [10%N] ++ u "  ~~~~ " ++ [10%N]) =
  Ok (u "<pre><code class=""language-ruby"">a" ++ [10%N] ++ u "</code></pre>" ++ [10%N]).
Proof.
  apply (C17_fenced_info_html false default_opts 0 126%N 3 (u "  ") (u "ruby") (u " x=1") [u "a"] [u "  ~~~~ "]); try reflexivity; try lia; try discriminate.
  - split; [reflexivity|]. split; [right; reflexivity|]. split; [lia|]. split; discriminate.
  - intros x Hx; repeat (destruct Hx as [<-|Hx]; [split; discriminate|]); destruct Hx.
  - intros Hx; repeat (destruct Hx as [Hx|Hx]; [discriminate|]); destruct Hx.
  - intros Hx; repeat (destruct Hx as [Hx|Hx]; [discriminate|]); destruct Hx.
  - intros Hx; repeat (destruct Hx as [Hx|Hx]; [discriminate|]); destruct Hx.
  - repeat constructor.
  - repeat constructor.
  - intros x E. injection E as <-. reflexivity.
  - constructor; [|constructor]. intros x [<-|[]]; split; discriminate.
  - constructor; [|constructor]. intros (i & k & m & Hi & Hk & E). destruct i; [|discriminate]. destruct k; [lia|discriminate].
  - right. eexists. split; [reflexivity|]. exists 2, 4, 1. split; [lia|]. split; [lia|reflexivity].
Qed.

(** ** C18 *)
Theorem C18_indented_tree :
  forall smart ls cs body tail, Forall2 code_line ls cs -> Forall no_eol ls -> cs = body ++ tail -> body <> [] ->
    ~ blanks (hd [] body) -> ~ blanks (last body []) -> Forall (Forall (fun x => x = 32%N)) tail ->
    exists dd cd, parse_doc smart (flat_map (fun x => x ++ [10%N]) ls) = Ok (T dd [T cd []]) /\
      n_t dd = document /\ n_t cd = code_block /\ n_info cd = None /\
      n_literal cd = Some (flat_map (fun c => replace_char 0 65533 c ++ [10%N]) body).
Proof. exact indent_doc. Qed.
Print Assumptions C18_indented_tree.

Theorem C18_indented_html :
  forall smart o ls cs body tail, ho_sourcepos o = false -> Forall2 code_line ls cs -> Forall no_eol ls -> cs = body ++ tail -> body <> [] ->
    ~ blanks (hd [] body) -> ~ blanks (last body []) -> Forall (Forall (fun x => x = 32%N)) tail ->
    md_to_html smart o (flat_map (fun x => x ++ [10%N]) ls) =
    Ok (u "<pre><code>" ++ html_text (flat_map (fun c => replace_char 0 65533 c ++ [10%N]) body) ++ u "</code></pre>" ++ [10%N]).
Proof. exact indent_md. Qed.
Print Assumptions C18_indented_html.

(** An inner line of five blanks, a short blank line, a tab, a line that would open a list, blank lines behind *)
Example C18_case :
  let ls := [u "     *a*"; u "     "; []; 9%N :: u "- b"; u "   " ++ 9%N :: u "c "; u "      "; u "  "] in
  md_to_html false default_opts (flat_map (fun x => x ++ [10%N]) ls) =
  Ok (u "<pre><code> *a*" ++ [10%N] ++ u " " ++ [10; 10]%N ++ u "- b" ++ [10%N] ++ u "c " ++ [10%N] ++ u "</code></pre>" ++ [10%N]).
Proof.
  intros ls. rewrite (C18_indented_html false default_opts ls [u " *a*"; u " "; []; u "- b"; u "c "; u "  "; []] [u " *a*"; u " "; []; u "- b"; u "c "] [u "  "; []]); try reflexivity; try discriminate.
  - apply Forall2_cons; [left; exists (repeat 32%N 4); split; [left; reflexivity|reflexivity]|].
    apply Forall2_cons; [left; exists (repeat 32%N 4); split; [left; reflexivity|reflexivity]|].
    apply Forall2_cons; [right; split; [reflexivity|split; [constructor|vm_compute; lia]]|].
    apply Forall2_cons; [left; exists [9%N]; split; [right; exists 0; split; [lia|reflexivity]|reflexivity]|].
    apply Forall2_cons; [left; exists (repeat 32%N 3 ++ [9%N]); split; [right; exists 3; split; [lia|reflexivity]|reflexivity]|].
    apply Forall2_cons; [left; exists (repeat 32%N 4); split; [left; reflexivity|reflexivity]|].
    apply Forall2_cons; [right; split; [reflexivity|split; [repeat constructor|vm_compute; lia]]|]. constructor.
  - repeat (apply Forall_cons; [intros x Hx; repeat (destruct Hx as [<-|Hx]; [split; discriminate|]); destruct Hx|]). constructor.
  - intros B. inversion B as [|? ? _ B1]. inversion B1 as [|? ? [X|X] _]; discriminate.
  - intros B. inversion B as [|? ? [X|X] _]; discriminate.
  - repeat constructor.
Qed.

(** ** C17: the text behind a closed block has no part in it, nor it in the text *)
Theorem C17_fenced_then_any_text :
  forall smart o i c n ls cl s, ho_sourcepos o = false -> Forall code_point s -> Forall (Forall code_point) ls ->
    i <= 3 -> fence_char c -> 3 <= n -> Forall no_eol ls -> Forall (fun x => ~ closes_fence c n x) ls -> closes_fence c n cl ->
    md_to_html smart o (flat_map (fun x => x ++ [10%N]) ((repeat 32%N i ++ repeat c n) :: ls ++ [cl]) ++ s) =
    let* h := md_to_html smart o s in
    Ok ((u "<pre><code>" ++ html_text (flat_map (fun x => unindent i (replace_char 0 65533 x) ++ [10%N]) ls) ++ u "</code></pre>" ++ [10%N]) ++ h).
Proof. exact fence_then. Qed.
Print Assumptions C17_fenced_then_any_text.
Example C17_then_case :
  let ls := [u "# a"; u "~~"] in
  md_to_html false default_opts (flat_map (fun x => x ++ [10%N]) (u "~~~" :: ls ++ [u " ~~~~ "]) ++ u "# b") =
  Ok (u "<pre><code># a" ++ [10%N] ++ u "~~" ++ [10%N] ++ u "</code></pre>" ++ [10%N] ++ u "<h1>b</h1>" ++ [10%N]).
Proof.
  intros ls. change (u "~~~") with (repeat 32%N 0 ++ repeat 126%N 3). rewrite (C17_fenced_then_any_text false default_opts 0 126%N 3 ls (u " ~~~~ ") (u "# b")); try reflexivity; try lia.
  - repeat (constructor; [unfold code_point; lia|]). constructor.
  - repeat (apply Forall_cons; [repeat (constructor; [unfold code_point; lia|]); constructor|]). constructor.
  - right. reflexivity.
  - repeat (apply Forall_cons; [intros x Hx; repeat (destruct Hx as [<-|Hx]; [split; discriminate|]); destruct Hx|]). constructor.
  - apply Forall_cons; [|apply Forall_cons; [|constructor]]; intros (a & b & m & A & B & E); destruct a as [|[|[|[|]]]]; try lia; try discriminate; destruct b as [|[|[|]]]; try lia; discriminate.
  - exists 1, 4, 1. repeat split; lia.
Qed.

(** ** C40: the lines from one that begins with a block-level tag up to the next blank line are in the HTML as they are (safe mode puts a comment in their place) *)
Theorem C40_block_then_any_text :
  forall smart o i l ls b s, ho_sourcepos o = false -> Forall code_point s -> Forall (Forall code_point) (l :: ls) ->
    i <= 3 -> opens_html l -> Forall no_eol (l :: ls) -> Forall (fun x => ~ blanks x) ls -> blanks b ->
    md_to_html smart o (flat_map (fun x => x ++ [10%N]) ((repeat 32%N i ++ l) :: ls ++ [b]) ++ s) =
    let* h := md_to_html smart o s in
    Ok ((if ho_safe o then u "<!-- raw HTML omitted -->" ++ [10%N]
         else flat_map (fun x => replace_char 0 65533 x ++ [10%N]) ((repeat 32%N i ++ l) :: ls)) ++ h).
Proof. exact html_then. Qed.
Print Assumptions C40_block_then_any_text.
Theorem C40_block_at_the_end :
  forall smart o i l ls, ho_sourcepos o = false -> i <= 3 -> opens_html l -> Forall no_eol (l :: ls) -> Forall (fun x => ~ blanks x) ls ->
    md_to_html smart o (flat_map (fun x => x ++ [10%N]) ((repeat 32%N i ++ l) :: ls)) =
    Ok (if ho_safe o then u "<!-- raw HTML omitted -->" ++ [10%N]
        else flat_map (fun x => replace_char 0 65533 x ++ [10%N]) ((repeat 32%N i ++ l) :: ls)).
Proof. exact html_end. Qed.
Print Assumptions C40_block_at_the_end.
Example C40_case :
  md_to_html true default_opts (flat_map (fun x => x ++ [10%N]) ([u "  <DIV class='a' "; u "    *b*"; u "# c &amp; "] ++ [u "  "]) ++ u "# d") =
  Ok (u "  <DIV class='a' " ++ [10%N] ++ u "    *b*" ++ [10%N] ++ u "# c &amp; " ++ [10%N] ++ u "<h1>d</h1>" ++ [10%N]).
Proof.
  change ([u "  <DIV class='a' "; u "    *b*"; u "# c &amp; "] ++ [u "  "]) with ((repeat 32%N 2 ++ u "<DIV class='a' ") :: [u "    *b*"; u "# c &amp; "] ++ [u "  "]). rewrite (C40_block_then_any_text true default_opts 2); try reflexivity; try lia.
  - repeat (constructor; [unfold code_point; lia|]). constructor.
  - repeat (apply Forall_cons; [repeat (constructor; [unfold code_point; lia|]); constructor|]). constructor.
  - exists [], (u "DIV"), (u " class='a' "). split; [reflexivity|]. split; [auto|]. split; [vm_compute; tauto|]. right. eexists. eexists. split; [reflexivity|left; reflexivity].
  - repeat (apply Forall_cons; [intros x Hx; repeat (destruct Hx as [<-|Hx]; [split; discriminate|]); destruct Hx|]). constructor.
  - apply Forall_cons; [|apply Forall_cons; [|constructor]]; intros H; unfold blanks in H; rewrite Forall_forall in H; [specialize (H 42%N)|specialize (H 35%N)]; destruct H as [H|H]; try discriminate; cbn; tauto.
  - repeat (constructor; [auto|]). constructor.
Qed.
