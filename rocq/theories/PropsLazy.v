(** * Property theorems about lines that continue a paragraph *)
From Verif Require Import Base Regex Common NormRef Node Inlines Blocks Html Main Spec SpecTree SpecSame SpecLazy LazySim.

(** ** C61 *)
(** Quote marks may be left out before lines that continue a paragraph. *)
Theorem C61_lazy_quote :
  forall smart o s s', ho_sourcepos o = false -> Forall code_point s -> Forall code_point s' -> ~ In 9%N s ->
    lazy_lines smart (text_lines s) (text_lines s') ->
    md_to_html smart o s' =
    let* h := md_to_html smart o s in Ok (u "<blockquote>" ++ [10%N] ++ h ++ u "</blockquote>" ++ [10%N]).
Proof. exact lazy_html. Qed.
Print Assumptions C61_lazy_quote.

Theorem C61_lazy_tree :
  forall smart s s', Forall code_point s -> Forall code_point s' -> ~ In 9%N s ->
    lazy_lines smart (text_lines s) (text_lines s') ->
    match parse_doc smart s with
    | Ok (T d k) => exists e b k', parse_doc smart s' = Ok (T e [T b k']) /\ n_t d = document /\ n_t e = document /\ n_t b = block_quote /\
        Forall2 (same_blocks lazy_right) k k'
    | Err e => parse_doc smart s' = Err e
    end.
Proof. exact lazy_doc. Qed.
Print Assumptions C61_lazy_tree.

(** Spaces before lines that continue a paragraph do not matter. *)
Theorem C61_indent :
  forall smart o s s', ho_sourcepos o = false -> Forall code_point s -> Forall code_point s' -> ~ In 9%N s ->
    moved_lines smart (text_lines s) (text_lines s') -> md_to_html smart o s' = md_to_html smart o s.
Proof. exact moved_html. Qed.
Print Assumptions C61_indent.

Theorem C61_indent_tree :
  forall smart s s', Forall code_point s -> Forall code_point s' -> ~ In 9%N s ->
    moved_lines smart (text_lines s) (text_lines s') ->
    match parse_doc smart s with
    | Ok (T d k) => exists d' k', parse_doc smart s' = Ok (T d' k') /\ n_t d = document /\ n_t d' = document /\
        Forall2 (same_blocks still_place) k k'
    | Err e => parse_doc smart s' = Err e
    end.
Proof. exact moved_doc. Qed.
Print Assumptions C61_indent_tree.

(** The condition on the first character is needed: a list item takes a mark. *)
Theorem C61_any_line_refuted :
  exists a b, ends_open false [a] /\
    md_to_html false (HO [10%N] false false) (lines_text [u "> " ++ a; b]) <>
    let* h := md_to_html false (HO [10%N] false false) (lines_text [a; b]) in
    Ok (u "<blockquote>" ++ [10%N] ++ h ++ u "</blockquote>" ++ [10%N]).
Proof. exists (u "a"), (u "- b"). split; [apply open_check; vm_compute; reflexivity|]. vm_compute. discriminate. Qed.
Print Assumptions C61_any_line_refuted.

(** The paragraph must be open: after a heading the mark is needed. *)
Theorem C61_no_paragraph_refuted :
  exists a b, plain_start b /\
    md_to_html false (HO [10%N] false false) (lines_text [u "> " ++ a; b]) <>
    let* h := md_to_html false (HO [10%N] false false) (lines_text [a; b]) in
    Ok (u "<blockquote>" ++ [10%N] ++ h ++ u "</blockquote>" ++ [10%N]).
Proof.
  exists (u "# a"), (u "b"). split; [exists 98%N, []; split; [reflexivity|]; vm_compute; intuition discriminate|].
  vm_compute. discriminate.
Qed.
Print Assumptions C61_no_paragraph_refuted.

Definition c61_lines : list str := [u "* x"; u "  > y"; u "  z"; []; u "c"; u "d"].
Definition c61_quoted : list str := [u "> * x"; u ">   > y"; u "      z"; u "> "; u "> c"; u "d"].
Example C61_case :
  lazy_lines false (text_lines (lines_text c61_lines)) (text_lines (lines_text c61_quoted)) /\
  exists h, md_to_html false (HO [10%N] false false) (lines_text c61_lines) = Ok h /\
    md_to_html false (HO [10%N] false false) (lines_text c61_quoted) = Ok (u "<blockquote>" ++ [10%N] ++ h ++ u "</blockquote>" ++ [10%N]).
Proof.
  split; [|eexists; split; vm_compute; reflexivity].
  pose proof (lazy_none false) as H.
  apply (lazy_mark _ _ _ (u "* x")) in H. apply (lazy_mark _ _ _ (u "  > y")) in H.
  apply (lazy_text _ _ _ (u "z") 2 6) in H;
    [|apply open_check; vm_compute; reflexivity|exists 122%N, []; split; [reflexivity|]; vm_compute; intuition discriminate].
  apply (lazy_mark _ _ _ []) in H. apply (lazy_mark _ _ _ (u "c")) in H.
  apply (lazy_text _ _ _ (u "d") 0 0) in H;
    [|apply open_check; vm_compute; reflexivity|exists 100%N, []; split; [reflexivity|]; vm_compute; intuition discriminate].
  exact H.
Qed.
Example C61_indent_case :
  moved_lines false [u "- a"; u "  b"] [u "- a"; u "         b"] /\
  md_to_html false (HO [10%N] false false) (lines_text [u "- a"; u "         b"]) =
    Ok (u "<ul>" ++ [10%N] ++ u "<li>a" ++ [10%N] ++ u "b</li>" ++ [10%N] ++ u "</ul>" ++ [10%N]).
Proof.
  split; [|vm_compute; reflexivity]. pose proof (moved_none false) as H. apply (moved_same _ _ _ (u "- a")) in H.
  apply (moved_text _ _ _ (u "b") 2 9) in H;
    [exact H|apply open_check; vm_compute; reflexivity|exists 98%N, []; split; [reflexivity|]; vm_compute; intuition discriminate].
Qed.
