(** * Property theorems about lines that cannot interrupt a paragraph *)
From Verif Require Import Base Regex Common NormRef Node Inlines Blocks Html Main Spec SpecTree SpecSame SpecParas SpecBreak SpecLazy SpecWeak LazySim WeakSim BreakForm.

(** ** C62 *)
(** No block begins with such a line, nor with any line that is indented by four spaces or more: the blocks before the paragraph stay, and the paragraph grows by
    the line, or turns out to hold nothing but link reference definitions. *)
Theorem C62_no_new_block :
  forall smart ls x m d k pd pk t, Forall (Forall code_point) ls -> Forall no_eol ls -> no_eol x -> ~ In 9%N x -> weak_start x \/ deep m x ->
    parse_doc smart (lines_text ls) = Ok (T d (k ++ [T pd pk])) -> n_t pd = paragraph -> last_line pd = length ls ->
    parse_doc smart (lines_text (ls ++ [repeat 32%N m ++ x])) = Ok t ->
    exists d' k', t = T d' k' /\
      (map t_data k' = map t_data k \/
       exists pd', map t_data k' = map t_data k ++ [pd'] /\ n_t pd' = paragraph /\ last_line pd' = S (length ls)).
Proof. exact weak_blocks. Qed.
Print Assumptions C62_no_new_block.

(** Spaces before such lines do not matter, wherever in a document they are. *)
Theorem C62_indent :
  forall smart o s s', ho_sourcepos o = false -> Forall code_point s -> Forall code_point s' -> ~ In 9%N s ->
    weak_lines smart (text_lines s) (text_lines s') -> md_to_html smart o s' = md_to_html smart o s.
Proof. exact weak_html. Qed.
Print Assumptions C62_indent.

Theorem C62_indent_tree :
  forall smart s s', Forall code_point s -> Forall code_point s' -> ~ In 9%N s ->
    weak_lines smart (text_lines s) (text_lines s') ->
    match parse_doc smart s with
    | Ok (T d k) => exists d' k', parse_doc smart s' = Ok (T d' k') /\ n_t d = document /\ n_t d' = document /\
        Forall2 (same_blocks still_place) k k'
    | Err e => parse_doc smart s' = Err e
    end.
Proof. exact weak_doc. Qed.
Print Assumptions C62_indent_tree.

(** The paragraph must not be in another block: a tag after a paragraph in a quote begins a block. *)
Theorem C62_nested_refuted :
  exists ls x m, ends_open false ls /\ weak_start x /\
    md_to_html false (HO [10%N] false false) (lines_text (ls ++ [repeat 32%N m ++ x])) <>
    md_to_html false (HO [10%N] false false) (lines_text (ls ++ [x])).
Proof.
  exists [u "> a"], (u "<b>"), 4. split; [apply open_check; vm_compute; reflexivity|]. split; [|vm_compute; discriminate].
  apply (weak_tag [] (u "b") (u ">")); [left; reflexivity|discriminate|constructor; [vm_compute; intuition discriminate|constructor]| |vm_compute; intuition discriminate].
  intros c E. injection E as <-. unfold tag_char. split; [split; reflexivity|]. intros [[A B]|[[A B]|[A B]]]; vm_compute in A, B; first [apply A; reflexivity|apply B; reflexivity].
Qed.
Print Assumptions C62_nested_refuted.

(** Definitions may take up the whole paragraph. *)
Theorem C62_paragraph_kept_refuted :
  exists ls x, ends_top false ls /\ weak_start x /\ ~ ends_top false (ls ++ [x]).
Proof.
  exists [u "[a]:"], (u "/b"). split; [apply top_check; vm_compute; reflexivity|]. split.
  - apply weak_word; [vm_compute; intuition discriminate|discriminate| |].
    + intros (x & b & r & E & _). discriminate.
    + intros [(n & w & E & _)|(n & w & E & _)]; discriminate.
  - intros (d & k & pd & pk & E & _). vm_compute in E. injection E as _ E. destruct k; discriminate.
Qed.
Print Assumptions C62_paragraph_kept_refuted.

(** The four letters: [<\u017Fection>] is no tag in the list, and begins a block. *)
Theorem C62_letters_refuted :
  exists c r t d k, ~ In c [0; 32]%N /\ ~ break_start (c :: r) /\ ~ underline (c :: r) /\ ends_top false [u "a"] /\
    parse_doc false (lines_text [u "a"; c :: r]) = Ok t /\ t = T d k /\ map (fun x => n_t (t_data x)) k = [paragraph; html_block].
Proof.
  exists 60%N, (383%N :: u "ection>"). destruct (parse_doc false (lines_text [u "a"; 60%N :: 383%N :: u "ection>"])) as [[d k]|] eqn:E; [|vm_compute in E; discriminate].
  exists (T d k), d, k. split; [vm_compute; intuition discriminate|]. split; [|split; [intros [(n & w & X & _)|(n & w & X & _)]; discriminate|split; [apply top_check; vm_compute; reflexivity|split; [reflexivity|split; [reflexivity|vm_compute in E; injection E as _ <-; reflexivity]]]]].
  clear. intros H. remember (60%N :: 383%N :: u "ection>") as l eqn:X. destruct H as [r|l n s Ha|l c n info Ho|l Ho|name rest Hn Hr|r|r|c r Hc|r|l Hr Hu|c b r Hc Hb Ht|d0 b r Hd Hb Ht]; try (injection X as X0 X; discriminate); try subst l.
  - destruct Ha as ([Hn _] & w & X & _). destruct n; [inversion Hn|]. injection X as X0 X. discriminate.
  - destruct Ho as (X & Hc & Hn & _). destruct n; [inversion Hn|]. injection X as X _. destruct Hc as [-> | ->]; discriminate.
  - destruct Ho as (sl & name & rest & X & Hs & Hn & _). injection X as X. destruct Hs as [-> | ->]; [|discriminate]. destruct name as [|x name]; [|injection X as <- _]; cbn [map] in Hn; unfold SpecLines.block_names in Hn; repeat (destruct Hn as [Hn|Hn]; [discriminate|]); destruct Hn.
  - injection X as X. destruct name as [|x name]; [|injection X as -> _]; cbn [map] in Hn; repeat (destruct Hn as [Hn|Hn]; [discriminate|]); destruct Hn.
  - destruct Hr as (x & Hx & X & _). injection X as <-. repeat (destruct Hx as [Hx|Hx]; [discriminate|]). destruct Hx.
  - injection X as -> _. repeat (destruct Hc as [Hc|Hc]; [discriminate|]). destruct Hc.
Qed.
Print Assumptions C62_letters_refuted.

(** Lines of which the list of lines that interrupt does not speak *)
Example C62_others :
  Forall weak_start [u "**"; u "_"; u "``` a`b"; u "####### x"; u "<!doctype>"; u "<1>"; u "*a* *b*"; u "1.x"; u "10. x"; u "-x- -"; u "&amp;"].
Proof.
  assert (J : forall l, hd_error l <> Some 32%N -> l <> [] -> quiet l = true -> ~ underline l -> forallb (fun x => negb (existsb (N.eqb x) [0; 304; 305; 383; 8490]%N)) l = true -> weak_start l).
  { intros [|c r] H1 H2 H3 H4 H5; [contradiction|]. apply weak_other; [intros ->; apply H1; reflexivity|apply quiet_break, H3|exact H4|]. intros x Hx Hin. rewrite forallb_forall in H5. specialize (H5 x Hx). apply negb_true_iff, not_true_iff_false in H5. apply H5, existsb_exists. exists x. split; [exact Hin|apply N.eqb_refl]. }
  assert (U : forall c r, c <> 61%N -> c <> 45%N -> ~ underline (c :: r)) by (intros c r H1 H2 [(n & w & X & _)|(n & w & X & _)]; injection X as X _; congruence).
  repeat (constructor; [apply J; [discriminate|discriminate|vm_compute; reflexivity|first [apply U; discriminate|intros [(n & w & X & _)|(n & w & X & Hw)]; [discriminate|]; destruct n; [|discriminate]; injection X as <-; apply Forall_inv in Hw; destruct Hw; discriminate]|vm_compute; reflexivity]|]). constructor.
Qed.

Definition c62_lines : list str := [u "# h"; u "text"; u "2. two"; u "+"; u "#x"; u "**b**"; u "_c_ d"; u "`e` ~"; u "<em>f"; u "<!-- g -->"].
Definition c62_moved : list str := [u "# h"; u "text"; u "    2. two"; u " +"; u "  #x"; u "   **b**"; u "      _c_ d"; u " `e` ~"; u "        <em>f"; u "<!-- g -->"].
Lemma c62_tag : weak_start (u "<em>f").
Proof.
  apply (weak_tag [] (u "em") (u ">f")); [left; reflexivity|discriminate| | |vm_compute; intuition discriminate].
  - repeat (constructor; [right; right; vm_compute; split; discriminate|]). constructor.
  - intros c E. injection E as <-. unfold tag_char. split; [split; reflexivity|]. intros [[A B]|[[A B]|[A B]]]; vm_compute in A, B; first [apply A; reflexivity|apply B; reflexivity].
Qed.
Example C62_case :
  weak_lines false (text_lines (lines_text c62_lines)) (text_lines (lines_text c62_moved)) /\
  exists h, md_to_html false (HO [10%N] false false) (lines_text c62_lines) = Ok h /\ md_to_html false (HO [10%N] false false) (lines_text c62_moved) = Ok h.
Proof.
  split; [|eexists; split; vm_compute; reflexivity]. pose proof (weak_none false) as H.
  apply (weak_same _ _ _ (u "# h")) in H. apply (weak_same _ _ _ (u "text")) in H.
  apply (weak_text _ _ _ (u "2. two") 0 4) in H; [|apply top_check; vm_compute; reflexivity|apply weak_word; [vm_compute; intuition discriminate|discriminate|intros (x & b & r & E & _); discriminate|intros [(n & w & E & _)|(n & w & E & _)]; discriminate]].
  apply (weak_text _ _ _ (u "+") 0 1) in H; [|apply top_check; vm_compute; reflexivity|apply (weak_empty 43 0); left; reflexivity].
  apply (weak_text _ _ _ (u "#x") 0 2) in H; [|apply top_check; vm_compute; reflexivity|apply (weak_joined 35 120 []); [left; reflexivity|discriminate|discriminate]].
  apply (weak_text _ _ _ (u "**b**") 0 3) in H; [|apply top_check; vm_compute; reflexivity|apply (weak_rule 42 42 (u "b**") 98); [left; reflexivity|discriminate|right; left; reflexivity|discriminate|discriminate]].
  apply (weak_text _ _ _ (u "_c_ d") 0 6) in H; [|apply top_check; vm_compute; reflexivity|apply (weak_line (u "c_ d") 99); [left; reflexivity|discriminate|discriminate]].
  apply (weak_text _ _ _ (u "`e` ~") 0 1) in H; [|apply top_check; vm_compute; reflexivity|apply (weak_ticks 96 0 (u "e` ~")); [left; reflexivity|auto|discriminate]].
  apply (weak_text _ _ _ (u "<em>f") 0 8) in H; [|apply top_check; vm_compute; reflexivity|exact c62_tag].
  apply (weak_same _ _ _ (u "<!-- g -->")) in H. exact H.
Qed.
Example C62_block_case :
  exists d k pd pk t, parse_doc false (lines_text [u "# h"; u "text"]) = Ok (T d (k ++ [T pd pk])) /\ n_t pd = paragraph /\ last_line pd = 2 /\
    parse_doc false (lines_text [u "# h"; u "text"; u "   <em>f"]) = Ok t.
Proof.
  destruct (parse_doc false (lines_text [u "# h"; u "text"])) as [[d ks]|e] eqn:E; [|vm_compute in E; discriminate].
  destruct (parse_doc false (lines_text [u "# h"; u "text"; u "   <em>f"])) as [t|e] eqn:E2; [|vm_compute in E2; discriminate].
  pose proof (top_check false [u "# h"; u "text"] ltac:(vm_compute; reflexivity)) as (d0 & k & pd & pk & X & Y & Z). rewrite E in X. exists d0, k, pd, pk, t. auto.
Qed.

(** Lines that would interrupt the paragraph, and an underline, if they were indented less *)
Definition c62_deep : list str := [u "# h"; u "text"; u "    # a"; u "    > b"; u "     ---"; u "    ==="; u "      - c"].
Definition c62_deeper : list str := [u "# h"; u "text"; u "     # a"; u "       > b"; u "    ---"; u "          ==="; u "    - c"].
Example C62_deep_case :
  weak_lines false c62_deep c62_deeper /\
  md_to_html false default_opts (lines_text c62_deep) = md_to_html false default_opts (lines_text c62_deeper) /\
  ends_top false c62_deep.
Proof.
  split; [|split; [vm_compute; reflexivity|apply top_check; vm_compute; reflexivity]].
  pose proof (weak_none false) as H.
  apply (weak_same _ _ _ (u "# h")) in H. apply (weak_same _ _ _ (u "text")) in H.
  assert (D : forall m c r, c <> 32%N -> deep (4 + m) (c :: r)) by (intros m c r Hc; split; [apply Nat.le_add_r|]; split; [discriminate|intros X; injection X as ->; apply Hc; reflexivity]).
  apply (weak_deep _ _ _ (u "# a") 4 5) in H; [|apply top_check; vm_compute; reflexivity|apply (D 0); discriminate|apply (D 1); discriminate].
  apply (weak_deep _ _ _ (u "> b") 4 7) in H; [|apply top_check; vm_compute; reflexivity|apply (D 0); discriminate|apply (D 3); discriminate].
  apply (weak_deep _ _ _ (u "---") 5 4) in H; [|apply top_check; vm_compute; reflexivity|apply (D 1); discriminate|apply (D 0); discriminate].
  apply (weak_deep _ _ _ (u "===") 4 10) in H; [|apply top_check; vm_compute; reflexivity|apply (D 0); discriminate|apply (D 6); discriminate].
  apply (weak_deep _ _ _ (u "- c") 6 4) in H; [|apply top_check; vm_compute; reflexivity|apply (D 2); discriminate|apply (D 0); discriminate].
  exact H.
Qed.
