(** * Property theorems about texts that are shown as they are *)
From Verif Require Import Base Regex Entities Common NormRef Node Inlines Blocks Html Rst Dump Main
  Spec SpecTree SpecSame LineFacts WordFacts.

(** ** C19 *)
(** [no_eol]: no line feed and no carriage return *)
Theorem C19_escaped_text_is_literal :
  forall smart o s, ho_sourcepos o = false -> s <> [] -> no_eol s -> ~ In 0%N s ->
    (forall c, hd_error s = Some c \/ last_opt s = Some c -> is_space c = false) ->
    (exists t, parse_doc smart (backslash_escape s) = Ok t /\ paragraph_of_text t s) /\
    md_to_html smart o (backslash_escape s) = Ok (one_paragraph (html_text s)).
Proof. exact escaped_text_md. Qed.
Print Assumptions C19_escaped_text_is_literal.

Example C19_case : backslash_escape (u "1. *a* [b](c) <d> ""e"" & `f`") = u "1\. \*a\* \[b\]\(c\) \<d\> \""e\"" \& \`f\`" /\
  md_to_html true default_opts (u "1\. \*a\* \[b\]\(c\) \<d\> \""e\"" \& \`f\`") =
  Ok (one_paragraph (html_text (u "1. *a* [b](c) <d> ""e"" & `f`"))).
Proof. split; [reflexivity|]. apply (C19_escaped_text_is_literal true default_opts (u "1. *a* [b](c) <d> ""e"" & `f`")); [reflexivity|discriminate|intros c H; cbn in H; intuition (subst; discriminate)|cbn; intuition discriminate|]. cbn. intros c [H|H]; injection H as <-; reflexivity. Qed.

(** ** C20 *)
(** [list_number s]: [s] starts with decimal digits, a full stop or a closing parenthesis, and then a
    blank or nothing. *)
Theorem C20_plain_line :
  forall o s, ho_sourcepos o = false -> s <> [] -> Forall ordinary_char s ->
    (forall c, hd_error s = Some c -> is_space c = false /\ ~ block_char c) ->
    (forall c, last_opt s = Some c -> is_space c = false) -> ~ list_number s ->
    (exists t, parse_doc false s = Ok t /\ paragraph_of_text t s) /\
    md_to_html false o s = Ok (one_paragraph (html_text s)).
Proof. exact plain_line_md. Qed.
Print Assumptions C20_plain_line.

Example C20_case : Forall ordinary_char (u "Plain text: (1) it's ""here"", a] b > c! #5 -- 2.5+3~x") /\
  md_to_html false default_opts (u "Plain text: (1) it's ""here"", a] b > c! #5 -- 2.5+3~x") =
  Ok (u "<p>Plain text: (1) it's &quot;here&quot;, a] b &gt; c! #5 -- 2.5+3~x</p>" ++ [10%N]).
Proof.
  assert (H : Forall ordinary_char (u "Plain text: (1) it's ""here"", a] b > c! #5 -- 2.5+3~x")). { repeat (constructor; [unfold ordinary_char; cbn; intuition discriminate|]). constructor. }
  split; [exact H|]. apply (C20_plain_line default_opts (u "Plain text: (1) it's ""here"", a] b > c! #5 -- 2.5+3~x")); [reflexivity|discriminate|exact H| | |].
  - intros c X. injection X as <-. split; [reflexivity|]. unfold block_char. cbn. intuition discriminate.
  - intros c X. injection X as <-. reflexivity.
  - intros (ds & x & r & E & Hn & Hd & _). destruct ds as [|d ds]; [congruence|]. injection E as <- _. inversion Hd as [|? ? X _]. discriminate X.
Qed.

(** ** C22 *)
(** The inline parser on a block's content: any text, with line feeds *)
Theorem C22_code_span :
  forall s n t, 0 < n -> no_ticks_run n t ->
    exists s' d l, parseInlines (repeat 96%N n ++ t ++ repeat 96%N n) s = Ok ([T d []], s') /\
      n_t d = code /\ n_literal d = Some l /\ code_span_text t l.
Proof. exact (fun s n t Hn Ht => match code_span_inlines s n t Hn Ht with ex_intro _ s' (ex_intro _ l (conj E H)) => ex_intro _ s' (ex_intro _ _ (ex_intro _ l (conj E (conj eq_refl (conj eq_refl H))))) end). Qed.
Print Assumptions C22_code_span.
(** A whole document of one line *)
Theorem C22_code_span_document :
  forall smart o n t, ho_sourcepos o = false -> 0 < n -> no_ticks_run n t -> no_eol t -> ~ In 0%N t ->
    exists l, code_span_text t l /\
      md_to_html smart o (repeat 96%N n ++ t ++ repeat 96%N n) = Ok (one_paragraph (u "<code>" ++ html_text l ++ u "</code>")).
Proof. exact code_span_md. Qed.
Print Assumptions C22_code_span_document.

Example C22_case : no_ticks_run 2 (u " a`b```<c> ") /\ code_span_text (u " a`b```<c> ") (u "a`b```<c>") /\
  md_to_html false default_opts (u "`` a`b```<c> ``") = Ok (u "<p><code>a`b```&lt;c&gt;</code></p>" ++ [10%N]).
Proof.
  split; [|split; [|vm_compute; reflexivity]].
  - split; [exists 32%N, 32%N; eexists; split; [reflexivity|]; split; [reflexivity|split; discriminate]|].
    intros a b E. do 9 (destruct a as [|? a]; [injection E; intros; subst; try discriminate; cbn; auto|injection E as <- E]; [..|]); try (destruct b; discriminate).
    all: repeat (destruct a as [|? a]; [discriminate E|injection E as <- E]); destruct a; discriminate E.
  - split.
    + intros m E _. change (u " a`b```<c> ") with (32%N :: u "a`b```<c>" ++ [32%N]) in E. cbn in E. injection E as E. change ([97; 96; 98; 96; 96; 96; 60; 99; 62; 32]%N) with (u "a`b```<c>" ++ [32%N]) in E. apply app_inj_tail in E as [E _]. exact E.
    + intros H. exfalso. specialize (H (u "a`b```<c>") eq_refl). inversion H as [|? ? X _]. discriminate X.
Qed.

(** ** C29 *)
Theorem C29_underscores_in_words :
  forall smart o s, ho_sourcepos o = false -> Forall (fun c => letter_or_digit c \/ c = 95%N) s ->
    (exists c, hd_error s = Some c /\ letter_or_digit c) -> (exists c, last_opt s = Some c /\ letter_or_digit c) ->
    (exists t, parse_doc smart s = Ok t /\ paragraph_of_text t s) /\
    md_to_html smart o s = Ok (one_paragraph (html_text s)).
Proof. exact word_line_md. Qed.
Print Assumptions C29_underscores_in_words.

Example C29_case : md_to_html false default_opts (u "snake_case__x_1_" ++ [1078; 95; 20013]%N) = Ok (u "<p>snake_case__x_1_" ++ [1078; 95; 20013]%N ++ u "</p>" ++ [10%N]).
Proof.
  assert (L : forall lo hi c, In (lo, hi) letter_ranges -> N.leb lo c = true -> N.leb c hi = true -> letter_or_digit c) by (intros lo hi c H1 H2 H3; exists lo, hi; split; [exact H1|split; apply N.leb_le; assumption]).
  apply (C29_underscores_in_words false default_opts (u "snake_case__x_1_" ++ [1078; 95; 20013]%N)); [reflexivity| | |].
  - repeat (constructor; [first [right; reflexivity|left; first [apply (L 97 122)%N; [cbn; tauto|reflexivity|reflexivity]|apply (L 48 57)%N; [cbn; tauto|reflexivity|reflexivity]|apply (L 1024 1153)%N; [cbn; tauto|reflexivity|reflexivity]|apply (L 19968 40959)%N; [cbn; tauto|reflexivity|reflexivity]]]|]). constructor.
  - exists 115%N. split; [reflexivity|]. apply (L 97 122)%N; [cbn; tauto|reflexivity|reflexivity].
  - exists 20013%N. split; [reflexivity|]. apply (L 19968 40959)%N; [cbn; tauto|reflexivity|reflexivity].
Qed.
