(** * Theorems about inlines: emphasis, the smart option *)
From Verif Require Import Base Common Node Inlines Blocks Html Main StrFacts Spec SpecTree SpecSame CommonFacts StrProp InlineFacts EmphFacts DocFacts TextFacts WordFacts EmphDoc SmartFacts.

(** ** C28 *)
(** Content of ordinary characters, asterisks and underscores, with smart off: writing back gives exactly the content *)
Theorem C28_written_back :
  forall content s, ip_smart s = false -> Forall (fun c => ordinary_char c \/ c = 42%N \/ c = 95%N) (strip content) ->
    exists ks s', parseInlines content s = Ok (ks, s') /\ writes_all ks (map TChar (strip content)).
Proof. exact emph_inlines_chars. Qed.
Print Assumptions C28_written_back.
(** A whole document of one line *)
Theorem C28_written_back_document :
  forall l, l <> [] -> Forall (fun c => ordinary_char c \/ c = 42%N \/ c = 95%N) l ->
    (forall c, hd_error l = Some c -> is_space c = false /\ ~ block_char c) -> (forall c, last_opt l = Some c -> is_space c = false) -> ~ list_number l ->
    exists dd pd ks, parse_doc false l = Ok (T dd [T pd ks]) /\ n_t dd = document /\ n_t pd = paragraph /\ writes_all ks (map TChar l).
Proof. exact emph_line_doc. Qed.
Print Assumptions C28_written_back_document.
(** Any content: pairing the delimiters keeps the sequence of characters and other nodes that was there
    before it, up to the turning of typographic quotes *)
Theorem C28_pairing_keeps_text :
  forall content s st, Forall code_point content -> refs_ok code_point (ip_refmap s) ->
    inline_loop (S (length (strip content))) (IP (strip content) 0 (ip_refmap s) (ip_smart s) [] [] [] 0) = Ok st ->
    exists ks n s', processEmphasis None (ip_delims st) (ip_kids st) (ip_next st) = Ok ([], ks, n) /\ parseInlines content s = Ok (map snd ks, s') /\
      (exists w, writes_all (map snd (ip_kids st)) w) /\
      forall w, writes_all (map snd (ip_kids st)) w -> exists w', writes_all (map snd ks) w' /\ Forall2 same_tok w w'.
Proof. exact pairing_any. Qed.
Print Assumptions C28_pairing_keeps_text.

Example C28_case :
  md_to_html false default_opts (u "a ***b** c* __d* _e") = Ok (u "<p>a <em><strong>b</strong> c</em> __d* _e</p>" ++ [10%N]) /\
  exists dd pd ks, parse_doc false (u "a ***b** c* __d* _e") = Ok (T dd [T pd ks]) /\ writes_all ks (map TChar (u "a ***b** c* __d* _e")).
Proof.
  split; [vm_compute; reflexivity|]. destruct (C28_written_back_document (u "a ***b** c* __d* _e")) as (dd & pd & ks & H1 & _ & _ & H2).
  - discriminate.
  - repeat (constructor; [first [right; left; reflexivity|right; right; reflexivity|left; unfold ordinary_char; cbn; intuition discriminate]|]). constructor.
  - intros c X. injection X as <-. split; [reflexivity|]. unfold block_char. cbn. intuition discriminate.
  - intros c X. injection X as <-. reflexivity.
  - intros (ds & x & r & E & Hn & Hd & _). destruct ds as [|d ds]; [congruence|]. injection E as <- _. inversion Hd as [|? ? X _]. discriminate X.
  - exists dd, pd, ks. auto.
Qed.
Example C28_pairing_case : Forall code_point (u "*a `b*` **""c""**") /\ exists st, inline_loop 17 (IP (u "*a `b*` **""c""**") 0 [] true [] [] [] 0) = Ok st.
Proof.
  split; [repeat (constructor; [unfold code_point; intros X; discriminate X|]); constructor|].
  eexists. vm_compute. reflexivity.
Qed.

(** ** C30 *)
Theorem C30_same_without_marks :
  forall s, Forall code_point s -> no_smart_marks s -> parse_doc true s = parse_doc false s.
Proof. exact smart_same_doc. Qed.
Print Assumptions C30_same_without_marks.
(** Lines of words, spaces and hyphens: every run of two or more hyphens becomes dashes *)
Theorem C30_dashes :
  forall o s, ho_sourcepos o = false -> Forall (fun c => letter_or_digit c \/ c = 32%N \/ c = 45%N) s ->
    (exists c, hd_error s = Some c /\ letter_or_digit c) -> (exists c, last_opt s = Some c /\ is_space c = false) ->
    exists t, dashed s t /\ (exists d, parse_doc true s = Ok d /\ paragraph_of_text d t) /\ md_to_html true o s = Ok (one_paragraph (html_text t)).
Proof. exact dash_line. Qed.
Print Assumptions C30_dashes.

Example C30_same_case : no_smart_marks (u "# a - b.. *c*") /\ parse_doc true (u "# a - b.. *c*") = parse_doc false (u "# a - b.. *c*").
Proof.
  assert (N1 : forall w s, existsb (fun i => str_eqb (firstn (length w) (skipn i s)) w) (seq 0 (S (length s))) = false -> forall a b, s <> a ++ w ++ b).
  { intros w s H a b ->. rewrite <- not_true_iff_false in H. apply H. apply existsb_exists. exists (length a). split; [apply in_seq; rewrite app_length; lia|].
    rewrite skipn_app, skipn_all, Nat.sub_diag. cbn [skipn app]. rewrite firstn_app, firstn_all, Nat.sub_diag. cbn [firstn]. rewrite app_nil_r. apply str_eqb_eq. reflexivity. }
  assert (H : no_smart_marks (u "# a - b.. *c*")).
  { split; [cbn; intuition discriminate|]. split; [cbn; intuition discriminate|]. split; apply N1; vm_compute; reflexivity. }
  split; [exact H|]. apply C30_same_without_marks; [|exact H]. repeat (constructor; [unfold code_point; intros X; discriminate X|]). constructor.
Qed.
Example C30_dashes_case : md_to_html true default_opts (u "a--b c---d - e-------f") = Ok (u "<p>a" ++ [8211]%N ++ u "b c" ++ [8212]%N ++ u "d - e" ++ [8212; 8211; 8211]%N ++ u "f</p>" ++ [10%N]) /\
  exists t, dashed (u "a--b c---d - e-------f") t /\ md_to_html true default_opts (u "a--b c---d - e-------f") = Ok (one_paragraph (html_text t)).
Proof.
  split; [vm_compute; reflexivity|]. assert (L : forall c, N.leb 97 c = true -> N.leb c 122 = true -> letter_or_digit c) by (intros c H1 H2; exists 97%N, 122%N; split; [cbn; tauto|split; apply N.leb_le; assumption]).
  destruct (C30_dashes default_opts (u "a--b c---d - e-------f")) as (t & H1 & _ & H2).
  - reflexivity.
  - repeat (constructor; [first [right; left; reflexivity|right; right; reflexivity|left; apply L; reflexivity]|]). constructor.
  - exists 97%N. split; [reflexivity|apply L; reflexivity].
  - exists 102%N. split; reflexivity.
  - exists t. auto.
Qed.
