(** * Property theorems about whole parses *)
From Verif Require Import Base Regex Entities Common NormRef Node Inlines Blocks Html Rst Dump Main
  Spec SpecTree ParseFacts.

(** ** C01 *)
(** [p] is any parser object, in any state.  Every str is a list of code points. *)
Theorem C01_only_two_exceptions :
  forall p s, Forall code_point s ->
    (exists t p', parse p s = Ok (t, p')) \/
    (parse p s = Err IndexError /\ exists a b, s = a ++ u "&#" ++ b) \/
    (parse p s = Err UnicodeEncodeError /\ exists c, In c s /\ surrogate c).
Proof. exact parse_outcomes. Qed.
Print Assumptions C01_only_two_exceptions.

Theorem C01_returns :
  forall p s, Forall code_point s ->
    (~ exists a b, s = a ++ u "&#" ++ b) -> (forall c, In c s -> ~ surrogate c) ->
    exists t p', parse p s = Ok (t, p').
Proof. exact parse_total. Qed.
Print Assumptions C01_returns.

Example C01_case : exists p s, Forall code_point s /\
  (~ exists a b, s = a ++ u "&#" ++ b) /\ (forall c, In c s -> ~ surrogate c) /\
  p_stack p = [] /\ p_refmap p <> [] /\ s = u "> 1. a" ++ [10; 960; 38; 42]%N.
Proof.
  exists (set_p_refmap [(u "X", (u "y", u ""))] (set_p_stack [] (new_parser true))), (u "> 1. a" ++ [10; 960; 38; 42]%N).
  split; [repeat constructor; discriminate|]. split; [|split; [|repeat split; discriminate]].
  - intros (a & b & H). assert (G : In 35%N (u "> 1. a" ++ [10; 960; 38; 42]%N)).
    { rewrite H. apply in_or_app. right. right. left. reflexivity. }
    vm_compute in G. intuition discriminate.
  - intros c Hc [H1 H2]. vm_compute in Hc. intuition (subst c; (apply H1; reflexivity) || (apply H2; reflexivity)).
Qed.

(** The stronger claim "never raises" is false of the code. *)
Theorem C01_never_raises_refuted :
  parse (new_parser false) (u "&#1;" ++ [LF] ++ u "foo") = Err IndexError /\
  parse (new_parser false) (u "[a](" ++ [55296%N] ++ u ")") = Err UnicodeEncodeError.
Proof. split; vm_compute; reflexivity. Qed.
Print Assumptions C01_never_raises_refuted.

(** ** C12 *)
Theorem C12_nesting :
  forall p s t p', Forall code_point s -> parse p s = Ok (t, p') ->
    t_type t = document /\
    forall x, In x (subtrees t) ->
      (forall k, In k (t_kids x) -> may_hold (t_type x) (t_type k) = true) /\
      (t_type x = list_ -> t_kids x <> []).
Proof. exact parsed_nesting. Qed.
Print Assumptions C12_nesting.

Example C12_case : exists t p',
  parse (new_parser false) (u "> - *a* ![b](c)") = Ok (t, p') /\
  map t_type (subtrees t) = [document; block_quote; list_; item; paragraph; emph; text; text; image; text].
Proof. eexists. eexists. split; vm_compute; reflexivity. Qed.

(** ** C13 *)
Theorem C13_ranges :
  forall p s t p', Forall code_point s -> parse p s = Ok (t, p') ->
  forall d, In d (nodes t) ->
    (n_t d = heading -> exists n, n_level d = Some n /\ 1 <= n <= 6) /\
    (n_t d = list_ \/ n_t d = item -> exists ld, n_list_data d = Some ld /\
       match ld_type ld with
       | ordered => ld_bullet_char ld = None /\ exists n, ld_start ld = Some n /\ (n <= 999999999)%N
       | bullet => ld_start ld = None /\ exists c, ld_bullet_char ld = Some c /\ In c (u "*+-")
       end).
Proof. exact parsed_ranges. Qed.
Print Assumptions C13_ranges.

Example C13_case : exists t p' d,
  parse (new_parser false) (u "999999999) a") = Ok (t, p') /\ In d (nodes t) /\ n_t d = list_ /\
  option_map ld_start (n_list_data d) = Some (Some 999999999%N).
Proof.
  eexists. eexists. eexists. split; [vm_compute; reflexivity|]. split; [right; left; reflexivity|]. split; reflexivity.
Qed.

(** ** C14 *)
Theorem C14_no_nul :
  forall p s t p', Forall code_point s -> parse p s = Ok (t, p') ->
    (forall d x, In d (nodes t) -> In x (node_strings d) -> ~ In 0%N x) /\
    (forall o r h r', ~ In 0%N (ho_softbreak o) -> html_render o r t = Ok (h, r') -> ~ In 0%N h).
Proof. exact parsed_no_nul. Qed.
Print Assumptions C14_no_nul.

Example C14_case :
  md_to_html false default_opts (u "a" ++ [0%N] ++ u "&#0; &#x0; `" ++ [0%N] ++ u "`")
  = Ok (u "<p>a" ++ [65533; 65533]%N ++ u " " ++ [65533%N] ++ u " <code>" ++ [65533%N] ++ u "</code></p>" ++ [LF]).
Proof. vm_compute. reflexivity. Qed.

(** ** C23, for parsed documents *)
Theorem C23_parsed_destinations :
  forall p s t p', Forall code_point s -> parse p s = Ok (t, p') ->
  forall d, In d (nodes t) -> n_t d = link \/ n_t d = image ->
    exists x, n_destination d = Some x /\ forallb uri_char x = true.
Proof. exact parsed_destinations. Qed.
Print Assumptions C23_parsed_destinations.

Example C23_parsed_case : exists t p' d,
  parse (new_parser false) (u "<http://a.b/" ++ [228%N] ++ u "\[>") = Ok (t, p') /\ In d (nodes t) /\ n_t d = link /\
  n_destination d = Some (u "http://a.b/%C3%A4%5C%5B").
Proof.
  eexists. eexists. eexists. split; [vm_compute; reflexivity|]. split; [right; right; left; reflexivity|]. split; reflexivity.
Qed.

(** ** C35 *)
Theorem C35_source_positions :
  forall p s t p', Forall code_point s -> parse p s = Ok (t, p') ->
  forall x, In x (subtrees t) -> inline_type (t_type x) = false ->
    n_sourcepos (t_data x) <> None /\
    1 <= first_line (t_data x) /\ first_line (t_data x) <= last_line (t_data x) /\
    last_line (t_data x) <= length (text_lines s) /\
    forall k, In k (t_kids x) -> inline_type (t_type k) = false ->
      first_line (t_data x) <= first_line (t_data k) /\ last_line (t_data k) <= last_line (t_data x).
Proof. exact parsed_positions. Qed.
Print Assumptions C35_source_positions.

Example C35_case : exists t p',
  parse (new_parser false) (u "a" ++ [13; 10; 10]%N ++ u "- b" ++ [13%N] ++ u "  - c" ++ [10%N]) = Ok (t, p') /\
  map (fun d => (n_t d, first_line d, last_line d)) (filter (fun d => negb (inline_type (n_t d))) (nodes t)) =
  [(document, 1, 4); (paragraph, 1, 1); (list_, 3, 4); (item, 3, 4); (paragraph, 3, 3); (list_, 4, 4); (item, 4, 4); (paragraph, 4, 4)].
Proof. eexists. eexists. split; vm_compute; reflexivity. Qed.

(** ** C05, C06, C07 for all texts *)
Theorem C05_safe_html_of_any_text :
  forall smart o s h, Forall code_point s -> ho_safe o = true -> escaped (ho_softbreak o) ->
    md_to_html smart o s = Ok h ->
    balanced (fun x => x = omitted_comment) (fun v => v = [] \/ exists d, v = escape_xml d /\ safe_url d) h.
Proof. exact text_own_markup. Qed.
Print Assumptions C05_safe_html_of_any_text.

Theorem C06_html_of_any_text :
  forall smart o s h, Forall code_point s -> md_to_html smart o s = Ok h ->
    exists t, parse_doc smart s = Ok t /\
    balanced (fun x => x = ho_softbreak o \/ raw_literal t x \/ (ho_safe o = true /\ x = omitted_comment))
             (fun _ => True) h.
Proof. exact text_balanced. Qed.
Print Assumptions C06_html_of_any_text.

Example C06_case :
  md_to_html false default_opts (u "*a <b>c* ![*d*](e)") = Ok (u "<p><em>a <b>c</em> <img src=""e"" alt=""d"" /></p>" ++ [LF]) /\
  md_to_html false (html_options None true false) (u "<b>[x](JAVASCRIPT:y)") = Ok (u "<p><!-- raw HTML omitted --><a>x</a></p>" ++ [LF]).
Proof. split; vm_compute; reflexivity. Qed.

(** ** C48 *)
Theorem C48_html_rendering_returns :
  forall smart o r s t, Forall code_point s -> parse_doc smart s = Ok t -> exists h r', html_render o r t = Ok (h, r').
Proof. exact text_renders. Qed.
Print Assumptions C48_html_rendering_returns.

Example C48_case : exists t, parse_doc true (u "1. > # a <x> [b]: /u") = Ok t /\ length (nodes t) = 12.
Proof. eexists. split; vm_compute; reflexivity. Qed.

(** ** C33 *)
(** RST rendering of a parsed document returns exactly if every heading has a first child with
    a literal (text, code or inline HTML). *)
Theorem C33_rst_rendering_returns_exactly_if :
  forall smart ic r s t, Forall code_point s -> parse_doc smart s = Ok t ->
    ((exists out r', rst_render ic r t = Ok (out, r')) <->
     forall x, In x (subtrees t) -> t_type x = heading ->
       exists k ks l, t_kids x = k :: ks /\ n_literal (t_data k) = Some l).
Proof. exact text_rst. Qed.
Print Assumptions C33_rst_rendering_returns_exactly_if.

Theorem C33_rst_always_renders_refuted :
  commonmark (u "#") (u "rst") = Err AttributeError /\
  commonmark (u "# *foo*") (u "rst") = Err TypeError.
Proof. split; vm_compute; reflexivity. Qed.
Print Assumptions C33_rst_always_renders_refuted.

Example C33_case : exists t x, parse_doc false (u "# a *b*" ++ [LF] ++ u "> c") = Ok t /\
  In x (subtrees t) /\ t_type x = heading /\ option_map (fun k => n_literal (t_data k)) (hd_error (t_kids x)) = Some (Some (u "a ")) /\
  exists out r', rst_render [SP] new_rst t = Ok (out, r').
Proof.
  eexists. eexists. split; [vm_compute; reflexivity|]. split; [right; left; reflexivity|]. split; [reflexivity|]. split; [reflexivity|].
  eexists. eexists. vm_compute. reflexivity.
Qed.
