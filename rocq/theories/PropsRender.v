(** * Property theorems about the renderers, the dump and the dispatcher *)
From Verif Require Import Base Regex Entities Common NormRef Node Inlines Blocks Html Rst Dump Main
  Spec SpecTree RegexFacts StrFacts TreeFacts HtmlFacts RenderFacts.

(** ** C03 *)
Theorem C03_html_renderer_reusable :
  forall o docs outs r ast,
    html_renders o new_html docs = Ok (outs, r) ->
    html_render o r ast = html_render o new_html ast.
Proof. intros o docs outs r ast H. apply html_render_same. exact (html_renders_dis _ _ _ _ _ H). Qed.
Print Assumptions C03_html_renderer_reusable.

Example C03_case :
  exists outs r,
    html_renders default_opts new_html
      [T (new_node document None) [T (new_node paragraph None)
         [T (set_n_destination (Some (u "x")) (new_node image None))
            [T (set_n_literal (Some (u "alt")) (new_node text None)) []]]]] = Ok (outs, r) /\
    outs = [u "<p><img src=""x"" alt=""alt"" /></p>" ++ [LF]].
Proof. eexists. eexists. split; vm_compute; reflexivity. Qed.

(** ** C04 *)
Theorem C04_escape_xml :
  forall s, escaped (escape_xml s) /\ decode_xml (escape_xml s) = s.
Proof. intros s. exact (conj (escaped_escape_xml s) (decode_escape_xml s)). Qed.
Print Assumptions C04_escape_xml.

Theorem C04_escape_xml_none_and_plain :
  escape_xml_opt None = [] /\
  forall s, (forall c, In c s -> c <> 38 /\ c <> 60 /\ c <> 62 /\ c <> 34)%N -> escape_xml s = s.
Proof. exact escape_xml_none_plain. Qed.
Print Assumptions C04_escape_xml_none_and_plain.

Example C04_case : escape_xml (u "<a href=""x"">&amp;</a>")
                   = u "&lt;a href=&quot;x&quot;&gt;&amp;amp;&lt;/a&gt;".
Proof. vm_compute. reflexivity. Qed.

(** ** C05, C06, C07 on trees; Props*.v below have the versions for all input texts *)
Theorem C05_safe_render_is_own_markup :
  forall o r t s r',
    ho_safe o = true -> escaped (ho_softbreak o) -> h_dis r = 0%Z ->
    (forall d, In d (nodes t) -> standard_node d) ->
    html_render o r t = Ok (s, r') ->
    balanced (fun x => x = omitted_comment) (fun _ => True) s.
Proof. exact safe_render_own_markup. Qed.
Print Assumptions C05_safe_render_is_own_markup.

Example C05_case :
  exists t r', parse_doc false (u "# a <b onclick=""x""> *c* ![d <i>](e ""f"")") = Ok t /\
    (forall d, In d (nodes t) -> standard_node d) /\
    html_render (html_options None true false) new_html t = Ok
      (u "<h1>a <!-- raw HTML omitted --> <em>c</em> <img src=""e"" alt=""d <!-- raw HTML omitted -->"" title=""f"" /></h1>" ++ [LF], r').
Proof.
  eexists. eexists. split; [vm_compute; reflexivity|]. split; [|vm_compute; reflexivity].
  cbn. intros d H.
  repeat destruct H as [<-|H]; try destruct H; (split; [discriminate|]; split; [discriminate|]); cbn; try discriminate.
  intros _. exists 1. split; [reflexivity|lia].
Qed.

Theorem C06_render_is_balanced :
  forall o r t s r',
    h_dis r = 0%Z ->
    (forall d, In d (nodes t) -> standard_node d) ->
    html_render o r t = Ok (s, r') ->
    balanced (fun x => x = ho_softbreak o \/ raw_literal t x \/ (ho_safe o = true /\ x = omitted_comment))
             (fun _ => True) s.
Proof. exact render_balanced_raw. Qed.
Print Assumptions C06_render_is_balanced.

Theorem C07_safe_render_urls :
  forall o r t s r',
    ho_safe o = true -> escaped (ho_softbreak o) -> h_dis r = 0%Z ->
    (forall d, In d (nodes t) -> standard_node d) ->
    html_render o r t = Ok (s, r') ->
    balanced (fun x => x = omitted_comment)
             (fun v => v = [] \/ exists d, v = escape_xml d /\ safe_url d) s.
Proof. exact safe_render_balanced. Qed.
Print Assumptions C07_safe_render_urls.

Theorem C07_destination_tests :
  forall d, (potentially_unsafe d = false -> safe_url d) /\
            (ci_prefix (u "javascript:") d -> potentially_unsafe d = true) /\
            (forall w, In w [u "vbscript:"; u "file:"; u "data:"] -> ci_infix w d -> ~ safe_data_url d ->
                       potentially_unsafe d = true).
Proof. exact destination_tests. Qed.
Print Assumptions C07_destination_tests.

Example C07_case : potentially_unsafe (u "JavaScript:alert(1)") = true /\
                   potentially_unsafe (u "data:image/png;base64,xx") = false /\
                   ci_prefix (u "javascript:") (u "JavaScript:alert(1)").
Proof.
  split; [vm_compute; reflexivity|]. split; [vm_compute; reflexivity|].
  exists (u "JavaScript:"), (u "alert(1)"). split; vm_compute; reflexivity.
Qed.

(** ** C31 *)
Theorem C31_commonmark_dispatch :
  forall s,
    commonmark s (u "html") = (let* ast := parse_doc false s in
                               let* h := render_html default_opts ast in Ok (Out (Some h) [])) /\
    commonmark s (u "rst") = (let* ast := parse_doc false s in
                              let* h := render_rst ast in Ok (Out (Some h) [])) /\
    commonmark s (u "json") = (let* ast := parse_doc false s in
                               let* h := dumpJSON ast in Ok (Out (Some h) [])) /\
    commonmark s (u "ast") = (let* ast := parse_doc false s in Ok (Out None (dumpAST ast))) /\
    (forall fmt, fmt <> u "html" -> fmt <> u "rst" -> fmt <> u "json" -> fmt <> u "ast" ->
       forall ast, parse_doc false s = Ok ast -> commonmark s fmt = Err ValueError).
Proof. exact commonmark_dispatch. Qed.
Print Assumptions C31_commonmark_dispatch.

Example C31_case : commonmark (u "*a*") (u "latex") = Err ValueError /\
                   commonmark (u "*a*") (u "html") = Ok (Out (Some (u "<p><em>a</em></p>" ++ [LF])) []).
Proof. split; vm_compute; reflexivity. Qed.

(** ** C32 *)
Theorem C32_children_refuted :
  exists s t r0 l, parse_doc false s = Ok t /\ prepare t = Ok (r0 :: l) /\
    map rep_data (rep_children r0) <> map t_data (t_kids t).
Proof. exact json_children_wrong. Qed.
Print Assumptions C32_children_refuted.

(** What holds instead: reading the dumped objects in order, each before its children, gives
    exactly the nodes of the walker's events, in order; and the dump never raises. *)
Theorem C32_dump_lists_events :
  forall t, exists l, prepare t = Ok l /\
    flat_map (fun r => rep_data r :: map rep_data (rep_children r)) l
    = map (fun ev => t_data (ev_node ev)) (walker t).
Proof. exact prepare_events. Qed.
Print Assumptions C32_dump_lists_events.

Example C32_case : exists l, prepare (T (new_node document None) [T (new_node paragraph None) [T (new_node text None) []]]) = Ok l /\
  map (fun r => (n_t (rep_data r), map (fun c => n_t (rep_data c)) (rep_children r))) l
  = [(document, [paragraph; text]); (paragraph, []); (document, [])].
Proof. eexists. split; vm_compute; reflexivity. Qed.

(** ** C34 *)
Theorem C34_rst_renderer_reusable :
  forall ic docs outs r ast,
    rst_renders ic new_rst docs = Ok (outs, r) ->
    rst_render ic r ast = rst_render ic new_rst ast.
Proof. intros ic docs outs r ast H. apply rst_render_same. exact (rst_renders_ind _ _ _ _ _ H). Qed.
Print Assumptions C34_rst_renderer_reusable.

Example C34_case :
  exists outs r,
    rst_renders [SP] new_rst
      [T (new_node document None) [T (new_node block_quote None) [T (new_node paragraph None)
            [T (set_n_literal (Some (u "q")) (new_node text None)) []]]]] = Ok (outs, r) /\
    outs = [[LF] ++ u "    q" ++ [LF]].
Proof. eexists. eexists. split; vm_compute; reflexivity. Qed.

(** ** C36 *)
Theorem C36_tight_paragraph_no_tag :
  forall o d kids i l anc ld st st',
    n_t d = paragraph -> n_t l = list_ -> n_list_data l = Some ld -> h_dis st = 0%Z ->
    html_events o (events (i :: l :: anc) (T d kids)) st = Ok st' ->
    exists st1 st2,
      html_events o (flat_map (events (d :: i :: l :: anc)) kids) st1 = Ok st2 /\
      if ld_tight ld then st1 = st /\ st2 = st'
      else h_buf st1 = h_buf st ++ cr_out st ++ u "<p" ++ attrs_str (attrs_of o d) ++ u ">" /\
           h_buf st' = h_buf st2 ++ u "</p>" ++ [LF].
Proof. exact paragraph_in_list. Qed.
Print Assumptions C36_tight_paragraph_no_tag.

Example C36_case : forall tight,
  let pa := new_node paragraph None in let it := new_node item None in
  let li := set_n_list_data (Some (LD bullet tight (Some 42%N) None None 2 0)) (new_node list_ None) in
  n_t pa = paragraph /\ n_t li = list_ /\
  option_map (fun st => h_buf st) (match html_events default_opts (events [it; li] (T pa [])) new_html with Ok s => Some s | Err _ => None end)
  = Some (if tight then [] else u "<p></p>" ++ [LF]).
Proof. intros [|]; vm_compute; repeat split; reflexivity. Qed.
