(** * A closed fenced code block and the text behind it: C17 *)
From Verif Require Import Base Regex Common NormRef Node Inlines Blocks Html Main RegexFacts StrFacts Spec SpecTree SpecSame SpecLines
  TreeFacts CommonFacts StrProp EmphFacts InlineFacts InlineInv HtmlFacts RenderFacts BlockFacts LineFacts ParseFacts Sim SimFacts SameHtml DocFacts TextFacts WordFacts EmphDoc RuleFacts MarkFacts LeafFacts FenceFacts IndentFacts CodeHtml AfterFacts.
From Coq Require Import ZifyBool ZifyNat ZifyN.

Lemma code_events o d b cd lit cls : ho_sourcepos o = false -> n_t cd = code_block -> n_literal cd = Some lit ->
  match (if truthy (n_info cd) then split_ws (or_empty (n_info cd)) else []) with [] => cls = [] | w :: _ => w <> [] /\ cls = u " class=""language-" ++ html_text w ++ u """" end ->
  html_events o (events [d] (T (set_n_last_line_blank b cd) [])) (HS [] [LF] 0) = Ok (HS (u "<pre><code" ++ cls ++ u ">" ++ html_text lit ++ u "</code></pre>" ++ [10%N]) [LF] 0).
Proof.
  intros Ho Ec El Hcls. cbn [events n_t set_n_last_line_blank]. rewrite Ec. change (is_container code_block) with false. cbv iota. cbn [html_events].
  unfold html_node. cbn [n_t set_n_last_line_blank]. rewrite Ec. unfold h_code_block, attrs_of. cbn [n_literal n_info set_n_last_line_blank]. rewrite Ho, El. set (words := if truthy (n_info cd) then _ else _) in *.
  assert (Ecl : flat_map attr_text ([] ++ match words with w :: _ => if is_nil w then [] else [(u "class", u "language-" ++ escape_xml w)] | [] => [] end) = cls).
  { cbn [app]. destruct words as [|w ws]; [subst cls; reflexivity|]. destruct Hcls as [Hw ->]. destruct w as [|w0 w]; [congruence|]. cbn [is_nil flat_map]. unfold attr_text. cbn [fst snd]. rewrite escape_xml_html, app_nil_r, <- !app_assoc. reflexivity. }
  remember (match words with w :: _ => _ | [] => [] end) as attrs eqn:Z. clear Z Hcls. cbn [app] in *. change (h_cr (HS [] [LF] 0)) with (HS [] [LF] 0).
  change (h_tag0 (u "pre") (HS [] [LF] 0)) with (HS (u "<pre>") (u ">") 0). unfold h_tag at 1. cbn [h_dis h_buf]. change (Z.ltb 0 0) with false. cbv iota. rewrite Ecl. cbn [app].
  unfold h_out, h_lit at 1. cbn [h_buf h_dis escape_xml_opt]. unfold h_tag0, h_tag. cbn [h_dis h_buf flat_map]. change (Z.ltb 0 0) with false. cbv iota. cbn [h_dis h_buf]. change (Z.ltb 0 0) with false. cbv iota.
  unfold h_cr. cbn [h_last]. change (str_eqb (u ">") [LF]) with false. cbv iota. unfold h_lit. cbn [h_buf h_dis bind]. rewrite escape_xml_html, <- !app_assoc. reflexivity.
Qed.
Lemma fence_then_gen smart o i l c n info ls cl s cls : ho_sourcepos o = false -> Forall code_point s -> Forall (Forall code_point) (l :: ls) -> i <= 3 -> opens_fence l c n info -> no_eol info -> Forall no_eol ls -> Forall (fun x => ~ closes_fence c n x) ls -> closes_fence c n cl ->
  match (let info' := Some (unescape_string (strip (replace_char 0 65533 info))) in if truthy info' then split_ws (or_empty info') else []) with [] => cls = [] | w :: _ => w <> [] /\ cls = u " class=""language-" ++ html_text w ++ u """" end ->
  md_to_html smart o (flat_map (fun x => x ++ [10%N]) ((repeat 32%N i ++ l) :: ls ++ [cl]) ++ s) =
  let* h := md_to_html smart o s in Ok ((u "<pre><code" ++ cls ++ u ">" ++ html_text (flat_map (fun x => unindent i (replace_char 0 65533 x) ++ [10%N]) ls) ++ u "</code></pre>" ++ [10%N]) ++ h).
Proof.
  intros Ho Hs Hcp Hi Hl Hinfo Hls Hcl Hend Hcls. pose proof Hl as (El & Hc & Hn & _ & _). pose proof (opens_no_eol l c n info Hl Hinfo) as Hle. pose proof (closes_no_eol c n cl Hc Hend) as Hce.
  destruct (reset_fresh smart) as ((d & Es & Ed & Esp & Esc) & En & Er & Esm).
  destruct (fence_run _ i l c n info ls d [] Es Ed) as (ld & d' & p' & E & Hin & R & Sm & Nn & Dc); [exact Esp|exact Hi|exact Hl|exact Hinfo|exact Hls|exact Hcl|].
  pose proof (replace_no_eol info Hinfo) as Hinfo'. remember (replace_char 0 65533 info) as info' eqn:Z. clear Z.
  assert (Hlf : ~ In LF info') by (intros X; destruct (Hinfo' _ X) as [X1 _]; apply X1; reflexivity). pose proof Hin as [S1 S2 S3 S4].
  destruct (fence_close p' ld d' [] c n i info' _ cl Hin Hlf Hc Hn Hce) as (cd & p2 & E2 & T1 & C1 & C2 & C3 & R2 & Sm2 & N2); [rewrite closes_replace by exact Hc; exact Hend|]. cbn [app] in T1.
  apply leaf_then with (q := p2) (d0 := d') (ld := cd); try assumption; try congruence.
  - rewrite app_comm_cons. apply Forall_app. split; [constructor; [apply Forall_app; split; [|exact (Forall_inv Hcp)]|exact (Forall_inv_tail Hcp)]|constructor; [|constructor]].
    + apply Forall_forall. intros z Hz. apply repeat_spec in Hz as ->. unfold code_point. lia.
    + destruct Hend as (a & b & m & _ & _ & ->). apply Forall_forall. intros z Hz. rewrite !in_app_iff in Hz. unfold code_point. destruct Hz as [Hz|[Hz|Hz]]; apply repeat_spec in Hz; subst z; try lia. destruct Hc; subst c; lia.
  - rewrite app_comm_cons. apply Forall_app. split; [constructor; [apply spaces_no_eol, Hle|exact Hls]|constructor; [exact Hce|constructor]].
  - rewrite app_comm_cons, incorporate_app, E. cbn [bind incorporate_lines]. rewrite E2. reflexivity.
  - rewrite N2, Nn, En. rewrite app_comm_cons, app_length. cbn [length]. lia.
  - rewrite C1. reflexivity.
  - intros b0 d0 _. apply code_events; [exact Ho|exact C1|exact C3|]. rewrite C2. exact Hcls.
Qed.
Theorem fence_then smart o i c n ls cl s : ho_sourcepos o = false -> Forall code_point s -> Forall (Forall code_point) ls -> i <= 3 -> fence_char c -> 3 <= n -> Forall no_eol ls -> Forall (fun x => ~ closes_fence c n x) ls -> closes_fence c n cl ->
  md_to_html smart o (flat_map (fun x => x ++ [10%N]) ((repeat 32%N i ++ repeat c n) :: ls ++ [cl]) ++ s) =
  let* h := md_to_html smart o s in Ok ((u "<pre><code>" ++ html_text (flat_map (fun x => unindent i (replace_char 0 65533 x) ++ [10%N]) ls) ++ u "</code></pre>" ++ [10%N]) ++ h).
Proof.
  intros Ho Hs Hcp Hi Hc Hn Hls Hcl He. rewrite (fence_then_gen smart o i (repeat c n) c n [] ls cl s []); try assumption; [reflexivity|..].
  - constructor; [|exact Hcp]. apply Forall_forall. intros z Hz. apply repeat_spec in Hz as ->. unfold code_point. destruct Hc; subst c; lia.
  - split; [rewrite app_nil_r; reflexivity|]. split; [exact Hc|]. split; [exact Hn|]. split; [discriminate|intros _ []].
  - intros x [].
  - cbv zeta. change (strip (replace_char 0 65533 [])) with (@nil N). rewrite unescape_nil. reflexivity.
Qed.
