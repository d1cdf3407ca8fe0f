(** * Paragraphs of several lines *)
From Verif Require Import Base Regex Common NormRef Node Inlines Blocks Html Main RegexFacts StrFacts Spec SpecTree SpecSame SpecLines SpecParas
  TreeFacts CommonFacts StrProp EmphFacts InlineFacts HtmlFacts RenderFacts BlockFacts BlockRun LineFacts ParseFacts Sim SimFacts SameHtml DocFacts TextFacts RuleFacts WordFacts AfterFacts.
From Verif Require RegexLang LeafFacts.
From Coq Require Import ZifyBool ZifyNat ZifyN.

(** ** Underlines *)
Definition setext_body : regex := RSeq (RAlt (RRep true 1 None (RChr (cs1 61))) (RRep true 1 None (RChr (cs1 45)))) (RSeq (RRep true 0 None (RChr blank_cs)) REol).
Lemma reSetext_shape : reSetextHeadingLine = RSeq RBol setext_body.
Proof. vm_compute. reflexivity. Qed.
Lemma setext_none l : ~ In 10%N l -> ~ underline l -> re_search reSetextHeadingLine l = None.
Proof.
  intros Hl Hn. assert (E : re_test reSetextHeadingLine l = false).
  { destruct (re_test reSetextHeadingLine l) eqn:E; [|reflexivity]. exfalso. apply Hn. rewrite reSetext_shape, test_line in E by reflexivity. unfold setext_body in E. cbn [RegexLang.L] in E.
    destruct E as (g & q & E & (g1 & g2 & -> & Ha & (w & g3 & -> & Hw & -> & Hq))). apply (no_lf_end l q _ Hl E) in Hq as ->. rewrite !app_nil_r in E. apply (L_blanks true 0) in Hw as [_ Hw].
    destruct Ha as [Ha|Ha]; apply (L_run true 1) in Ha as [H1 H2]; [left|right]; exists (length g1 - 1), w; (replace (S (length g1 - 1)) with (length g1) by lia); rewrite <- H2; split; assumption. }
  unfold re_test in E. destruct (re_search reSetextHeadingLine l); [discriminate|reflexivity].
Qed.
Lemma setext_some l c : c = 61%N \/ c = 45%N -> underline_of c l -> exists m, re_search reSetextHeadingLine l = Some m /\ hd_error (rm_group m) = Some c.
Proof.
  intros Hc (n & w & -> & Hw). assert (E : re_test reSetextHeadingLine (repeat c (S n) ++ w) = true).
  { rewrite reSetext_shape, test_line by reflexivity. exists (repeat c (S n) ++ w), []. split; [rewrite app_nil_r; reflexivity|]. unfold setext_body. cbn [RegexLang.L].
    exists (repeat c (S n)), w. split; [reflexivity|]. split.
    - destruct Hc as [-> | ->]; [left|right]; apply (L_run true 1); rewrite repeat_length; (split; [lia|reflexivity]).
    - exists w, []. split; [rewrite app_nil_r; reflexivity|]. split; [apply (L_blanks true 0); split; [lia|exact Hw]|]. split; [reflexivity|left; reflexivity]. }
  unfold re_test in E. destruct (re_search reSetextHeadingLine _) as [m|] eqn:Em; [|discriminate]. exists m. split; [reflexivity|].
  rewrite reSetext_shape, re_search_bol in Em. destruct (match_at setext_body None (repeat c (S n) ++ w)) as [[[g q] caps]|] eqn:Eg; [|discriminate].
  injection Em as <-. cbn [rm_group]. pose proof (RegexLang.match_at_L setext_body None _ _ _ _ eq_refl Eg) as [El HL].
  assert (Hg : g <> []) by (eapply RegexLang.L_nonempty; [|exact HL]; reflexivity). destruct g as [|x g]; [congruence|]. cbn [repeat app] in El. injection El as <- _. reflexivity.
Qed.

(** ** A line that interrupts no paragraph *)
Definition no_interrupt (l : str) : Prop :=
  hd_error l <> Some 62%N /\ hd_error l <> Some 60%N /\ re_search reATXHeadingMarker l = None /\ re_search reCodeFence l = None /\
  re_search reSetextHeadingLine l = None /\ re_test reThematicBreak l = false /\
  (forall i m dt, list_marker l true i = Some (m, dt) -> (exists c, nth_error l (length m) = Some c /\ c <> SP /\ c <> TAB) \/ re_test reNonSpace (skipn (length m) l) = false).
Lemma try_para z c r f st : rest_nonspace z = c :: r -> peek (p_line z) (p_next_nonspace z) = Some c -> p_indented z = Nat.leb 4 (p_indent z) -> p_stack z = f :: st -> f_type f = paragraph ->
  (p_indented z = false -> no_interrupt (c :: r)) -> try_starts block_starts paragraph z = Ok (SNone, z).
Proof.
  intros Er Ep Ei Es Ef Hno. unfold block_starts. cbn [try_starts]. destruct (p_indented z) eqn:Ez.
  - unfold start_block_quote at 1. rewrite Ez. cbn [negb andb bind]. unfold start_atx_heading at 1. rewrite Ez. cbn [bind].
    unfold start_fenced_code at 1. rewrite Ez. cbn [bind]. unfold start_html_block at 1. rewrite Ez. cbn [negb andb bind]. unfold start_setext_heading at 1. rewrite Ez. cbn [negb andb bind].
    unfold start_thematic_break at 1. rewrite Ez. cbn [negb andb bind]. unfold start_list_item at 1. rewrite Ez. change (ntype_eqb paragraph list_) with false. cbn [negb orb bind].
    unfold start_indented_code, tip. rewrite Es, Ez. cbn [hd_error of_option bind]. rewrite Ef. change (ntype_eqb paragraph paragraph) with true. cbn [negb andb]. reflexivity.
  - destruct (Hno eq_refl) as (N1 & N2 & N3 & N4 & N5 & N6 & N7). symmetry in Ei. apply Nat.leb_gt in Ei.
    assert (C1 : opt_is 62 (Some c) = false) by (cbn [opt_is]; apply N.eqb_neq; intros ->; apply N1; reflexivity).
    assert (C2 : opt_is 60 (Some c) = false) by (cbn [opt_is]; apply N.eqb_neq; intros ->; apply N2; reflexivity).
    unfold start_block_quote at 1. rewrite Ez, Ep, C1. cbn [negb andb bind]. unfold start_atx_heading at 1. rewrite Ez, Er, N3. cbn [bind].
    unfold start_fenced_code at 1. rewrite Ez, Er, N4. cbn [bind]. unfold start_html_block at 1. rewrite Ez, Ep, C2. cbn [negb andb bind].
    unfold start_setext_heading at 1. rewrite Ez, Er, N5. change (ntype_eqb paragraph paragraph) with true. cbn [negb andb bind].
    unfold start_thematic_break at 1. rewrite Er, N6, andb_false_r. cbn [bind].
    unfold start_list_item at 1. rewrite Ez. cbn [negb orb]. unfold parse_list_marker. rewrite (proj2 (Nat.leb_gt 4 (p_indent z))) by lia.
    change (ntype_eqb paragraph paragraph) with true. rewrite Er.
    assert (El : forall m, nth_error (p_line z) (p_next_nonspace z + m) = nth_error (c :: r) m).
    { intros m. rewrite <- Er. unfold rest_nonspace. rewrite nth_error_skipn. reflexivity. }
    assert (Es' : forall m, skipn (p_next_nonspace z + m) (p_line z) = skipn m (c :: r)).
    { intros m. rewrite <- Er. unfold rest_nonspace. rewrite skipn_skipn. f_equal. lia. }
    assert (Elast : start_indented_code z = Ok (SNone, z)) by (unfold start_indented_code, tip; rewrite Es, Ez; reflexivity).
    destruct (list_marker (c :: r) true (p_indent z)) as [[m dt]|] eqn:Em; cbn [bind].
    + unfold peek. rewrite El, Es'. destruct (N7 _ _ _ Em) as [(x & -> & X1 & X2)| ->].
      * rewrite (proj2 (N.eqb_neq x SP) X1), (proj2 (N.eqb_neq x TAB) X2). cbn [orb negb bind]. rewrite Elast. reflexivity.
      * cbn [negb andb]. destruct (negb _); cbn [bind]; rewrite Elast; reflexivity.
    + rewrite Elast. reflexivity.
Qed.

(** The frames of a paragraph in the document *)
Definition in_para (p : parser) (n i : nat) (content : str) (d : ndata) (k : list tree) : Prop :=
  p_stack p = [F (para_data n i content) []; F d k] /\ n_t d = document /\ n_sourcepos d <> None.
Lemma para_descend ln p n i content d k a c r : in_para p n i content d k -> replace_char 0 65533 ln = repeat SP a ++ c :: r -> is_space c = false ->
  exists x, incorporate_line ln p = line_tail (S (length (replace_char 0 65533 ln))) (replace_char 0 65533 ln) 2 x /\
    p_stack x = p_stack p /\ p_line x = replace_char 0 65533 ln /\ p_offset x = 0 /\ p_column x = 0 /\ p_pct x = false /\ p_all_closed x = true /\ p_line_number x = S (p_line_number p) /\
    p_refmap x = p_refmap p /\ p_smart x = p_smart p /\ p_ip x = p_ip p.
Proof.
  intros (Es & Ed & _) El Hc. assert (Hs : c <> SP /\ c <> TAB /\ c <> 10%N /\ c <> 13%N) by (repeat split; intros ->; discriminate Hc). destruct Hs as (H1 & H2 & H3 & H4).
  rewrite incorporate_line_eq. cbn zeta. set (l := replace_char 0 65533 ln) in *.
  assert (P : p_stack (line_start l p) = p_stack p /\ p_line (line_start l p) = l /\ p_offset (line_start l p) = 0 /\ p_column (line_start l p) = 0 /\ p_pct (line_start l p) = false /\ p_line_number (line_start l p) = S (p_line_number p) /\ p_refmap (line_start l p) = p_refmap p /\ p_smart (line_start l p) = p_smart p /\ p_ip (line_start l p) = p_ip p)
    by (unfold line_start; cbn; auto 10).
  destruct P as (P1 & P2 & P3 & P4 & P5 & P6 & P7 & P8 & P9). remember (line_start l p) as x eqn:Z. clear Z. rewrite P1, Es. cbn [rev app tl descend].
  assert (Ip : p_ip (find_next_nonspace x) = p_ip x) by (unfold find_next_nonspace; destruct (skip_spaces _ _ _); reflexivity).
  destruct (fnn_spec x a c r (eq_trans P2 El) P3 P4 H1 H2 H3 H4) as ((K1 & K2 & K3 & K4 & K5 & K6 & K7 & K8) & Z1 & Z2 & Z3 & Z4 & Z5 & Z6 & Z7 & Z8 & Z9 & Z10).
  remember (find_next_nonspace x) as z eqn:Z. clear Z. cbn [f_data]. unfold continue_. cbn [n_t para_data set_n_string_content new_node]. rewrite Z5. cbn [bind]. unfold line_rest. rewrite K1, P1, Es. cbn [length Nat.eqb].
  unfold block_at. cbn [p_stack set_p_matched set_p_all_closed]. rewrite K1, P1, Es. cbn [length Nat.sub nth_error of_option bind]. unfold f_type. cbn [f_data n_t para_data set_n_string_content new_node].
  change (accepts_lines paragraph) with (Ok (A:=bool) true). cbn [bind]. change (ntype_eqb paragraph paragraph) with true. cbn [negb andb]. eexists. split; [reflexivity|].
  cbn [p_stack p_line p_offset p_column p_pct p_all_closed p_line_number p_refmap p_smart p_ip set_p_matched set_p_all_closed]. repeat split; congruence.
Qed.
Lemma skip_spaces_prefix a (l : str) : skipn a (repeat SP a ++ l) = l.
Proof. induction a as [|a IH]; [reflexivity|exact IH]. Qed.
(** The paragraph goes on *)
Lemma para_next ln p n i content d k a c r : in_para p n i content d k -> replace_char 0 65533 ln = repeat SP a ++ c :: r -> is_space c = false -> (a <= 3 -> no_interrupt (c :: r)) ->
  exists p' d', incorporate_line ln p = Ok p' /\ in_para p' n i (content ++ c :: r ++ [LF]) d' k /\
    p_line_number p' = S (p_line_number p) /\ p_refmap p' = p_refmap p /\ p_smart p' = p_smart p /\ p_ip p' = p_ip p /\ p_last_line_length p' = length ln.
Proof.
  intros Hp El Hc Hno. destruct (para_descend ln p n i content d k a c r Hp El Hc) as (x & -> & P1 & P2 & P3 & P4 & P5 & P6 & P7 & P8 & P9 & P10). destruct Hp as (Es & Ed & Ep).
  assert (Hs : c <> SP /\ c <> TAB /\ c <> 10%N /\ c <> 13%N) by (repeat split; intros ->; discriminate Hc). destruct Hs as (H1 & H2 & H3 & H4).
  unfold line_tail. cbn [starts_loop]. assert (Ip : p_ip (find_next_nonspace x) = p_ip x) by (unfold find_next_nonspace; destruct (skip_spaces _ _ _); reflexivity).
  destruct (fnn_spec x a c r (eq_trans P2 El) P3 P4 H1 H2 H3 H4) as ((K1 & K2 & K3 & K4 & K5 & K6 & K7 & K8) & Z1 & Z2 & Z3 & Z4 & Z5 & Z6 & Z7 & Z8 & Z9 & Z10).
  remember (find_next_nonspace x) as z eqn:Z. clear Z.
  assert (E : (if negb (p_indented z) && negb (re_test reMaybeSpecial (rest_nonspace z)) then Ok (2, advance_next_nonspace z)
     else let* c0 := block_at 2 z in let* (r0, p2) := try_starts block_starts (f_type c0) z in match r0 with SNone => Ok (2, advance_next_nonspace p2) | SContainer => starts_loop (length (replace_char 0 65533 ln)) (length (p_stack p2)) p2 | SLeaf => Ok (length (p_stack p2), p2) end)
     = Ok (2, advance_next_nonspace z)).
  { destruct (_ && _); [reflexivity|]. unfold block_at. rewrite K1, P1, Es. cbn [length Nat.sub nth_error of_option bind]. change (f_type (F (para_data n i content) [])) with paragraph. rewrite (try_para z c r (F (para_data n i content) []) [F d k]); [reflexivity|exact Z6|exact Z7|rewrite Z3; exact Z4|congruence|reflexivity|].
    intros Hz. apply Hno. rewrite Z4 in Hz. apply Nat.leb_gt in Hz. lia. }
  rewrite E. clear E. cbn [bind]. set (y := advance_next_nonspace z).
  assert (Y : p_stack y = p_stack p /\ p_line y = replace_char 0 65533 ln /\ p_offset y = a /\ p_pct y = false /\ p_all_closed y = true /\ p_blank y = false /\ p_line_number y = S (p_line_number p) /\ p_refmap y = p_refmap p /\ p_smart y = p_smart p /\ p_ip y = p_ip p).
  { unfold y. cbn. repeat split; congruence. }
  clearbody y. destruct Y as (Y1 & Y2 & Y3 & Y4 & Y5 & Y6 & Y7 & Y8 & Y9 & Y10). unfold line_end, tip. rewrite Y1, Es. cbn [hd_error of_option bind]. rewrite Y5. cbn [negb andb].
  unfold add_text, close_unmatched_blocks. rewrite Y5. cbn [bind]. unfold tip. rewrite Y1, Es, Y6. cbn [hd_error of_option bind f_kids f_data tl]. cbn [n_sourcepos para_data set_n_string_content new_node bind andb]. unfold f_type. cbn [f_data n_t].
  change (accepts_lines paragraph) with (Ok (A:=bool) true). cbn [bind map]. change (ntype_eqb paragraph html_block) with false. cbv iota. unfold add_line, tip. cbn [p_stack set_p_stack hd_error of_option bind]. unfold set_f_data at 1. cbn [f_data n_string_content set_n_last_line_blank of_option bind p_pct set_p_stack]. rewrite Y4.
  unfold on_tip, rest_offset. cbn [p_stack set_p_stack p_offset p_line]. rewrite Y2, Y3, El. rewrite skip_spaces_prefix. cbn [app bind].
  eexists. exists (set_n_last_line_blank false d). split; [reflexivity|]. cbn [p_line_number p_refmap p_smart p_ip p_last_line_length set_p_last_line_length set_p_stack]. unfold in_para. cbn [p_stack set_p_last_line_length set_p_stack]. split; [split; [|split; assumption]|].
  - unfold set_f_data. cbn [f_data f_kids]. reflexivity.
  - rewrite <- El. unfold replace_char. rewrite map_length. repeat split; congruence.
Qed.
