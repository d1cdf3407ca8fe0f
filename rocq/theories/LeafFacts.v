(** * Documents of one leaf block: rules, headings, code blocks, HTML blocks *)
From Verif Require Import Base Regex Common NormRef Node Inlines Blocks Html Main RegexFacts StrFacts Spec SpecTree SpecSame SpecLines
  TreeFacts StrProp InlineFacts HtmlFacts RenderFacts BlockFacts BlockInv BlockRun LineFacts ParseFacts Sim SimFacts DocFacts ColumnFacts RuleFacts MarkFacts.
From Verif Require RegexLang TextFacts.
From Coq Require Import ZifyBool ZifyNat ZifyN.

(** ** Opening a leaf in an empty document *)
Lemma add_child_doc tag off z d k : p_stack z = [F d k] -> n_t d = document -> ntype_eqb tag item = false ->
  add_child tag off z = Ok (set_p_stack [F (new_node tag (Some (p_line_number z, off + 1, (0, 0)))) []; F d k] z).
Proof.
  intros Es Ed Ht. unfold add_child. rewrite Es. cbn [length make_room]. unfold tip. rewrite Es. cbn [hd_error of_option bind]. unfold f_type. cbn [f_data]. rewrite Ed.
  unfold can_contain. cbn [is_block_type]. rewrite Ht. cbn [negb bind]. rewrite Es. reflexivity.
Qed.
Lemma close_none p : p_all_closed p = true -> close_unmatched_blocks p = Ok p.
Proof. intros E. unfold close_unmatched_blocks. rewrite E. reflexivity. Qed.
(** What the loop over block starts does when one of them opens a leaf *)
Lemma starts_leaf x d k y fu : p_stack x = [F d k] -> n_t d = document -> let z := find_next_nonspace x in
  p_indented z = true \/ re_test reMaybeSpecial (rest_nonspace z) = true -> try_starts block_starts document z = Ok (SLeaf, y) ->
  starts_loop (S fu) 1 x = Ok (length (p_stack y), y).
Proof.
  intros Es Ed z Hz Et. cbn [starts_loop]. fold z. assert (Ez : p_stack z = [F d k]) by (destruct (keeps_fnn x) as (K & _); unfold z; congruence).
  replace (negb (p_indented z) && negb (re_test reMaybeSpecial (rest_nonspace z))) with false by (destruct Hz as [-> | ->]; destruct (p_indented z); reflexivity).
  unfold block_at. rewrite Ez. cbn [length Nat.sub nth_error of_option bind]. unfold f_type. cbn [f_data]. rewrite Ed, Et. reflexivity.
Qed.
(** ** The rest of the line *)
(** what [add_line] adds *)
Definition remaining (p : parser) : str :=
  if p_pct p then repeat SP (4 - p_column p mod 4) ++ skipn (S (p_offset p)) (p_line p) else rest_offset p.
Definition leaf_type (d : ndata) : Prop :=
  n_t d = code_block \/ (n_t d = html_block /\ exists ty, n_html_block_type d = Some ty /\ 6 <= ty).
Lemma line_end_leaf ln y ld d k sc : p_stack y = [F ld []; F d k] -> p_all_closed y = true -> leaf_type ld -> n_sourcepos ld <> None -> n_string_content ld = Some sc ->
  exists b y', line_end ln y = Ok y' /\
    p_stack y' = [F (set_n_string_content (Some (sc ++ remaining y ++ [LF])) (set_n_last_line_blank b ld)) []; F (set_n_last_line_blank b d) k] /\
    p_line_number y' = p_line_number y /\ p_refmap y' = p_refmap y /\ p_smart y' = p_smart y /\ p_last_line_length y' = length ln.
Proof.
  intros Es Ea Ht Hsp Hc. unfold line_end, tip. rewrite Es. cbn [hd_error of_option bind]. rewrite Ea. cbn [negb andb]. unfold add_text. rewrite close_none by exact Ea. cbn [bind]. unfold tip. rewrite Es. cbn [hd_error of_option bind f_kids f_data tl].
  destruct (n_sourcepos ld) as [[[sl sc0] se]|] eqn:Esp; [|congruence]. cbn [bind].
  replace (if p_blank y then mark_last_blank [] else []) with (@nil tree) by (destruct (p_blank y); reflexivity). set (b := p_blank y && _). cbn [map]. unfold set_f_data. cbn [f_data f_kids].
  assert (Ha : accepts_lines (f_type (F ld [])) = Ok true) by (unfold f_type; cbn [f_data]; destruct Ht as [-> | [-> _]]; reflexivity). rewrite Ha. cbn [bind].
  assert (Hadd : exists z, add_line (set_p_stack [F (set_n_last_line_blank b ld) []; F (set_n_last_line_blank b d) k] y) = Ok z /\
    p_stack z = [F (set_n_string_content (Some (sc ++ remaining y ++ [LF])) (set_n_last_line_blank b ld)) []; F (set_n_last_line_blank b d) k] /\
    p_line_number z = p_line_number y /\ p_refmap z = p_refmap y /\ p_smart z = p_smart y).
  { unfold add_line, tip. cbn [p_stack set_p_stack hd_error of_option bind f_data n_string_content set_n_last_line_blank]. rewrite Hc. cbn [of_option bind p_pct p_column p_offset set_p_stack]. unfold remaining, on_tip, rest_offset.
    destruct (p_pct y); cbn [p_stack set_p_stack set_p_offset p_offset p_line set_f_data f_data f_kids]; (eexists; split; [reflexivity|]); cbn [p_stack p_line_number p_refmap p_smart set_p_stack set_p_offset set_f_data f_data f_kids app]; rewrite <- ?app_assoc; auto. }
  destruct Hadd as (z & -> & Z1 & Z2 & Z3 & Z4). cbn [bind]. exists b, (set_p_last_line_length (length ln) z).
  split; [|split; [exact Z1|split; [exact Z2|split; [exact Z3|split; [exact Z4|reflexivity]]]]].
  unfold f_type at 1. cbn [f_data]. destruct Ht as [-> | (-> & ty & Ety & H6)]; cbn [ntype_eqb bind]; [reflexivity|]. cbn [ntype_eqb]. rewrite Ety. cbn [of_option bind].
  replace (Nat.leb 1 ty && Nat.leb ty 5) with false by lia. cbn [andb bind]. reflexivity.
Qed.
Lemma line_end_empty ln y ld d k : p_stack y = [F ld []; F d k] -> p_all_closed y = true -> n_t ld = heading \/ n_t ld = thematic_break -> n_sourcepos ld <> None -> length (p_line y) <= p_offset y ->
  exists b y', line_end ln y = Ok y' /\
    p_stack y' = [F (set_n_last_line_blank b ld) []; F (set_n_last_line_blank b d) k] /\
    p_line_number y' = p_line_number y /\ p_refmap y' = p_refmap y /\ p_smart y' = p_smart y /\ p_last_line_length y' = length ln.
Proof.
  intros Es Ea Ht Hsp Hc. unfold line_end, tip. rewrite Es. cbn [hd_error of_option bind]. rewrite Ea. cbn [negb andb]. unfold add_text. rewrite close_none by exact Ea. cbn [bind]. unfold tip. rewrite Es. cbn [hd_error of_option bind f_kids f_data tl].
  destruct (n_sourcepos ld) as [[[sl sc0] se]|] eqn:Esp; [|congruence]. cbn [bind].
  replace (if p_blank y then mark_last_blank [] else []) with (@nil tree) by (destruct (p_blank y); reflexivity). set (b := p_blank y && _). cbn [map]. unfold set_f_data. cbn [f_data f_kids].
  assert (Ha : accepts_lines (f_type (F ld [])) = Ok false) by (unfold f_type; cbn [f_data]; destruct Ht as [-> | ->]; reflexivity). rewrite Ha. cbn [bind p_offset p_line set_p_stack].
  rewrite (proj2 (Nat.ltb_ge _ _) Hc). cbn [andb bind]. exists b. eexists. split; [reflexivity|]. repeat split.
Qed.

(** ** The end of the document *)
Lemma finish_doc ln p d k : p_stack p = [F d k] -> n_t d = document -> n_sourcepos d <> None ->
  exists d' s, n_t d' = document /\ ip_refmap s = p_refmap p /\ ip_smart s = p_smart p /\ finish ln p = let* (k', _) := process_all k s in Ok (T d' k').
Proof.
  intros Es Ed Hsp. unfold finish. rewrite Es. cbn [length finalize_all]. rewrite Es.
  destruct (finalize_bt ln p (F d k) [] Es (or_introl Ed) Hsp) as (sp0 & x & F1 & ->). cbn [bind]. unfold attach. cbn [p_stack set_p_stack p_doc set_p_doc f_kids f_data of_option bind finalize_all].
  rewrite process_bt by (left; exact Ed). set (s := IP _ _ _ _ _ _ _ _). exists (set_n_sourcepos (Some (sp0, (ln, p_last_line_length p))) (set_n_is_open false d)), s. split; [exact Ed|]. split; [reflexivity|]. split; [reflexivity|].
  destruct (process_all k s) as [[k' s']|e]; reflexivity.
Qed.

(** ** Rules: C37 *)
Lemma rule_head l : rule_line l -> exists c r, l = c :: r /\ In c [42; 95; 45]%N.
Proof. intros (c & Hc & Hh & _). destruct l as [|x l]; [discriminate|]. injection Hh as ->. exists c, l. split; [reflexivity|]. cbn in *. intuition. Qed.
Lemma to_end_fields p : p_stack (advance_to_end p) = p_stack p /\ p_line (advance_to_end p) = p_line p /\ length (p_line p) <= p_offset (advance_to_end p) /\ p_all_closed (advance_to_end p) = p_all_closed p /\
  p_line_number (advance_to_end p) = p_line_number p /\ p_refmap (advance_to_end p) = p_refmap p /\ p_smart (advance_to_end p) = p_smart p.
Proof. destruct (advance_to_end_mv p) as (off & col & pct & -> & H). unfold mv. cbn. auto 10. Qed.
Lemma rule_open x i l d k fu : p_stack x = [F d k] -> n_t d = document -> p_line x = repeat SP i ++ l -> i <= 3 -> p_offset x = 0 -> p_column x = 0 -> p_all_closed x = true -> rule_line l -> ~ In 10%N l ->
  exists y, starts_loop (S fu) 1 x = Ok (2, y) /\ p_stack y = [F (new_node thematic_break (Some (p_line_number x, S i, (0, 0)))) []; F d k] /\
    p_all_closed y = true /\ p_line y = p_line x /\ length (p_line y) <= p_offset y /\ p_line_number y = p_line_number x /\ p_refmap y = p_refmap x /\ p_smart y = p_smart x.
Proof.
  intros Es Ed El Hi Eo Ec Ea Hl Hlf. destruct (rule_head l Hl) as (c & r & -> & Hc).
  assert (Hs : c <> SP /\ c <> TAB /\ c <> 10%N /\ c <> 13%N) by (cbn in Hc; unfold SP, TAB; lia). destruct Hs as (H1 & H2 & H3 & H4).
  destruct (fnn_spec x i c r El Eo Ec H1 H2 H3 H4) as (Z0 & Z1 & Z2 & Z3 & Z4 & Z5 & Z6 & Z7 & Z8 & Z9 & Z10). destruct Z0 as (K1 & K2 & K3 & K4 & K5 & K6 & K7 & K8).
  assert (Et : exists y, try_starts block_starts document (find_next_nonspace x) = Ok (SLeaf, y) /\ p_stack y = [F (new_node thematic_break (Some (p_line_number x, S i, (0, 0)))) []; F d k] /\
    p_all_closed y = true /\ p_line y = p_line x /\ length (p_line y) <= p_offset y /\ p_line_number y = p_line_number x /\ p_refmap y = p_refmap x /\ p_smart y = p_smart x).
  { remember (find_next_nonspace x) as z eqn:Z. clear Z. assert (Ei : p_indented z = false) by (rewrite Z4; apply Nat.leb_gt; lia).
    unfold block_starts. cbn [try_starts]. unfold start_block_quote at 1. rewrite Ei, Z7. cbn [opt_is negb andb]. rewrite (proj2 (N.eqb_neq c 62)) by (cbn in Hc; lia). cbn [bind].
    unfold start_atx_heading at 1. rewrite Ei, Z6. replace (re_search reATXHeadingMarker (c :: r)) with (@None rmatch).
    2:{ symmetry. change reATXHeadingMarker with (RSeq RBol (match reATXHeadingMarker with RSeq _ x => x | _ => REps end)). apply TextFacts.begins_search; [vm_compute; reflexivity|vm_compute; reflexivity|]. TextFacts.firsts_calc. cbn in Hc. lia. }
    cbn [bind]. unfold start_fenced_code at 1. rewrite Ei, Z6. replace (re_search reCodeFence (c :: r)) with (@None rmatch).
    2:{ symmetry. apply re_search_none. intros p q E. apply RegexLang.match_at_none_L; [vm_compute; reflexivity|]. intros g a Eg HL. assert (p = []) as ->.
        { destruct HL as [(g1 & g2 & _ & [_ Hp] & _)|(g1 & g2 & _ & [_ Hp] & _)]; apply prev_of_none; exact Hp. }
        cbn [app] in E. subst q. pose proof (TextFacts.begins_L _ _ _ _ c r HL (eq_sym Eg)) as X. rewrite X in HL; [destruct (RegexLang.L_nonempty reCodeFence eq_refl _ _ _ HL eq_refl)|]. TextFacts.firsts_calc. cbn in Hc. lia. }
    cbn [bind]. unfold start_html_block at 1. rewrite Ei, Z7. cbn [opt_is negb andb]. rewrite (proj2 (N.eqb_neq c 60)) by (cbn in Hc; lia). cbn [bind].
    unfold start_setext_heading at 1. change (ntype_eqb document paragraph) with false. rewrite andb_false_r. cbn [bind].
    unfold start_thematic_break at 1. rewrite Ei, Z6, (proj2 (thematic_iff (c :: r) Hlf) Hl). cbn [negb andb]. rewrite close_none by congruence. cbn [bind].
    rewrite (add_child_doc thematic_break _ z d k) by (congruence || reflexivity). cbn [bind]. destruct (to_end_fields (set_p_stack [F (new_node thematic_break (Some (p_line_number z, p_next_nonspace z + 1, (0, 0)))) []; F d k] z)) as (T1 & T2 & T3 & T4 & T5 & T6 & T7).
    eexists. split; [reflexivity|]. rewrite T1, T2, T4, T5, T6, T7. cbn [p_stack p_line p_all_closed p_line_number p_refmap p_smart set_p_stack] in *. split; [rewrite K3, Z1, Nat.add_1_r; reflexivity|]. split; [congruence|]. split; [exact K2|]. split; [exact T3|]. repeat split; congruence. }
  destruct Et as (y & Et & Y1 & Y2). exists y. split; [|split; [exact Y1|exact Y2]].
  rewrite (starts_leaf x d k y fu Es Ed); [rewrite Y1; reflexivity| |exact Et]. right. rewrite Z6. rewrite (re_test_bol (RChr (match reMaybeSpecial with RSeq _ (RChr cs) => cs | _ => CS false false [] end))), match_at_chr.
  match goal with |- context [cmatch ?cs c] => replace (cmatch cs c) with true; [reflexivity|] end. vm_compute in Hc. destruct Hc as [<-|[<-|[<-|[]]]]; vm_compute; reflexivity.
Qed.
Lemma replace_ascii l : ~ In 0%N l -> replace_char 0 65533 l = l.
Proof. intros H. unfold replace_char. rewrite <- (map_id l) at 2. apply map_ext_in. intros c Hc. destruct (N.eqb_spec c 0) as [->|]; [contradiction|reflexivity]. Qed.
Lemma rule_doc smart i l : i <= 3 -> rule_line l ->
  exists dd rd, parse_doc smart (repeat SP i ++ l) = Ok (T dd [T rd []]) /\ n_t dd = document /\ n_t rd = thematic_break.
Proof.
  intros Hi Hl. assert (Hch : forall c, In c (repeat SP i ++ l) -> c <> 10%N /\ c <> 13%N /\ c <> 0%N).
  { intros c H. apply in_app_or in H as [H|H]; [apply repeat_spec in H as ->; unfold SP; lia|]. destruct Hl as (x & Hx & _ & _ & Hf). rewrite Forall_forall in Hf. specialize (Hf c H). cbn in Hx. lia. }
  assert (He : no_eol (repeat SP i ++ l)) by (intros c H; destruct (Hch c H) as (A & B & _); auto).
  change (parse_doc smart (repeat SP i ++ l)) with (result (parse (new_parser smart) (repeat SP i ++ l))). rewrite parse_finish, input_lines_text, (text_lines_one _ He).
  destruct (reset_fresh smart) as ((d & Es & Ed & Esp & _) & En & Er & Esm). cbn [incorporate_lines length]. remember (reset (new_parser smart)) as p eqn:Z. clear Z.
  rewrite (incorporate_doc _ p d [] Es Ed). rewrite replace_ascii by (intros H; destruct (Hch _ H) as (_ & _ & X); congruence). unfold line_tail.
  destruct (fresh_fields (repeat SP i ++ l) p) as (P1 & P2 & P3 & P4 & P5 & P6 & P7 & P8 & P9 & P10).
  remember (set_p_matched 1 (set_p_all_closed true (line_start (repeat SP i ++ l) p))) as x eqn:Z. clear Z.
  destruct (rule_open x i l d [] (length (repeat SP i ++ l))) as (y & -> & Y1 & Y2 & Y3 & Y4 & Y5 & Y6 & Y7); [congruence|exact Ed|exact P2|exact Hi|exact P3|exact P4|exact P6|exact Hl|intros H; destruct (Hch 10%N) as [X _]; [apply in_or_app; right; exact H|congruence]|].
  cbn [bind]. destruct (line_end_empty (repeat SP i ++ l) y _ d [] Y1 Y2 (or_intror eq_refl) ltac:(discriminate) Y4) as (b & y' & -> & W1 & W2 & W3 & W4 & W5). cbn [bind].
  destruct (finish_leaf 1 y' (attach (T (set_n_sourcepos (Some (p_line_number x, S i, (1, p_last_line_length y'))) (set_n_is_open false (set_n_last_line_blank b (new_node thematic_break (Some (p_line_number x, S i, (0, 0))))))) []) (set_p_stack [F (set_n_last_line_blank b d) []] y')) (set_n_last_line_blank b d)
    [T (set_n_sourcepos (Some (p_line_number x, S i, (1, p_last_line_length y'))) (set_n_is_open false (set_n_last_line_blank b (new_node thematic_break (Some (p_line_number x, S i, (0, 0))))))) []]) as (dd & s & D1 & D2 & D3 & ->);
    [rewrite W1; discriminate|rewrite W1; reflexivity|unfold finalize_tip; rewrite W1; reflexivity|reflexivity|exact Ed|exact Esp|].
  rewrite process_leaf by reflexivity. cbn [bind]. eexists. eexists. split; [reflexivity|]. split; [exact D1|reflexivity].
Qed.

(** ** Headings: C38 *)
Lemma adv_chars_offset : forall f n p, n <= f -> p_offset p + n <= length (p_line p) -> p_offset (advance_loop f n false p) = p_offset p + n.
Proof.
  induction f as [|f IH]; intros n p Hn Hl; cbn [advance_loop]; [lia|]. destruct n as [|n]; [lia|]. unfold peek. destruct (nth_error (p_line p) (p_offset p)) as [c|] eqn:E; [|apply nth_error_None in E; lia].
  destruct (N.eqb c TAB); (rewrite IH; [cbn; lia|lia|cbn; lia]).
Qed.
Lemma adv_nn : forall f n c p, p_next_nonspace (advance_loop f n c p) = p_next_nonspace p /\ p_next_nonspace_column (advance_loop f n c p) = p_next_nonspace_column p /\ p_indent (advance_loop f n c p) = p_indent p.
Proof.
  induction f as [|f IH]; intros n c p; cbn [advance_loop]; [auto|]. destruct n as [|n]; [auto|]. destruct (peek (p_line p) (p_offset p)) as [x|]; [|auto].
  destruct (N.eqb x TAB); [destruct c|]; (destruct (IH _ _ _) as (A & B & C) || idtac); rewrite ?(proj1 (IH _ _ _)), ?(proj1 (proj2 (IH _ _ _))), ?(proj2 (proj2 (IH _ _ _))); auto.
Qed.
Lemma atx_replace l n s : atx_line l n s -> atx_line (replace_char 0 65533 l) n (replace_char 0 65533 s).
Proof.
  intros (Hn & w & -> & Hw & Hs & Hx). split; [exact Hn|]. exists w. unfold replace_char. rewrite !map_app. split; [|split; [exact Hw|split]].
  - f_equal; [|f_equal].
    + rewrite <- (map_id (repeat 35%N n)) at 2. apply map_ext_in. intros c Hc. apply repeat_spec in Hc as ->. reflexivity.
    + rewrite <- (map_id w) at 2. apply map_ext_in. intros c Hc. unfold blanks in Hw; rewrite Forall_forall in Hw. destruct (Hw c Hc) as [->| ->]; reflexivity.
  - intros E. rewrite (Hs E). reflexivity.
  - intros x. destruct s as [|c s]; [discriminate|]. cbn [map hd_error]. intros [= <-]. destruct (Hx c eq_refl). destruct (N.eqb c 0); [lia|auto].
Qed.
Definition heading_data (ln i n : nat) (b : str) : ndata := set_n_string_content (Some b) (set_n_level (Some n) (new_node heading (Some (ln, S i, (0, 0))))).
Lemma heading_open x i l n s d k fu : p_stack x = [F d k] -> n_t d = document -> p_line x = repeat SP i ++ l -> i <= 3 -> p_offset x = 0 -> p_column x = 0 -> p_all_closed x = true -> atx_line l n s -> ~ In 10%N l ->
  exists y, starts_loop (S fu) 1 x = Ok (2, y) /\ p_stack y = [F (heading_data (p_line_number x) i n (atx_content s)) []; F d k] /\
    p_all_closed y = true /\ p_line y = p_line x /\ length (p_line y) <= p_offset y /\ p_line_number y = p_line_number x /\ p_refmap y = p_refmap x /\ p_smart y = p_smart x.
Proof.
  intros Es Ed El Hi Eo Ec Ea Hl Hlf. destruct Hl as (Hn & w & Ew & Hw & Hs & Hx). destruct (atx_match l n w s Ew Hn Hw Hs Hx Hlf) as (m & Em & Eg).
  assert (Eh : exists r, l = 35%N :: r) by (destruct n as [|n]; [lia|]; subst l; eexists; reflexivity). destruct Eh as (r & Er). rewrite Er in El, Em.
  destruct (fnn_spec x i 35%N r El Eo Ec) as (Z0 & Z1 & Z2 & Z3 & Z4 & Z5 & Z6 & Z7 & Z8 & Z9 & Z10); [discriminate..|]. destruct Z0 as (K1 & K2 & K3 & K4 & K5 & K6 & K7 & K8).
  assert (Et : exists y, try_starts block_starts document (find_next_nonspace x) = Ok (SLeaf, y) /\ p_stack y = [F (heading_data (p_line_number x) i n (atx_content s)) []; F d k] /\
    p_all_closed y = true /\ p_line y = p_line x /\ length (p_line y) <= p_offset y /\ p_line_number y = p_line_number x /\ p_refmap y = p_refmap x /\ p_smart y = p_smart x).
  { remember (find_next_nonspace x) as z eqn:Z. clear Z. assert (Ei : p_indented z = false) by (rewrite Z4; apply Nat.leb_gt; lia).
    unfold block_starts. cbn [try_starts]. unfold start_block_quote at 1. rewrite Ei, Z7. cbn [opt_is negb andb]. change (N.eqb 35 62) with false. cbn [bind].
    unfold start_atx_heading at 1. rewrite Ei, Z6, Em. cbn zeta. rewrite Eg. unfold advance_offset at 1.
    assert (Hoff : p_offset (advance_loop (length (repeat 35%N n ++ w)) (length (repeat 35%N n ++ w)) false (advance_next_nonspace z)) = i + length (repeat 35%N n ++ w)).
    { rewrite adv_chars_offset; [cbn [advance_next_nonspace p_offset set_p_offset set_p_column set_p_pct]; lia|lia|]. cbn [advance_next_nonspace p_offset p_line set_p_offset set_p_column set_p_pct].
      rewrite Z1, K2, El, <- Er, Ew, !app_length, !repeat_length. lia. }
    destruct (keeps_adv (length (repeat 35%N n ++ w)) (length (repeat 35%N n ++ w)) false (advance_next_nonspace z)) as (A1 & A2 & A3 & A4 & A5 & A6 & A7 & A8).
    assert (Hnn : p_next_nonspace (advance_loop (length (repeat 35%N n ++ w)) (length (repeat 35%N n ++ w)) false (advance_next_nonspace z)) = i) by (rewrite (proj1 (adv_nn _ _ _ _)); exact Z1).
    remember (advance_loop _ _ false (advance_next_nonspace z)) as p1 eqn:Z. clear Z. cbn [advance_next_nonspace p_stack p_line p_line_number p_all_closed p_refmap p_smart set_p_offset set_p_column set_p_pct] in A1, A2, A3, A4, A6, A8.
    rewrite close_none by congruence. cbn [bind]. rewrite (add_child_doc heading _ p1 d k) by (congruence || reflexivity). cbn [bind]. unfold on_tip. cbn [p_stack set_p_stack]. cbn [bind set_f_data f_data f_kids].
    assert (Hrest : rest_offset (set_p_stack [F (new_node heading (Some (p_line_number p1, p_next_nonspace p1 + 1, (0, 0)))) []; F d k] p1) = s).
    { unfold rest_offset. cbn [p_line p_offset set_p_stack]. rewrite Hoff, A2, K2, El, <- Er, Ew, !app_assoc. apply skipn_exact. rewrite !app_length, !repeat_length. lia. }
    rewrite Hrest. rewrite strip_hashes; [|lia|]. 2:{ apply forallb_forall. intros c Hc. unfold blanks in Hw; rewrite Forall_forall in Hw. destruct (Hw c Hc) as [->| ->]; vm_compute; reflexivity. }
    rewrite repeat_length, Hnn, Nat.add_1_r. fold (heading_data (p_line_number p1) i n (atx_content s)).
    match goal with |- context [advance_to_end ?t] => destruct (to_end_fields t) as (T1 & T2 & T3 & T4 & T5 & T6 & T7) end.
    eexists. split; [reflexivity|]. rewrite T1, T2, T4, T5, T6, T7. cbn [p_stack p_line p_all_closed p_line_number p_refmap p_smart set_p_stack] in *.
    split; [rewrite A3, K3; reflexivity|]. split; [congruence|]. split; [congruence|]. split; [exact T3|]. repeat split; congruence. }
  destruct Et as (y & Et & Y1 & Y2). exists y. split; [|split; [exact Y1|exact Y2]].
  rewrite (starts_leaf x d k y fu Es Ed); [rewrite Y1; reflexivity| |exact Et]. right. rewrite Z6. vm_compute. reflexivity.
Qed.
Lemma heading_doc smart i l n s : i <= 3 -> no_eol l -> atx_line l n s ->
  exists dd hd b st, heading_text (replace_char 0 65533 s) b /\ n_t dd = document /\ n_t hd = heading /\ n_level hd = Some n /\ ip_refmap st = [] /\ ip_smart st = smart /\
    parse_doc smart (repeat SP i ++ l) = let* (k, _) := parseInlines b st in Ok (T dd [T hd k]).
Proof.
  intros Hi Hl Ha. assert (He : no_eol (repeat SP i ++ l)). { intros c H. apply in_app_or in H as [H|H]; [apply repeat_spec in H as ->; split; discriminate|apply Hl, H]. }
  change (parse_doc smart (repeat SP i ++ l)) with (result (parse (new_parser smart) (repeat SP i ++ l))). rewrite parse_finish, input_lines_text, (text_lines_one _ He).
  destruct (reset_fresh smart) as ((d & Es & Ed & Esp & _) & En & Er & Esm). cbn [incorporate_lines length]. remember (reset (new_parser smart)) as p eqn:Z. clear Z.
  rewrite (incorporate_doc _ p d [] Es Ed). pose proof (atx_replace l n s Ha) as Ha'.
  assert (El : replace_char 0 65533 (repeat SP i ++ l) = repeat SP i ++ replace_char 0 65533 l) by (unfold replace_char; rewrite map_app; f_equal; rewrite <- (map_id (repeat SP i)) at 2; apply map_ext_in; intros c Hc; apply repeat_spec in Hc as ->; reflexivity).
  rewrite El. assert (Hl' : ~ In 10%N (replace_char 0 65533 l)). { intros H. apply in_map_iff in H as (x & Ex & Hx). destruct (N.eqb_spec x 0); [discriminate|]. subst x. destruct (Hl _ Hx). congruence. }
  assert (Hs' : ~ In 10%N (replace_char 0 65533 s)). { intros H. apply Hl'. destruct Ha' as (_ & w & -> & _). rewrite !in_app_iff. auto. }
  clear El. remember (replace_char 0 65533 l) as l' eqn:Z. clear Z. remember (replace_char 0 65533 s) as s' eqn:Z. clear Z. unfold line_tail.
  destruct (fresh_fields (repeat SP i ++ l') p) as (P1 & P2 & P3 & P4 & P5 & P6 & P7 & P8 & P9 & P10).
  remember (set_p_matched 1 (set_p_all_closed true (line_start (repeat SP i ++ l') p))) as x eqn:Z. clear Z.
  destruct (heading_open x i l' n s' d [] (length (repeat SP i ++ l'))) as (y & -> & Y1 & Y2 & Y3 & Y4 & Y5 & Y6 & Y7); [congruence|exact Ed|exact P2|exact Hi|exact P3|exact P4|exact P6|exact Ha'|exact Hl'|].
  cbn [bind]. destruct (line_end_empty (repeat SP i ++ l') y _ d [] Y1 Y2 (or_introl eq_refl) ltac:(discriminate) Y4) as (b & y' & -> & W1 & W2 & W3 & W4 & W5). cbn [bind].
  pose (hd := set_n_sourcepos (Some (p_line_number x, S i, (1, p_last_line_length y'))) (set_n_is_open false (set_n_last_line_blank b (heading_data (p_line_number x) i n (atx_content s'))))).
  destruct (finish_leaf 1 y' (attach (T hd []) (set_p_stack [F (set_n_last_line_blank b d) []] y')) (set_n_last_line_blank b d) [T hd []]) as (dd & st & D1 & D2 & D3 & ->);
    [rewrite W1; discriminate|rewrite W1; reflexivity|unfold finalize_tip; rewrite W1; reflexivity|reflexivity|exact Ed|exact Esp|].
  rewrite (process_para hd (atx_content s')) by (auto || (right; reflexivity)). exists dd, hd, (atx_content s'), st. split; [apply atx_content_spec, Hs'|]. split; [exact D1|]. split; [reflexivity|]. split; [reflexivity|].
  cbn [attach p_stack set_p_stack p_refmap p_smart] in D2, D3. split; [congruence|]. split; [congruence|]. destruct (parseInlines _ st) as [[k s1]|e]; reflexivity.
Qed.
(** number signs that open no heading *)
Lemma not_heading_doc smart i l c r : i <= 3 -> no_eol l -> replace_char 0 65533 l = c :: r -> c = 35%N -> (forall n s, ~ atx_line (c :: r) n s) ->
  exists dd pd st, n_t dd = document /\ n_t pd = paragraph /\ ip_refmap st = [] /\ ip_smart st = smart /\
    parse_doc smart (repeat SP i ++ l) = let* (k, _) := parseInlines (c :: r ++ [LF]) st in Ok (T dd [T pd k]).
Proof.
  intros Hi Hl El Ec Ha. assert (He : no_eol (repeat SP i ++ l)). { intros x H. apply in_app_or in H as [H|H]; [apply repeat_spec in H as ->; split; discriminate|apply Hl, H]. }
  assert (Hl' : ~ In 10%N (c :: r)). { rewrite <- El. intros H. apply in_map_iff in H as (x & Ex & Hx). destruct (N.eqb_spec x 0); [discriminate|]. subst x. destruct (Hl _ Hx). congruence. }
  destruct (one_para smart (repeat SP i ++ l) i c r He) as (dd & pd & st & D1 & D2 & _ & D3 & D4 & E).
  - unfold replace_char in *. rewrite map_app, El. f_equal. rewrite <- (map_id (repeat SP i)) at 2. apply map_ext_in. intros x Hx. apply repeat_spec in Hx as ->. reflexivity.
  - exact Hi.
  - rewrite Ec. vm_compute. reflexivity.
  - rewrite Ec. discriminate.
  - unfold no_start. assert (Hn : re_search reATXHeadingMarker (c :: r) = None). { destruct (re_search reATXHeadingMarker (c :: r)) eqn:E; [|reflexivity]. destruct (proj1 (atx_iff (c :: r) Hl')) as (n & s & H); [congruence|]. destruct (Ha n s H). }
    rewrite Hn. subst c. split; [discriminate|]. split; [discriminate|]. split; [reflexivity|]. split; [|split].
    + apply re_search_none. intros p q E. apply RegexLang.match_at_none_L; [vm_compute; reflexivity|]. intros g a Eg HL. assert (p = []) as ->.
      { destruct HL as [(g1 & g2 & _ & [_ Hp] & _)|(g1 & g2 & _ & [_ Hp] & _)]; apply prev_of_none; exact Hp. }
      cbn [app] in E. subst q. pose proof (TextFacts.begins_L _ _ _ _ 35%N r HL (eq_sym Eg)) as X. rewrite X in HL; [destruct (RegexLang.L_nonempty reCodeFence eq_refl _ _ _ HL eq_refl)|vm_compute; reflexivity].
    + destruct (re_test reThematicBreak (35%N :: r)) eqn:E; [|reflexivity]. apply thematic_iff in E; [|exact Hl']. destruct (rule_head _ E) as (x & r' & [= <- _] & Hx). cbn in Hx. lia.
    + intros j m dt. unfold list_marker. change reBulletListMarker with (RSeq RBol (match reBulletListMarker with RSeq _ r => r | r => r end)). rewrite TextFacts.begins_search; [|vm_compute; reflexivity..].
      rewrite TextFacts.reOrdered_shape, TextFacts.begins_search; [discriminate|vm_compute; reflexivity..].
  - exists dd, pd, st. auto 10.
Qed.
