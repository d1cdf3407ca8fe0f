(** * HTML blocks of block-level tags: C40 *)
From Verif Require Import Base Regex Common NormRef Node Inlines Blocks Html Main RegexFacts StrFacts Spec SpecTree SpecSame SpecLines
  TreeFacts CommonFacts StrProp InlineFacts HtmlFacts RenderFacts BlockFacts BlockInv BlockRun LineFacts ParseFacts Sim SimFacts DocFacts ColumnFacts RuleFacts MarkFacts LeafFacts FenceFacts IndentFacts SameHtml AfterFacts BlankFacts TagFacts.
From Verif Require RegexLang TextFacts.
From Coq Require Import ZifyBool ZifyNat ZifyN.

(** ** The opening line *)
Definition html_node_at (ln ty : nat) : ndata := set_n_html_block_type (Some ty) (new_node html_block (Some (ln, 1, (0, 0)))).
Lemma html_open x i r ty d k fu : p_stack x = [F d k] -> n_t d = document -> p_line x = repeat SP i ++ 60%N :: r -> i <= 3 -> p_offset x = 0 -> p_column x = 0 -> p_pct x = false -> p_all_closed x = true -> html_type (60%N :: r) false = Some ty ->
  exists y, starts_loop (S fu) 1 x = Ok (2, y) /\ p_stack y = [F (html_node_at (p_line_number x) ty) []; F d k] /\
    p_all_closed y = true /\ remaining y = p_line x /\ p_line_number y = p_line_number x /\ p_refmap y = p_refmap x /\ p_smart y = p_smart x.
Proof.
  intros Es Ed El Hi Eo Ec Epc Ea Hty.
  destruct (fnn_spec x i 60%N r El Eo Ec) as (Z0 & Z1 & Z2 & Z3 & Z4 & Z5 & Z6 & Z7 & Z8 & Z9 & Z10); try discriminate. destruct Z0 as (K1 & K2 & K3 & K4 & K5 & K6 & K7 & K8).
  assert (Et : exists y, try_starts block_starts document (find_next_nonspace x) = Ok (SLeaf, y) /\ p_stack y = [F (html_node_at (p_line_number x) ty) []; F d k] /\
    p_all_closed y = true /\ remaining y = p_line x /\ p_line_number y = p_line_number x /\ p_refmap y = p_refmap x /\ p_smart y = p_smart x).
  { remember (find_next_nonspace x) as z eqn:Z. clear Z. assert (Ei : p_indented z = false) by (rewrite Z4; apply Nat.leb_gt; lia).
    unfold block_starts. cbn [try_starts]. unfold start_block_quote at 1. rewrite Ei, Z7. cbn [opt_is negb andb]. change (N.eqb 60 62) with false. cbn [bind].
    unfold start_atx_heading at 1. rewrite Ei, Z6. replace (re_search reATXHeadingMarker (60%N :: r)) with (@None rmatch).
    2:{ symmetry. change reATXHeadingMarker with (RSeq RBol (match reATXHeadingMarker with RSeq _ x => x | _ => REps end)). apply TextFacts.begins_search; [vm_compute; reflexivity|vm_compute; reflexivity|]. TextFacts.firsts_calc. lia. }
    cbn [bind]. unfold start_fenced_code at 1. rewrite Ei, Z6. replace (re_search reCodeFence (60%N :: r)) with (@None rmatch).
    2:{ symmetry. destruct (re_search reCodeFence (60%N :: r)) as [m|] eqn:E; [|reflexivity]. exfalso. apply RegexLang.re_search_L in E as [E HL]; [|vm_compute; reflexivity]. rewrite reCodeFence_shape in HL.
        destruct HL as [HL|HL].
        - apply L_ticks_open in HL as (Hp & Hn & Hg & _). apply bol_prefix in Hp. rewrite Hp in E. rewrite Hg in E. destruct (length (rm_group m)); [lia|]. discriminate.
        - unfold tildes_open in HL. destruct HL as (g1 & g2 & Eg & [-> Hp] & HL). apply bol_prefix in Hp. rewrite Hp in E. apply L_run in HL as [L1 L2]. rewrite Eg in E. cbn [app] in E. rewrite L2 in E. destruct (length g2); [lia|]. discriminate. }
    cbn [bind]. unfold start_html_block at 1. rewrite Ei, Z7, Z6. cbn [opt_is negb andb ntype_eqb]. change (N.eqb 60 60) with true. cbv iota. rewrite Hty. rewrite close_none by congruence. cbn [bind]. rewrite (add_child_doc html_block _ z d k) by (congruence || reflexivity). cbn [bind].
    unfold on_tip. cbn [p_stack set_p_stack bind set_f_data f_data f_kids]. eexists. split; [reflexivity|]. cbn [p_stack set_p_stack p_all_closed p_line_number p_refmap p_smart]. split; [unfold html_node_at; rewrite Z8, K3; reflexivity|]. split; [congruence|]. split; [|repeat split; congruence].
    unfold remaining, rest_offset. cbn [p_pct p_offset p_line set_p_stack]. rewrite Z10, Epc, Z8, K2. reflexivity. }
  destruct Et as (y & Et & Y1 & Y2). exists y. split; [|split; [exact Y1|exact Y2]].
  rewrite (starts_leaf x d k y fu Es Ed); [rewrite Y1; reflexivity| |exact Et]. right. rewrite Z6. rewrite (re_test_bol (RChr (match reMaybeSpecial with RSeq _ (RChr cs) => cs | _ => CS false false [] end))), match_at_chr.
  match goal with |- context [cmatch ?cs 60%N] => replace (cmatch cs 60%N) with true; [reflexivity|] end. vm_compute; reflexivity.
Qed.

(** ** The lines inside *)
Record in_html (p : parser) (ld d : ndata) (k : list tree) (sc : str) : Prop := InHtml {
  ih_stack : p_stack p = [F ld []; F d k]; ih_t : n_t ld = html_block; ih_ty : n_html_block_type ld = Some 6 \/ n_html_block_type ld = Some 7; ih_sp : n_sourcepos ld <> None; ih_sc : n_string_content ld = Some sc;
  ih_d : n_t d = document; ih_dsp : n_sourcepos d <> None; ih_dsc : n_string_content d = Some [] }.
Lemma not_blanks_blank x : no_eol (p_line x) -> ~ blanks (p_line x) -> p_offset x = 0 -> p_column x = 0 -> p_blank (find_next_nonspace x) = false /\ p_offset (find_next_nonspace x) = 0 /\ p_pct (find_next_nonspace x) = p_pct x.
Proof.
  intros He Hb Eo Ec. destruct (split_line (p_line x)) as (w & q & El & Hw & Hq).
  destruct (fnn_blanks x w q El Eo Ec Hw) as (Z0 & Z1 & Z2 & Z3 & Z4 & Z5 & Z6 & Z7 & Z8 & Z9 & Z10).
  { intros c Hc. destruct (Hq c Hc). destruct (He c); [rewrite El; apply in_or_app; right; destruct q; [discriminate|injection Hc as ->; left; reflexivity]|auto]. }
  split; [|auto]. rewrite Z5. destruct q; [|reflexivity]. exfalso. apply Hb. rewrite El, app_nil_r. exact Hw.
Qed.
Lemma html_line p ld d k sc l : in_html p ld d k sc -> no_eol l -> ~ blanks (replace_char 0 65533 l) ->
  exists ld' d' p', incorporate_line l p = Ok p' /\ in_html p' ld' d' k (sc ++ replace_char 0 65533 l ++ [LF]) /\ p_line_number p' = S (p_line_number p) /\ p_refmap p' = p_refmap p /\ p_smart p' = p_smart p.
Proof.
  intros [Es Ht Hty Hsp Hsc Hd Hdsp Hdsc] He Hb.
  destruct (leaf_line p ld d k sc l (replace_char 0 65533 l) Es) as (b & p' & E & P1 & P2 & P3 & P4); [|exact Hsp|exact Hsc| |].
  - right. split; [exact Ht|]. destruct Hty; eexists; (split; [eassumption|lia]).
  - intros x X1 X2 X3 X4 X5. destruct (not_blanks_blank x) as (B1 & B2 & B3); [rewrite X2; apply replace_no_eol, He|rewrite X2; exact Hb|exact X3|exact X4|].
    exists (find_next_nonspace x). unfold continue_. rewrite Ht, B1. destruct Hty as [-> | ->]; cbn [of_option bind andb]; (split; [reflexivity|split; [apply keeps_fnn|]]).
    all: unfold remaining, rest_offset; rewrite B3, X5, B2; destruct (keeps_fnn x) as (_ & K2 & _); rewrite K2, X2; reflexivity.
  - do 3 eexists. split; [exact E|]. split; [|auto]. constructor; [exact P1|..]; cbn; (exact Ht || exact Hty || exact Hsp || exact Hd || exact Hdsp || exact Hdsc || reflexivity).
Qed.
Lemma html_lines : forall ls p ld d k sc, in_html p ld d k sc -> Forall no_eol ls -> Forall (fun l => ~ blanks (replace_char 0 65533 l)) ls ->
  exists ld' d' p', incorporate_lines ls p = Ok p' /\ in_html p' ld' d' k (sc ++ flat_map (fun l => replace_char 0 65533 l ++ [LF]) ls) /\ p_line_number p' = length ls + p_line_number p /\ p_refmap p' = p_refmap p /\ p_smart p' = p_smart p.
Proof.
  induction ls as [|l ls IH]; intros p ld d k sc H He Hb; cbn [incorporate_lines flat_map].
  - exists ld, d, p. rewrite app_nil_r. auto.
  - destruct (html_line p ld d k sc l H (Forall_inv He) (Forall_inv Hb)) as (ld1 & d1 & p1 & -> & H1 & N1 & R1 & S1). cbn [bind].
    destruct (IH _ _ _ _ _ H1 (Forall_inv_tail He) (Forall_inv_tail Hb)) as (ld' & d' & p' & -> & H2 & N2 & R2 & S2). exists ld', d', p'. split; [reflexivity|]. rewrite <- !app_assoc in *. split; [exact H2|]. cbn [length]. split; [lia|split; congruence].
Qed.

(** ** The end of the block *)
Lemma html_finalize p ld d k body l ln : in_html p ld d k (body ++ l ++ [LF]) -> (exists x, In x l /\ x <> 32%N /\ x <> 10%N) -> ~ In 10%N l ->
  exists cd, finalize_tip ln p = Ok (attach (T cd []) (set_p_stack [F d k] p)) /\ n_t cd = html_block /\ n_literal cd = Some (body ++ l).
Proof.
  intros [Es Ht Hty Hsp Hsc Hd Hdsp Hdsc] Hx Hl. unfold finalize_tip. rewrite Es. cbn [f_data f_kids n_sourcepos set_n_is_open]. destruct (n_sourcepos ld) as [[[a b] e]|] eqn:Esp; [|congruence]. cbn [of_option bind n_t set_n_sourcepos set_n_is_open]. rewrite Ht.
  unfold finalize_html. cbn [n_string_content set_n_sourcepos set_n_is_open]. rewrite Hsc. cbn [of_option bind]. change [LF] with (10%N :: []). rewrite trailing_sub by (assumption || constructor). rewrite app_nil_r.
  eexists. split; [reflexivity|]. split; [exact Ht|reflexivity].
Qed.
Lemma html_blank p ld d k body l b : in_html p ld d k (body ++ l ++ [LF]) -> (exists x, In x l /\ x <> 32%N /\ x <> 10%N) -> ~ In 10%N l -> blank_line b ->
  exists cd d' p', incorporate_line b p = Ok p' /\ p_stack p' = [F d' (mark_last_blank (k ++ [T cd []]))] /\ n_t cd = html_block /\ n_literal cd = Some (body ++ l) /\ n_t d' = document /\ n_sourcepos d' <> None /\ n_string_content d' = Some [] /\
    p_line_number p' = S (p_line_number p) /\ p_refmap p' = p_refmap p /\ p_smart p' = p_smart p.
Proof.
  intros H Hx Hl Hb. pose proof H as [Es Ht Hty Hsp Hsc Hd Hdsp Hdsc].
  destruct (blank_closes b p [] (F ld []) d k Es Hb) as (y & Y1 & Y2 & Y3 & Y4 & Y5 & Y6 & Y7 & _ & Y8); [cbn [f_data]; unfold blank_ends; rewrite Ht; destruct Hty as [-> | ->]; auto 10|exact Hd|exact Hdsp|].
  assert (Hy : in_html y ld d k (body ++ l ++ [LF])) by (constructor; congruence || exact Hty).
  destruct (html_finalize y ld d k body l (p_line_number y - 1) Hy Hx Hl) as (cd & Ef & C1 & C2).
  rewrite Y1, Es in Y8. cbn [length close_loop] in Y8. rewrite Y1, Es, Y2 in Y8. cbn [length Nat.leb] in Y8. rewrite Ef in Y8. cbn [bind] in Y8. unfold attach in Y8. cbn [p_stack set_p_stack p_matched length close_loop f_data f_kids] in Y8. rewrite Y2 in Y8. cbn [Nat.leb] in Y8.
  destruct (Y8 _ (k ++ [T cd []]) eq_refl eq_refl Y7) as (p' & E & S1 & S2 & S3 & S4). cbn [p_line_number p_refmap p_smart set_p_stack] in *.
  exists cd, (set_n_last_line_blank true d), p'. split; [exact E|]. split; [exact S1|]. split; [exact C1|]. split; [exact C2|]. cbn. repeat split; congruence || assumption.
Qed.

(** ** A block of lines *)
Definition html_body (ls : list str) : str := flat_map (fun l => replace_char 0 65533 l ++ [10%N]) ls.
Lemma replace_blanks l : blanks (replace_char 0 65533 l) -> blanks l.
Proof. unfold blanks, replace_char. rewrite Forall_map. apply Forall_impl. intros c. destruct (N.eqb_spec c 0); [intros [H|H]; discriminate|auto]. Qed.
Lemma html_replace l : opens_html l -> opens_html (replace_char 0 65533 l).
Proof.
  intros (slash & name & rest & -> & Hs & Hn & Hr). assert (E : replace_char 0 65533 name = name).
  { apply replace_ascii. intros H0. pose proof names_alnum as G. rewrite Forall_forall in G. specialize (G _ Hn). rewrite Forall_forall in G. specialize (G (ascii_lower 0) (in_map _ _ _ H0)). discriminate. }
  exists slash, name, (replace_char 0 65533 rest). split; [|split; [exact Hs|split; [exact Hn|]]].
  - change (60%N :: slash ++ name ++ rest) with ([60%N] ++ slash ++ name ++ rest). rewrite !replace_app, E. destruct Hs as [-> | ->]; reflexivity.
  - destruct Hr as [->|(c & r & -> & H)]; [left; reflexivity|]. right. cbn [replace_char map]. destruct (N.eqb_spec c 0) as [->|Hc]; [destruct H as [H|[H|[H _]]]; discriminate|]. exists c. eexists. split; [reflexivity|]. destruct H as [H|[H|[H H2]]]; auto. right. right. split; [exact H|]. destruct r as [|z r]; [discriminate|]. injection H2 as ->. reflexivity.
Qed.
Lemma opens_not_blank i l : opens_html l -> ~ blanks (repeat 32%N i ++ l).
Proof. intros (slash & name & rest & -> & _) H. unfold blanks in H. apply Forall_app in H as [_ H]. apply Forall_inv in H. lia. Qed.
Lemma html_first p i l d k : p_stack p = [F d k] -> n_t d = document -> n_sourcepos d <> None -> n_string_content d = Some [] -> i <= 3 -> opens_html l -> no_eol l ->
  exists ld' d' p', incorporate_line (repeat 32%N i ++ l) p = Ok p' /\ in_html p' ld' d' k (replace_char 0 65533 (repeat 32%N i ++ l) ++ [LF]) /\ p_line_number p' = S (p_line_number p) /\ p_refmap p' = p_refmap p /\ p_smart p' = p_smart p.
Proof.
  intros Es Ed Esp Esc Hi Hl He. rewrite (incorporate_doc _ p d k Es Ed). pose proof (html_replace l Hl) as Hl'. pose proof (html_type6 _ false Hl') as Hty. rewrite replace_app, replace_repeat by discriminate.
  destruct (opens_second _ Hl') as (c2 & l2 & E2 & _). remember (replace_char 0 65533 l) as l' eqn:Z. clear Z. unfold line_tail. 
  destruct (fresh_fields (repeat 32%N i ++ l') p) as (P1 & P2 & P3 & P4 & P5 & P6 & P7 & P8 & P9 & P10).
  remember (set_p_matched 1 (set_p_all_closed true (line_start (repeat 32%N i ++ l') p))) as x eqn:Z. clear Z.
  destruct (html_open x i (c2 :: l2) 6 d k (length (repeat 32%N i ++ l'))) as (y & -> & Y1 & Y2 & Y3 & Y4 & Y5 & Y6); [congruence|exact Ed|rewrite P2, E2; reflexivity|exact Hi|exact P3|exact P4|exact P5|exact P6|rewrite <- E2; exact Hty|]. cbn [bind].
  destruct (line_end_leaf (repeat 32%N i ++ l') y _ d k [] Y1 Y2) as (b & y' & -> & W1 & W2 & W3 & W4 & W5); [right; split; [reflexivity|exists 6; split; [reflexivity|lia]]|discriminate|reflexivity|].
  rewrite Y3, P2 in W1. cbn [app] in W1. do 3 eexists. split; [reflexivity|]. split; [constructor; [exact W1|..]; cbn; (reflexivity || assumption || discriminate || auto)|]. repeat split; congruence.
Qed.
Lemma html_block_lines p i l ls d k : p_stack p = [F d k] -> n_t d = document -> n_sourcepos d <> None -> n_string_content d = Some [] -> i <= 3 -> opens_html l -> Forall no_eol (l :: ls) -> Forall (fun x => ~ blanks x) ls ->
  exists ld d' p' body x, incorporate_lines ((repeat 32%N i ++ l) :: ls) p = Ok p' /\ in_html p' ld d' k (body ++ x ++ [LF]) /\ html_body ((repeat 32%N i ++ l) :: ls) = body ++ x ++ [10%N] /\
    (exists c, In c x /\ c <> 32%N /\ c <> 10%N) /\ ~ In 10%N x /\ p_line_number p' = length ls + S (p_line_number p) /\ p_refmap p' = p_refmap p /\ p_smart p' = p_smart p.
Proof.
  intros Es Ed Esp Esc Hi Hl He Hb. destruct (html_first p i l d k Es Ed Esp Esc Hi Hl (Forall_inv He)) as (ld1 & d1 & p1 & E1 & H1 & N1 & R1 & S1). cbn [incorporate_lines]. rewrite E1. cbn [bind].
  destruct (html_lines ls p1 ld1 d1 k _ H1 (Forall_inv_tail He)) as (ld2 & d2 & p2 & E2 & H2 & N2 & R2 & S2); [eapply Forall_impl; [|exact Hb]; intros z Hz X; apply Hz, replace_blanks, X|].
  assert (Hall : Forall (fun x => no_eol x /\ ~ blanks x) ((repeat 32%N i ++ l) :: ls)).
  { constructor; [split; [|apply opens_not_blank, Hl]|].
    - intros c Hc. apply in_app_or in Hc as [Hc|Hc]; [apply repeat_spec in Hc as ->; split; discriminate|apply (Forall_inv He), Hc].
    - apply Forall_forall. intros z Hz. rewrite Forall_forall in Hb. pose proof (Forall_inv_tail He) as He'. rewrite Forall_forall in He'. auto. }
  destruct (exists_last (l := (repeat 32%N i ++ l) :: ls)) as (a & x & Ea); [discriminate|]. rewrite Ea in Hall. apply Forall_app in Hall as [_ Hx]. apply Forall_inv in Hx as [X1 X2].
  exists ld2, d2, p2, (html_body a), (replace_char 0 65533 x). split; [exact E2|]. assert (Eb : html_body ((repeat 32%N i ++ l) :: ls) = html_body a ++ replace_char 0 65533 x ++ [10%N]). { rewrite Ea. unfold html_body. rewrite flat_map_app. cbn [flat_map]. rewrite app_nil_r. reflexivity. }
  split; [rewrite <- app_assoc in H2; change [LF] with [10%N] in *; rewrite <- Eb; unfold html_body; cbn [flat_map]; rewrite <- app_assoc; exact H2|]. split; [exact Eb|]. split.
  - destruct (Exists_dec (fun c => c <> 32%N /\ c <> 10%N) (replace_char 0 65533 x)) as [Y|Y].
    + intros c. destruct (N.eq_dec c 32), (N.eq_dec c 10); (left; split; assumption) || (right; tauto).
    + apply Exists_exists in Y. destruct Y as (c & Y1 & Y2). exists c. auto.
    + exfalso. apply X2, replace_blanks. apply Forall_forall. intros c Hc. destruct (N.eq_dec c 32); [auto|]. exfalso. apply Y, Exists_exists. exists c. split; [exact Hc|]. split; [assumption|]. intros ->. apply (proj1 (replace_no_eol x X1 _ Hc)). reflexivity.
  - split; [intros X; apply (proj1 (replace_no_eol x X1 _ X)); reflexivity|]. split; [lia|split; congruence].
Qed.

(** ** The HTML *)
Definition html_out (o : hopts) (ls : list str) : str := if ho_safe o then u "<!-- raw HTML omitted -->" ++ [10%N] else html_body ls.
Lemma html_block_events o d b cd body x ls : n_t cd = html_block -> n_literal cd = Some (body ++ x) -> html_body ls = body ++ x ++ [10%N] -> (exists c, In c x /\ c <> 32%N /\ c <> 10%N) ->
  html_events o (events [d] (T (set_n_last_line_blank b cd) [])) (HS [] [LF] 0) = Ok (HS (html_out o ls) [LF] 0).
Proof.
  intros Ht El Eb (c & Hc & _ & Hc2). cbn [events n_t set_n_last_line_blank]. rewrite Ht. change (is_container html_block) with false. cbv iota. cbn [html_events]. unfold html_node. cbn [n_t set_n_last_line_blank]. rewrite Ht.
  unfold h_html_block, h_html_inline, html_out. change (h_cr (HS [] [LF] 0)) with (HS [] [LF] 0). cbn [n_literal set_n_last_line_blank]. rewrite El. destruct (ho_safe o).
  - cbn [bind]. unfold h_lit, h_cr, omitted. cbn [h_buf h_last h_dis]. reflexivity.
  - cbn [of_option bind]. unfold h_lit. cbn [h_buf h_dis app]. unfold h_cr. cbn [h_last]. replace (str_eqb (body ++ x) [LF]) with false.
    + unfold h_lit. cbn [h_buf h_dis]. rewrite Eb, <- app_assoc. reflexivity.
    + symmetry. apply not_true_is_false. intros E. apply str_eqb_eq in E. assert (Hin : In c (body ++ x)) by (apply in_or_app; right; exact Hc). rewrite E in Hin. destruct Hin as [Hin|[]]. apply Hc2. symmetry. exact Hin.
Qed.
Theorem html_then smart o i l ls b s : ho_sourcepos o = false -> Forall code_point s -> Forall (Forall code_point) (l :: ls) -> i <= 3 -> opens_html l -> Forall no_eol (l :: ls) -> Forall (fun x => ~ blanks x) ls -> blanks b ->
  md_to_html smart o (flat_map (fun x => x ++ [10%N]) ((repeat 32%N i ++ l) :: ls ++ [b]) ++ s) = let* h := md_to_html smart o s in Ok (html_out o ((repeat 32%N i ++ l) :: ls) ++ h).
Proof.
  intros Ho Hs Hcp Hi Hl He Hb Hbl. destruct (reset_fresh smart) as ((d & Es & Ed & Esp & Esc) & En & Er & Esm).
  assert (Hbl' : blank_line b) by (intros c Hc; unfold blanks in Hbl; rewrite Forall_forall in Hbl; auto).
  destruct (html_block_lines (reset (new_parser smart)) i l ls d [] Es Ed) as (ld & d1 & p1 & body & x & E1 & H1 & Eb & Hx & Hx2 & N1 & R1 & S1); [exact Esp|exact Esc|exact Hi|exact Hl|exact He|exact Hb|].
  destruct (html_blank p1 ld d1 [] body x b H1 Hx Hx2 Hbl') as (cd & d2 & p2 & E2 & Q1 & C1 & C2 & D1 & D2 & D3 & N2 & R2 & S2). cbn [app] in Q1. unfold mark_last_blank in Q1. cbn [last_opt removelast app] in Q1.
  apply leaf_then with (q := p2) (d0 := d2) (ld := set_n_last_line_blank true cd); try assumption; try congruence.
  - rewrite app_comm_cons. apply Forall_app. split; [constructor; [apply Forall_app; split; [|exact (Forall_inv Hcp)]|exact (Forall_inv_tail Hcp)]|constructor; [|constructor]].
    + apply Forall_forall. intros z Hz. apply repeat_spec in Hz as ->. unfold code_point. lia.
    + eapply Forall_impl; [|exact Hbl]. intros z Hz. unfold code_point. destruct Hz; subst z; lia.
  - rewrite app_comm_cons. apply Forall_app. split; [constructor; [|exact (Forall_inv_tail He)]|constructor; [|constructor]].
    + intros c Hc. apply in_app_or in Hc as [Hc|Hc]; [apply repeat_spec in Hc as ->; split; discriminate|apply (Forall_inv He), Hc].
    + intros c Hc. destruct (Hbl' c Hc); subst c; split; discriminate.
  - rewrite app_comm_cons, incorporate_app, E1. cbn [bind incorporate_lines]. rewrite E2. reflexivity.
  - rewrite N2, N1, En. rewrite app_comm_cons, app_length. cbn [length]. lia.
  - cbn [n_t set_n_last_line_blank]. rewrite C1. reflexivity.
  - intros b0 d0 _. apply (html_block_events o d0 b0 cd body x); assumption.
Qed.
Theorem html_end smart o i l ls : ho_sourcepos o = false -> i <= 3 -> opens_html l -> Forall no_eol (l :: ls) -> Forall (fun x => ~ blanks x) ls ->
  md_to_html smart o (flat_map (fun x => x ++ [10%N]) ((repeat 32%N i ++ l) :: ls)) = Ok (html_out o ((repeat 32%N i ++ l) :: ls)).
Proof.
  intros Ho Hi Hl He Hb. destruct (reset_fresh smart) as ((d & Es & Ed & Esp & Esc) & En & Er & Esm).
  destruct (html_block_lines (reset (new_parser smart)) i l ls d [] Es Ed) as (ld & d1 & p1 & body & x & E1 & H1 & Eb & Hx & Hx2 & N1 & R1 & S1); [exact Esp|exact Esc|exact Hi|exact Hl|exact He|exact Hb|].
  unfold md_to_html. match goal with |- context [parse_doc smart ?t] => change (parse_doc smart t) with (result (parse (new_parser smart) t)) end.
  rewrite parse_finish, input_lines_text, text_lines_lines; [|constructor; [|exact (Forall_inv_tail He)]|discriminate].
  2:{ intros c Hc. apply in_app_or in Hc as [Hc|Hc]; [apply repeat_spec in Hc as ->; split; discriminate|apply (Forall_inv He), Hc]. }
  rewrite E1. cbn [bind]. match goal with |- context [finish ?z _] => generalize z; intros ln end.
  destruct (html_finalize p1 ld d1 [] body x ln H1 Hx Hx2) as (cd & Hf & C1 & C2). pose proof H1 as [Q1 _ _ _ _ Q2 Q3 _].
  destruct (finish_leaf ln p1 (attach (T cd []) (set_p_stack [F d1 []] p1)) d1 [T cd []]) as (dd & s & D1 & _ & _ & ->); [rewrite Q1; discriminate|rewrite Q1; reflexivity|exact Hf|reflexivity|exact Q2|exact Q3|].
  rewrite process_leaf by (rewrite C1; reflexivity). cbn [bind]. unfold render_html. rewrite html_document by exact D1. unfold new_html. cbn [h_dis flat_map]. rewrite app_nil_r.
  pose proof (html_block_events o dd (n_last_line_blank cd) cd body x _ C1 C2 Eb Hx) as E. assert (Ecd : set_n_last_line_blank (n_last_line_blank cd) cd = cd) by (destruct cd; reflexivity). rewrite Ecd in E. rewrite E. reflexivity.
Qed.
