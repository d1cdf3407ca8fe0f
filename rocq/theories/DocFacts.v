(** * From a line of text to the finished document: lines that meet a parser whose only open
    block is the document *)
From Verif Require Import Base Regex Common NormRef Node Inlines Blocks Html Main RegexFacts RegexLang StrFacts Spec SpecTree SpecSame
  TreeFacts StrProp InlineFacts HtmlFacts RenderFacts BlockFacts BlockInv BlockRun LineFacts ParseFacts Sim SimFacts.
From Coq Require Import ZifyBool ZifyNat ZifyN.

(** ** What moving along the line does not change *)
Definition keeps (x z : parser) : Prop :=
  p_stack z = p_stack x /\ p_line z = p_line x /\ p_line_number z = p_line_number x /\ p_all_closed z = p_all_closed x /\
  p_matched z = p_matched x /\ p_refmap z = p_refmap x /\ p_last_line_length z = p_last_line_length x /\ p_smart z = p_smart x.
Lemma keeps_refl x : keeps x x.
Proof. unfold keeps. auto 10. Qed.
Lemma keeps_trans x y z : keeps x y -> keeps y z -> keeps x z.
Proof. intros (A1 & A2 & A3 & A4 & A5 & A6 & A7 & A8) (B1 & B2 & B3 & B4 & B5 & B6 & B7 & B8). unfold keeps. repeat split; congruence. Qed.
Lemma keeps_fnn x : keeps x (find_next_nonspace x).
Proof. unfold find_next_nonspace. destruct (skip_spaces _ _ _) as [i c]. unfold keeps. auto 10. Qed.
Lemma keeps_ann x : keeps x (advance_next_nonspace x).
Proof. unfold keeps. auto 10. Qed.
Lemma keeps_adv : forall f n c x, keeps x (advance_loop f n c x).
Proof.
  induction f as [|f IH]; intros n c x; cbn [advance_loop]; [apply keeps_refl|]. destruct n as [|n]; [apply keeps_refl|].
  destruct (peek _ _) as [ch|]; [|apply keeps_refl]. destruct (N.eqb ch TAB); [destruct c|];
    (eapply keeps_trans; [|apply IH]; unfold keeps; auto 10).
Qed.
Lemma skip_indent : forall i j cols c r, c <> SP -> c <> TAB -> skip_spaces (repeat SP i ++ c :: r) j cols = (j + i, cols + i).
Proof.
  induction i as [|i IH]; intros j cols c r H1 H2; cbn [repeat app skip_spaces].
  - rewrite (proj2 (N.eqb_neq c SP) H1), (proj2 (N.eqb_neq c TAB) H2), !Nat.add_0_r. reflexivity.
  - rewrite N.eqb_refl, IH by assumption. f_equal; lia.
Qed.
(** a line starting with [i] spaces and a visible character *)
Lemma fnn_spec x i c r : p_line x = repeat SP i ++ c :: r -> p_offset x = 0 -> p_column x = 0 -> c <> SP -> c <> TAB -> c <> 10%N -> c <> 13%N ->
  let z := find_next_nonspace x in
  keeps x z /\ p_next_nonspace z = i /\ p_next_nonspace_column z = i /\ p_indent z = i /\ p_indented z = Nat.leb 4 i /\ p_blank z = false /\ rest_nonspace z = c :: r /\
  peek (p_line z) (p_next_nonspace z) = Some c /\ p_offset z = 0 /\ p_column z = 0 /\ p_pct z = p_pct x.
Proof.
  intros El Eo Ec H1 H2 H3 H4 z. split; [apply keeps_fnn|]. unfold z, find_next_nonspace. unfold rest_offset. rewrite Eo, Ec, El. cbn [skipn].
  rewrite skip_indent by assumption. cbn [Nat.add]. unfold rest_nonspace.
  cbn [p_stack p_next_nonspace p_next_nonspace_column p_indent p_indented p_blank p_line p_offset p_column p_pct set_p_indented set_p_indent set_p_next_nonspace_column set_p_next_nonspace set_p_blank].
  rewrite El. assert (Ep : peek (repeat SP i ++ c :: r) i = Some c). { unfold peek. rewrite nth_error_app2; rewrite repeat_length; [|lia]. rewrite Nat.sub_diag. reflexivity. }
  rewrite Ep, Nat.sub_0_r, (proj2 (N.eqb_neq c 10) H3), (proj2 (N.eqb_neq c 13) H4). repeat split; auto.
  rewrite skipn_app, skipn_all2 by (rewrite repeat_length; lia). rewrite repeat_length, Nat.sub_diag. reflexivity.
Qed.

Lemma nth_error_skipn {A} : forall n (l : list A) m, nth_error (skipn n l) m = nth_error l (n + m).
Proof. induction n as [|n IH]; intros l m; [reflexivity|]. destruct l as [|x l]; [destruct m; reflexivity|apply IH]. Qed.

(** ** A line that starts no block *)
Definition no_start (l : str) : Prop :=
  hd_error l <> Some 62%N /\ hd_error l <> Some 60%N /\ re_search reATXHeadingMarker l = None /\ re_search reCodeFence l = None /\
  re_test reThematicBreak l = false /\
  (forall i m dt, list_marker l false i = Some (m, dt) -> exists c, nth_error l (length m) = Some c /\ c <> SP /\ c <> TAB).
Lemma try_none z c r : p_indented z = false -> p_indent z <= 3 -> rest_nonspace z = c :: r -> peek (p_line z) (p_next_nonspace z) = Some c -> (exists f st, p_stack z = f :: st) ->
  no_start (c :: r) -> try_starts block_starts document z = Ok (SNone, z).
Proof.
  intros Ei Ei' Er Ep (f & st & Es) (N1 & N2 & N3 & N4 & N5 & N6). unfold block_starts. cbn [try_starts].
  assert (C1 : opt_is 62 (Some c) = false) by (cbn [opt_is]; apply N.eqb_neq; intros ->; apply N1; reflexivity).
  assert (C2 : opt_is 60 (Some c) = false) by (cbn [opt_is]; apply N.eqb_neq; intros ->; apply N2; reflexivity).
  unfold start_block_quote at 1. rewrite Ei, Ep, C1. cbn [negb andb bind]. unfold start_atx_heading at 1. rewrite Ei, Er, N3. cbn [bind].
  unfold start_fenced_code at 1. rewrite Ei, Er, N4. cbn [bind]. unfold start_html_block at 1. rewrite Ei, Ep, C2. cbn [negb andb bind].
  unfold start_setext_heading at 1. change (ntype_eqb document paragraph) with false. rewrite andb_false_r. cbn [bind].
  unfold start_thematic_break at 1. rewrite Er, N5, andb_false_r. cbn [bind].
  unfold start_list_item at 1. rewrite Ei. cbn [negb orb]. unfold parse_list_marker. rewrite (proj2 (Nat.leb_gt 4 (p_indent z))) by lia.
  change (ntype_eqb document paragraph) with false. rewrite Er.
  assert (El : forall m, nth_error (p_line z) (p_next_nonspace z + m) = nth_error (c :: r) m).
  { intros m. rewrite <- Er. unfold rest_nonspace. rewrite nth_error_skipn. reflexivity. }
  destruct (list_marker (c :: r) false (p_indent z)) as [[m dt]|] eqn:Em; cbn [bind].
  - unfold peek. rewrite El. destruct (N6 _ _ _ Em) as (x & -> & X1 & X2). rewrite (proj2 (N.eqb_neq x SP) X1), (proj2 (N.eqb_neq x TAB) X2). cbn [orb negb bind].
    unfold start_indented_code, tip. rewrite Es, Ei. cbn [hd_error of_option bind andb]. reflexivity.
  - unfold start_indented_code, tip. rewrite Es, Ei. cbn [hd_error of_option bind andb]. reflexivity.
Qed.

Lemma starts_none x i c r d k fu : p_stack x = [F d k] -> n_t d = document -> p_line x = repeat SP i ++ c :: r -> i <= 3 -> p_offset x = 0 -> p_column x = 0 ->
  is_space c = false -> no_start (c :: r) ->
  exists y, starts_loop (S fu) 1 x = Ok (1, y) /\ keeps x y /\ p_blank y = false /\ p_offset y = i /\ p_column y = i /\ p_next_nonspace y = i /\ p_next_nonspace_column y = i /\ p_pct y = false.
Proof.
  intros Es Ed El Hi Eo Ec Hc Hn.
  assert (Hs : c <> SP /\ c <> TAB /\ c <> 10%N /\ c <> 13%N) by (repeat split; intros ->; discriminate Hc). destruct Hs as (H1 & H2 & H3 & H4).
  destruct (fnn_spec x i c r El Eo Ec H1 H2 H3 H4) as (Z0 & Z1 & Z2 & Z3 & Z4 & Z5 & Z6 & Z7 & Z8 & Z9 & Z10). cbn [starts_loop].
  remember (find_next_nonspace x) as z eqn:Z. clear Z.
  assert (Hend : keeps x (advance_next_nonspace z) /\ p_blank (advance_next_nonspace z) = false /\ p_offset (advance_next_nonspace z) = i /\ p_column (advance_next_nonspace z) = i /\
    p_next_nonspace (advance_next_nonspace z) = i /\ p_next_nonspace_column (advance_next_nonspace z) = i /\ p_pct (advance_next_nonspace z) = false).
  { split; [eapply keeps_trans; [exact Z0|apply keeps_ann]|]. cbn. auto 10. }
  assert (Ei : p_indented z = false) by (rewrite Z4; apply Nat.leb_gt; lia). rewrite Ei. cbn [negb andb].
  destruct (re_test reMaybeSpecial (rest_nonspace z)); cbn [negb]; [|eexists; split; [reflexivity|exact Hend]].
  assert (Ez : p_stack z = [F d k]) by (destruct Z0 as (K & _); congruence).
  unfold block_at. rewrite Ez. cbn [length Nat.sub nth_error of_option bind]. unfold f_type. cbn [f_data]. rewrite Ed.
  rewrite (try_none z c r Ei ltac:(lia) Z6 Z7 ltac:(eauto) Hn). cbn [bind]. eexists. split; [reflexivity|exact Hend].
Qed.

(** The paragraph the line opens *)
Definition para_data (n i : nat) (content : str) : ndata := set_n_string_content (Some content) (new_node paragraph (Some (n, S i, (0, 0)))).
Lemma para_line l i c r p d k : p_stack p = [F d k] -> n_t d = document -> n_sourcepos d <> None -> replace_char 0 65533 l = repeat SP i ++ c :: r -> i <= 3 ->
  is_space c = false -> no_start (c :: r) ->
  exists p' d', incorporate_line l p = Ok p' /\
    p_stack p' = [F (para_data (S (p_line_number p)) i (c :: r ++ [LF])) []; F d' k] /\ n_t d' = document /\ n_sourcepos d' = n_sourcepos d /\
    p_line_number p' = S (p_line_number p) /\ p_refmap p' = p_refmap p /\ p_smart p' = p_smart p /\ p_last_line_length p' = length l.
Proof.
  intros Es Ed Ep El Hi Hc Hn. rewrite (incorporate_doc l p d k Es Ed). unfold line_tail.
  destruct (fresh_fields (replace_char 0 65533 l) p) as (P1 & P2 & P3 & P4 & P5 & P6 & P7 & P8 & P9 & P10).
  remember (set_p_matched 1 (set_p_all_closed true (line_start (replace_char 0 65533 l) p))) as x eqn:Z. clear Z.
  destruct (starts_none x i c r d k (length (replace_char 0 65533 l))) as (y & -> & Y & Y1 & Y2 & Y3 & Y4 & Y5 & Y6); [congruence|exact Ed|congruence|exact Hi|exact P3|exact P4|exact Hc|exact Hn|].
  cbn [bind]. destruct Y as (K1 & K2 & K3 & K4 & K5 & K6 & K7 & K8).
  unfold line_end, tip. rewrite K1, P1, Es. cbn [hd_error of_option bind]. rewrite K4, P6. cbn [negb andb]. unfold add_text, close_unmatched_blocks. rewrite K4, P6. cbn [bind]. unfold tip.
  rewrite K1, P1, Es, Y1. cbn [hd_error of_option bind f_kids f_data tl].
  destruct (n_sourcepos d) as [[[sl sc] se]|] eqn:Esp; [|congruence]. cbn [bind]. unfold f_type at 1. cbn [f_data]. rewrite Ed. change (accepts_lines document) with (Ok (A:=bool) false). cbn [bind andb map].
  cbn [p_blank p_offset p_line set_p_stack]. rewrite Y1, Y2, K2, P2, El. rewrite (proj2 (Nat.ltb_lt _ _)) by (rewrite app_length, repeat_length; cbn [length]; lia). cbn [negb andb].
  unfold add_child. cbn [p_stack set_p_stack length]. cbn [make_room]. unfold tip. cbn [p_stack set_p_stack hd_error of_option bind]. unfold f_type, set_f_data. cbn [f_data f_kids n_t set_n_last_line_blank]. rewrite Ed.
  change (can_contain document paragraph) with (Ok (A:=bool) true). cbn [bind]. unfold add_line, tip. cbn [p_stack set_p_stack advance_next_nonspace set_p_pct set_p_column set_p_offset hd_error of_option bind f_data n_string_content new_node p_pct].
  unfold on_tip, rest_offset, advance_next_nonspace. cbn [p_stack set_p_stack set_p_pct set_p_column set_p_offset p_offset p_line p_line_number p_next_nonspace p_next_nonspace_column bind app]. rewrite Y4, K2, K3, P2, P7, El.
  rewrite skipn_app, skipn_all2 by (rewrite repeat_length; lia). rewrite repeat_length, Nat.sub_diag. cbn [app skipn].
  eexists. eexists. split; [reflexivity|]. cbn [p_stack p_line_number p_refmap p_smart p_last_line_length set_p_last_line_length set_p_stack set_p_pct set_p_column set_p_offset set_f_data f_data f_kids].
  split. { rewrite Nat.add_1_r. reflexivity. } cbn [n_t n_sourcepos set_n_last_line_blank]. rewrite <- El. unfold replace_char. rewrite map_length. repeat split; congruence.
Qed.

(** ** The end of the document *)
Lemma finish_leaf ln p p1 d k : p_stack p <> [] -> length (p_stack p) = 2 -> finalize_tip ln p = Ok p1 -> p_stack p1 = [F d k] -> n_t d = document -> n_sourcepos d <> None ->
  exists d' s, n_t d' = document /\ ip_refmap s = p_refmap p1 /\ ip_smart s = p_smart p1 /\ finish ln p = let* (k', _) := process_all k s in Ok (T d' k').
Proof.
  intros Hp El E1 Es Ed Hsp. unfold finish. rewrite El. cbn [finalize_all]. rewrite E1. cbn [bind]. destruct (p_stack p) as [|f st] eqn:E; [congruence|]. rewrite Es.
  destruct (finalize_bt ln p1 (F d k) [] Es (or_introl Ed) Hsp) as (sp0 & x & F1 & ->). cbn [bind]. unfold attach. cbn [p_stack set_p_stack p_doc set_p_doc f_kids f_data of_option bind].
  rewrite process_bt by (left; exact Ed). set (s := IP _ _ _ _ _ _ _ _). exists (set_n_sourcepos (Some (sp0, (ln, p_last_line_length p1))) (set_n_is_open false d)), s. split; [exact Ed|]. split; [reflexivity|]. split; [reflexivity|].
  destruct (process_all k s) as [[k' s']|e]; reflexivity.
Qed.
Lemma finalize_para ln p n i c r st : p_stack p = F (para_data n i (c :: r)) [] :: st -> c <> 91%N ->
  exists pd, finalize_tip ln p = Ok (attach (T pd []) (set_p_stack st p)) /\ n_t pd = paragraph /\ n_string_content pd = Some (c :: r) /\ n_sourcepos pd = Some (n, S i, (ln, p_last_line_length p)).
Proof.
  intros Es Hc. unfold finalize_tip. rewrite Es. cbn [f_data n_sourcepos set_n_is_open para_data set_n_string_content new_node of_option bind n_t set_n_sourcepos].
  unfold finalize_paragraph, para_data. cbn [n_string_content set_n_sourcepos set_n_is_open set_n_string_content of_option bind]. unfold strip_refs. cbn [length ref_loop]. unfold peek. cbn [nth_error opt_is].
  rewrite (proj2 (N.eqb_neq c 91) Hc). cbn [bind andb]. match goal with |- context [attach (T ?x _)] => exists x end. split; [destruct p; reflexivity|split; [reflexivity|split; reflexivity]].
Qed.
Lemma process_para pd content s : n_t pd = paragraph \/ n_t pd = heading -> n_string_content pd = Some content ->
  process_all [T pd []] s = let* (k, s') := parseInlines content s in Ok ([T pd k], s').
Proof.
  intros Ht Ec. cbn [process_all]. rewrite process_inlines_eq. assert (E : is_container (n_t pd) = true /\ ntype_eqb (n_t pd) paragraph || ntype_eqb (n_t pd) heading = true) by (destruct Ht as [-> | ->]; auto).
  destruct E as [-> ->]. cbn [process_all bind]. rewrite Ec. cbn [of_option bind]. destruct (parseInlines content s) as [[k s']|e]; reflexivity.
Qed.
Lemma process_leaf d s : is_container (n_t d) = false -> process_all [T d []] s = Ok ([T d []], s).
Proof. intros E. cbn [process_all]. rewrite process_inlines_eq, E. reflexivity. Qed.

(** A document of one paragraph line *)
Lemma text_lines_one l : no_eol l -> text_lines l = [l].
Proof.
  intros H. assert (E : split_eol l = [l]).
  { clear -H. induction l as [|c l IH]; [reflexivity|]. destruct (H c (or_introl eq_refl)) as [H1 H2]. destruct (split_eol_cons c l H1 H2) as (a & b & E1 & ->).
    rewrite IH in E1 by (intros x Hx; apply H; right; exact Hx). injection E1 as <- <-. reflexivity. }
  unfold text_lines. rewrite E. destruct (last_opt l) as [c|] eqn:El; [|reflexivity]. destruct (N.eqb_spec c 10) as [->|]; [|reflexivity]. exfalso.
  assert (Hin : In 10%N l) by (clear -El; revert El; induction l as [|x l IH]; [discriminate|rewrite last_opt_cons; destruct (last_opt l); intros E; injection E as ->; [right; auto|left; reflexivity]]).
  destruct (H _ Hin) as [X _]. congruence.
Qed.
Lemma one_para smart l i c r : no_eol l -> replace_char 0 65533 l = repeat SP i ++ c :: r -> i <= 3 -> is_space c = false -> c <> 91%N -> no_start (c :: r) ->
  exists dd pd s, n_t dd = document /\ n_t pd = paragraph /\ n_sourcepos pd = Some (1, S i, (1, length l)) /\ ip_refmap s = [] /\ ip_smart s = smart /\
    parse_doc smart l = let* (k, _) := parseInlines (c :: r ++ [LF]) s in Ok (T dd [T pd k]).
Proof.
  intros He El Hi Hc H91 Hn. change (parse_doc smart l) with (result (parse (new_parser smart) l)). rewrite parse_finish, input_lines_text, (text_lines_one l He).
  destruct (reset_fresh smart) as ((d & Es & Ed & Esp & _) & En & Er & Esm). cbn [incorporate_lines length]. remember (reset (new_parser smart)) as p eqn:Z. clear Z.
  destruct (para_line l i c r p d [] Es Ed Esp El Hi Hc Hn) as (p' & d' & -> & P1 & P2 & P3 & P4 & P5 & P6 & P7). cbn [bind]. rewrite En in P1.
  destruct (finalize_para 1 p' 1 i c (r ++ [LF]) [F d' []] P1 H91) as (pd & F1 & F2 & F3 & F4).
  destruct (finish_leaf 1 p' _ d' [T pd []] ltac:(rewrite P1; discriminate) ltac:(rewrite P1; reflexivity) F1 eq_refl P2 ltac:(congruence)) as (dd & s & D1 & D2 & D3 & ->).
  cbn [attach p_stack set_p_stack p_refmap p_smart] in D2, D3. rewrite (process_para pd _ s (or_introl F2) F3).
  exists dd, pd, s. split; [exact D1|]. split; [exact F2|]. split; [rewrite F4, P7; reflexivity|]. split; [congruence|]. split; [congruence|].
  destruct (parseInlines _ s) as [[k s']|e]; reflexivity.
Qed.
