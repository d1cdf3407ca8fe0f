(** * A setext underline after a paragraph of the document (C65) *)
From Verif Require Import Base Regex Common NormRef Node Inlines Blocks Html Main RegexFacts RegexLang StrFacts StrProp Spec SpecTree SpecSame SpecLines SpecParas SpecLazy SpecWeak TreeFacts
  InlineFacts BlockFacts BlockInv BlockSteps BlockRun LineFacts ParseFacts Sim SimFacts DocFacts TextFacts RuleFacts WordFacts FenceFacts ParaFacts ParaDoc LazyInv LazyFacts LazySim WeakFacts WeakStart WeakSim ParaHolds.
From Verif Require LeafFacts.
Import SpecParas.
From Coq Require Import ZifyBool ZifyNat ZifyN.

(** The heading that [start_setext_heading] makes of the paragraph (blocks.py 514-541) *)
Definition turned (fr : frame) (lev : nat) (c0 : str) : ndata := set_n_string_content (Some c0) (set_n_level (Some lev) (new_node heading (n_sourcepos (f_data fr)))).
Lemma fnn_ip p : p_ip (find_next_nonspace p) = p_ip p.
Proof. unfold find_next_nonspace. destruct (skip_spaces _ _ _). reflexivity. Qed.
Lemma turn_starts z c r m fr d sc c0 g s rm : c = 61%N \/ c = 45%N -> rest_nonspace z = c :: r -> peek (p_line z) (p_next_nonspace z) = Some c -> p_indented z = false -> p_stack z = [fr; d] -> n_string_content (f_data fr) = Some sc -> p_all_closed z = true ->
  ref_loop (S (length sc)) sc false (p_ip z) (p_refmap z) = Ok (c0, g, s, rm) -> c0 <> [] ->
  re_search reSetextHeadingLine (c :: r) = Some m -> hd_error (rm_group m) = Some c ->
  exists y, try_starts block_starts paragraph z = Ok (SLeaf, advance_to_end y) /\ p_stack y = [F (turned fr (if N.eqb c 61 then 1 else 2) c0) []; d] /\
    p_line y = p_line z /\ p_all_closed y = true /\ p_refmap y = rm /\ p_smart y = p_smart z /\ p_ip y = s.
Proof.
  intros Hc Er Ep Ei Es Ec Ea Erl Hne Em Eh. unfold block_starts. cbn [try_starts].
  assert (C1 : opt_is 62 (Some c) = false) by (destruct Hc as [-> | ->]; reflexivity). assert (C2 : opt_is 60 (Some c) = false) by (destruct Hc as [-> | ->]; reflexivity).
  assert (N3 : re_search reATXHeadingMarker (c :: r) = None).
  { assert (E : reATXHeadingMarker = RSeq RBol (match reATXHeadingMarker with RSeq _ r => r | r => r end)) by (vm_compute; reflexivity). rewrite E. clear E. apply begins_search; [vm_compute; reflexivity|vm_compute; reflexivity|]. destruct Hc as [-> | ->]; vm_compute; reflexivity. }
  assert (N4 : re_search reCodeFence (c :: r) = None) by (apply fence_first; destruct Hc as [-> | ->]; vm_compute; reflexivity).
  unfold start_block_quote at 1. rewrite Ei, Ep, C1. cbn [negb andb bind]. unfold start_atx_heading at 1. rewrite Ei, Er, N3. cbn [bind].
  unfold start_fenced_code at 1. rewrite Ei, Er, N4. cbn [bind]. unfold start_html_block at 1. rewrite Ei, Ep, C2. cbn [negb andb bind].
  unfold start_setext_heading at 1. rewrite Ei, Er, Em. change (ntype_eqb paragraph paragraph) with true. cbn [negb andb bind]. unfold close_unmatched_blocks. rewrite Ea. cbn [bind]. unfold tip. rewrite Es. cbn [hd_error of_option bind]. rewrite Ec. cbn [of_option bind].
  unfold strip_refs. rewrite Erl. cbn [bind]. destruct c0 as [|e0 c0]; [contradiction|]. cbn [is_nil]. rewrite Eh. cbn [of_option bind]. eexists. split; [reflexivity|].
  cbn [p_stack set_p_stack p_line p_all_closed p_refmap p_smart p_ip set_p_ip set_p_refmap]. rewrite Es. cbn [tl]. split; [reflexivity|]. auto 10.
Qed.
Lemma line_end_ip ln y ld d : p_stack y = [F ld []; d] -> p_all_closed y = true -> n_t ld = heading -> n_sourcepos ld <> None -> length (p_line y) <= p_offset y ->
  exists b y', line_end ln y = Ok y' /\ p_stack y' = [F (set_n_last_line_blank b ld) []; F (set_n_last_line_blank b (f_data d)) (f_kids d)] /\
    p_refmap y' = p_refmap y /\ p_smart y' = p_smart y /\ p_last_line_length y' = length ln /\ p_ip y' = p_ip y.
Proof.
  intros Es Ea Ht Hsp Hc. unfold line_end, tip. rewrite Es. cbn [hd_error of_option bind]. rewrite Ea. cbn [negb andb]. unfold add_text, close_unmatched_blocks. rewrite Ea. cbn [bind]. unfold tip. rewrite Es. cbn [hd_error of_option bind f_kids f_data tl].
  destruct (n_sourcepos ld) as [[[sl sc0] se]|] eqn:Esp; [|congruence]. cbn [bind].
  replace (if p_blank y then mark_last_blank [] else []) with (@nil tree) by (destruct (p_blank y); reflexivity). set (b := p_blank y && _). cbn [map]. unfold set_f_data. cbn [f_data f_kids].
  assert (Ha : accepts_lines (f_type (F ld [])) = Ok false) by (unfold f_type; cbn [f_data]; rewrite Ht; reflexivity). rewrite Ha. cbn [bind p_offset p_line set_p_stack].
  rewrite (proj2 (Nat.ltb_ge _ _) Hc). cbn [andb bind]. exists b. eexists. split; [reflexivity|]. repeat split.
Qed.
Lemma to_end_ip p : p_ip (advance_to_end p) = p_ip p.
Proof. destruct (advance_to_end_mv p) as (off & col & pct & -> & _). reflexivity. Qed.

Lemma line_under ln p fr d sc i c ul c0 g s rm : ln = repeat SP i ++ ul -> i <= 3 -> c = 61%N \/ c = 45%N -> underline_of c ul ->
  p_stack p = [fr; d] -> f_type fr = paragraph -> n_sourcepos (f_data fr) <> None -> n_string_content (f_data fr) = Some sc ->
  ref_loop (S (length sc)) sc false (p_ip p) (p_refmap p) = Ok (c0, g, s, rm) -> c0 <> [] ->
  exists y b, incorporate_line ln p = Ok y /\ p_stack y = [F (set_n_last_line_blank b (turned fr (if N.eqb c 61 then 1 else 2) c0)) []; F (set_n_last_line_blank b (f_data d)) (f_kids d)] /\
    p_refmap y = rm /\ p_smart y = p_smart p /\ p_last_line_length y = length ln /\ p_ip y = s.
Proof.
  intros El Hi Hc Hu Es Hty Hsp Hcs Erl Hne. destruct (setext_some ul c Hc Hu) as (m & Em & Eh). destruct Hu as (u0 & w & Eu & Hw). assert (Eu' : ul = c :: repeat c u0 ++ w) by exact Eu. set (r := repeat c u0 ++ w) in *.
  assert (Hr : replace_char 0 65533 ln = repeat SP i ++ c :: r).
  { rewrite LeafFacts.replace_ascii; [rewrite El, Eu'; reflexivity|]. rewrite El, Eu', in_app_iff. cbn [In]. unfold r. rewrite in_app_iff. intros [X|[X|[X|X]]]; [apply repeat_spec in X; discriminate|destruct Hc; congruence|apply repeat_spec in X; destruct Hc; congruence|]. unfold blanks in Hw. rewrite Forall_forall in Hw. specialize (Hw _ X). destruct Hw; discriminate. }
  assert (Hs : c <> SP /\ c <> TAB /\ c <> 10%N /\ c <> 13%N) by (destruct Hc as [-> | ->]; repeat split; discriminate). destruct Hs as (H1 & H2 & H3 & H4).
  assert (Hlen : length ln = length (repeat SP i ++ c :: r)) by (rewrite El, Eu'; reflexivity).
  rewrite incorporate_line_eq. cbn zeta. rewrite Hr. set (l := repeat SP i ++ c :: r) in *. set (p1 := line_start l p).
  assert (A1 : at_ws i c r p1) by (split; [reflexivity|]; split; [cbn; lia|]; split; reflexivity).
  assert (Es1 : p_stack p1 = [fr; d]) by exact Es. rewrite Es1. cbn [rev app tl descend]. pose proof (fnn_ip p1) as I1.
  destruct (find_ws i c r H1 H2 H3 H4 p1 A1) as (p2 & E2 & A2 & (S1 & S2 & S3 & S4 & S5) & _ & _ & N3 & _). rewrite E2 in *.
  unfold continue_. unfold f_type in Hty. rewrite Hty, N3. cbn [bind]. unfold line_rest.
  remember (set_p_matched 2 (set_p_all_closed (Nat.eqb 2 (length (p_stack p2))) p2)) as p3 eqn:E3.
  assert (Es3 : p_stack p3 = [fr; d]) by (rewrite E3; cbn [p_stack set_p_matched set_p_all_closed]; congruence).
  assert (A3 : at_ws i c r p3) by (rewrite E3; exact A2).
  assert (T : p_refmap p3 = p_refmap p /\ p_smart p3 = p_smart p /\ p_ip p3 = p_ip p /\ p_all_closed p3 = true).
  { rewrite E3. cbn [p_refmap p_smart p_ip p_all_closed set_p_matched set_p_all_closed]. rewrite S4, S5, S1, Es1, I1. repeat split. }
  destruct T as (T1 & T2 & T3 & T4). clear E3 S1 S2 S3 S4 S5 A2 N3 I1 E2. unfold block_at. rewrite Es3. cbn [length Nat.sub nth_error of_option bind]. unfold f_type at 1. rewrite Hty. cbn [accepts_lines bind].
  unfold f_type at 1. rewrite Hty. cbn [ntype_eqb negb andb]. unfold line_tail. cbn [starts_loop]. pose proof (fnn_ip p3) as I3.
  destruct (find_ws i c r H1 H2 H3 H4 p3 A3) as (z & Ez & A4 & (S1 & S2 & S3 & S4 & S5) & N1 & N2 & N3 & N4 & N5 & N6 & N7 & N8). rewrite Ez in *.
  assert (Hrest : rest_nonspace z = c :: r). { unfold rest_nonspace. destruct A4 as (-> & _). rewrite N1, (skip_ws i c r) by lia. rewrite Nat.sub_diag. reflexivity. }
  assert (Hpk : peek (p_line z) (p_next_nonspace z) = Some c). { destruct A4 as (-> & _). rewrite N1. unfold peek. rewrite nth_error_app2 by (rewrite repeat_length; lia). rewrite repeat_length, Nat.sub_diag. reflexivity. }
  assert (Ei : p_indented z = false) by (rewrite N6; apply Nat.leb_gt; lia). rewrite Ei, Hrest, (maybe_special c _ Hc). cbn [negb andb]. unfold block_at. rewrite S1, Es3. cbn [length Nat.sub nth_error of_option bind]. unfold f_type at 1. rewrite Hty.
  destruct (turn_starts z c r m fr d sc c0 g s rm Hc Hrest Hpk Ei ltac:(congruence) Hcs ltac:(congruence) ltac:(rewrite I3, T3, S4, T1; exact Erl) Hne ltac:(rewrite <- Eu'; exact Em) Eh) as (y & -> & Y1 & Y2 & Y3 & Y4 & Y5 & Y6). cbn [bind].
  destruct (LeafFacts.to_end_fields y) as (U1 & U2 & U3 & U4 & U5 & U6 & U7). pose proof (to_end_ip y) as U8.
  destruct (line_end_ip l (advance_to_end y) _ d ltac:(rewrite U1; exact Y1) ltac:(congruence) eq_refl Hsp ltac:(rewrite U2; exact U3)) as (b & y' & -> & W1 & W2 & W3 & W4 & W5).
  exists y', b. split; [reflexivity|]. split; [exact W1|]. split; [congruence|]. split; [congruence|]. split; congruence.
Qed.

Lemma process_all_last : forall k x s, process_all (k ++ [x]) s = let* (k', s1) := process_all k s in let* (x', s2) := process_inlines x s1 in Ok (k' ++ [x'], s2).
Proof.
  induction k as [|y k IH]; intros x s; cbn [app process_all].
  - cbn [bind]. destruct (process_inlines x s) as [[x' s']|]; reflexivity.
  - destruct (process_inlines y s) as [[y' s']|]; [|reflexivity]. cbn [bind]. rewrite IH. destruct (process_all k s') as [[k' s1]|]; [|reflexivity]. cbn [bind]. destruct (process_inlines x s1) as [[x' s2]|]; reflexivity.
Qed.
(** no definition was taken off *)
Lemma ref_loop_found : forall f c s rm c0 g s' rm', ref_loop f c true s rm = Ok (c0, g, s', rm') -> g = true.
Proof.
  induction f as [|f IH]; intros c s rm c0 g s' rm'; cbn [ref_loop]; [discriminate|]. destruct (opt_is _ _); [|intros E; injection E; auto].
  destruct (parseReference _ _ _) as [[[pos s1] rm1]|]; [|discriminate]. cbn [bind]. destruct (Nat.eqb pos 0); [intros E; injection E; auto|apply IH].
Qed.
Lemma ref_loop_none f c s rm c0 s' rm' : ref_loop f c false s rm = Ok (c0, false, s', rm') -> c0 = c.
Proof.
  destruct f as [|f]; cbn [ref_loop]; [discriminate|]. destruct (opt_is _ _); [|intros E; injection E; auto].
  destruct (parseReference _ _ _) as [[[pos s1] rm1]|]; [|discriminate]. cbn [bind]. destruct (Nat.eqb pos 0); [intros E; injection E; auto|]. intros E. apply ref_loop_found in E. discriminate.
Qed.

(** The inline parser's state when the inlines of the document are processed (blocks.py: [Parser.parse]) *)
Definition start_ip (q : parser) : ip := IP (ip_subject (p_ip q)) (ip_pos (p_ip q)) (p_refmap q) (p_smart q) (ip_delims (p_ip q)) (ip_brackets (p_ip q)) (ip_kids (p_ip q)) (ip_next (p_ip q)).
Lemma finish_par n p fr bd bk t sc : p_stack p = [fr; F bd bk] -> f_type fr = paragraph -> f_kids fr = [] -> n_string_content (f_data fr) = Some sc -> n_t bd = document -> finish n p = Ok t ->
  exists dd k c0 g s rm, t = T dd k /\ ref_loop (S (length sc)) sc false (p_ip p) (p_refmap p) = Ok (c0, g, s, rm) /\ n_sourcepos bd <> None /\
    (map t_data k = map t_data bk \/
     exists k0 pd pk s1 s2 sp0 e, k = k0 ++ [T pd pk] /\ process_all bk (start_ip (set_p_ip s (set_p_refmap rm p))) = Ok (k0, s1) /\ parseInlines c0 s1 = Ok (pk, s2) /\
       n_sourcepos (f_data fr) = Some (sp0, e) /\ n_sourcepos pd = Some (sp0, (n, p_last_line_length p)) /\ (c0 = [] -> g = false)).
Proof.
  intros Es Hty Hk Hsc Hd. unfold finish. rewrite Es. cbn [length finalize_all]. rewrite Es. unfold finalize_tip at 1. rewrite Es. cbn [set_n_is_open n_sourcepos].
  destruct (n_sourcepos (f_data fr)) as [[sp0 y]|] eqn:Esp; [|discriminate]. cbn [of_option bind]. set (dd := set_n_sourcepos _ _).
  assert (Ed : n_t dd = paragraph) by exact Hty. assert (Hl : n_sourcepos dd = Some (sp0, (n, p_last_line_length p))) by reflexivity. assert (Hs : n_string_content dd = Some sc) by exact Hsc. clearbody dd. rewrite Ed.
  unfold finalize_paragraph. rewrite Hs. cbn [of_option bind]. unfold strip_refs. cbn [p_ip p_refmap set_p_stack]. destruct (ref_loop _ _ _ _ _) as [[[[c0 g] s] rm]|] eqn:Er; [|discriminate]. cbn [bind]. rewrite Hk.
  set (z := if g && is_blank c0 then _ else _).
  assert (Z : exists ks, p_stack z = [F bd (bk ++ ks)] /\ start_ip z = start_ip (set_p_ip s (set_p_refmap rm p)) /\ (ks = [] \/ ks = [T (set_n_string_content (Some c0) dd) []] /\ (c0 = [] -> g = false))).
  { unfold z. destruct (g && is_blank c0) eqn:Eg; [exists []; rewrite app_nil_r; split; [reflexivity|]; split; [reflexivity|left; reflexivity]|]. eexists. split; [reflexivity|]. split; [reflexivity|right; split; [reflexivity|]]. intros ->. rewrite andb_comm in Eg. exact Eg. }
  clearbody z. destruct Z as (ks & Z1 & Z2 & Z3). rewrite Z1. unfold finalize_tip. rewrite Z1. cbn [f_data set_n_is_open n_sourcepos].
  destruct (n_sourcepos bd) as [[sb yb]|] eqn:Esb; [|discriminate]. cbn [of_option bind]. set (db := set_n_sourcepos _ _). assert (Edb : n_t db = document) by exact Hd. clearbody db. rewrite Edb.
  unfold attach. cbn [p_stack set_p_stack bind finalize_all p_doc set_p_doc of_option f_kids p_ip p_refmap p_smart]. change (IP _ _ _ _ _ _ _ _) with (start_ip z). rewrite Z2, process_inlines_eq, Edb. change (is_container document) with true. cbv iota.
  set (s0 := start_ip _). intros X. destruct (process_all (bk ++ ks) s0) as [[l s1]|e] eqn:E; [|discriminate]. cbn [bind ntype_eqb orb] in X. apply Ok_inj in X. subst t.
  exists db, l, c0, g, s, rm. split; [reflexivity|]. split; [reflexivity|]. split; [discriminate|]. destruct Z3 as [->|[-> Z4]].
  - left. rewrite app_nil_r in E. apply process_all_data in E. exact E.
  - right. rewrite process_all_last in E. destruct (process_all bk s0) as [[k0 s2]|] eqn:Eb; [|discriminate]. cbn [bind] in E.
    pose proof (process_para (set_n_string_content (Some c0) dd) c0 s2 (or_introl Ed) eq_refl) as P. cbn [process_all] in P. destruct (process_inlines _ s2) as [[x' s3]|]; [|discriminate]. cbn [bind] in E, P.
    destruct (parseInlines c0 s2) as [[pk s4]|] eqn:Ei; [|discriminate]. cbn [bind] in P. apply Ok_inj in P. injection P as -> ->. apply Ok_inj in E. injection E as <- <-.
    exists k0, (set_n_string_content (Some c0) dd), pk, s2, s4, sp0, y. split; [reflexivity|]. split; [exact Eb|]. split; [exact Ei|]. split; [reflexivity|]. split; [exact Hl|exact Z4].
Qed.
Lemma finish_head n q hd bd bk c0 k s1 pk s2 sp0 e : p_stack q = [F hd []; F bd bk] -> n_t hd = heading -> n_string_content hd = Some c0 -> n_sourcepos hd = Some (sp0, e) -> n_t bd = document -> n_sourcepos bd <> None ->
  process_all bk (start_ip q) = Ok (k, s1) -> parseInlines c0 s1 = Ok (pk, s2) ->
  exists dd hd', finish n q = Ok (T dd (k ++ [T hd' pk])) /\ n_t hd' = heading /\ n_level hd' = n_level hd /\ n_sourcepos hd' = Some (sp0, (n, p_last_line_length q)).
Proof.
  intros Es Ht Hc Hsp Hd Hb E1 E2. destruct (n_sourcepos bd) as [[sb yb]|] eqn:Esb; [|congruence]. unfold finish. rewrite Es. cbn [length finalize_all]. rewrite Es. unfold finalize_tip at 1. rewrite Es. cbn [f_data f_kids set_n_is_open n_sourcepos]. rewrite Hsp. cbn [of_option bind].
  set (dd := set_n_sourcepos _ _). assert (D1 : n_t dd = heading) by exact Ht. assert (D2 : n_level dd = n_level hd) by reflexivity. assert (D3 : n_string_content dd = Some c0) by exact Hc.
  assert (D4 : n_sourcepos dd = Some (sp0, (n, p_last_line_length q))) by reflexivity. clearbody dd. rewrite D1. unfold attach at 1. cbn [p_stack set_p_stack f_data f_kids bind].
  unfold finalize_tip. cbn [p_stack set_p_stack f_data f_kids set_n_is_open n_sourcepos p_last_line_length]. rewrite Esb. cbn [of_option bind]. set (db := set_n_sourcepos _ _). assert (Edb : n_t db = document) by exact Hd. clearbody db. rewrite Edb.
  unfold attach. cbn [p_stack set_p_stack bind finalize_all p_doc set_p_doc of_option f_kids p_ip p_refmap p_smart]. change (IP _ _ _ _ _ _ _ _) with (start_ip q). rewrite process_inlines_eq, Edb. change (is_container document) with true. cbv iota.
  rewrite process_all_last, E1. cbn [bind]. pose proof (process_para dd c0 s1 (or_intror D1) D3) as P. rewrite E2 in P. cbn [process_all bind] in P.
  destruct (process_inlines (T dd []) s1) as [[x' s3]|]; [|discriminate]. cbn [bind] in *. apply Ok_inj in P. injection P as -> ->. cbn [ntype_eqb orb]. exists db, dd. auto.
Qed.

Lemma under_turns smart ls i c ul d k pd pk : Forall (Forall code_point) ls -> Forall no_eol ls -> i <= 3 -> c = 61%N \/ c = 45%N -> underline_of c ul ->
  parse_doc smart (lines_text ls) = Ok (T d (k ++ [T pd pk])) -> n_t pd = paragraph -> last_line pd = length ls ->
  exists d' hd a e, parse_doc smart (lines_text (ls ++ [repeat 32%N i ++ ul])) = Ok (T d' (k ++ [T hd pk])) /\ n_t hd = heading /\ n_level hd = Some (if N.eqb c 61 then 1 else 2) /\
    n_sourcepos pd = Some (a, e) /\ n_sourcepos hd = Some (a, (S (length ls), i + length ul)).
Proof.
  intros Hc He Hi Hcc Hu E1 Hp Hl. assert (Ho : ends_top smart ls) by (exists d, k, pd, pk; auto).
  assert (Hne : ls <> []) by (intros ->; destruct (none_top _ Ho)).
  assert (Hx : no_eol ul). { destruct Hu as (u0 & w & -> & Hw). intros a Hin. apply in_app_or in Hin as [Hin|Hin]; [apply repeat_spec in Hin; subst a; destruct Hcc as [-> | ->]; split; discriminate|]. unfold blanks in Hw. rewrite Forall_forall in Hw. specialize (Hw _ Hin). destruct Hw as [-> | ->]; split; discriminate. }
  assert (El : input_lines (lines_text ls) = ls) by (rewrite input_lines_text; apply text_lines_lines; assumption).
  assert (El2 : input_lines (lines_text (ls ++ [repeat 32%N i ++ ul])) = ls ++ [repeat 32%N i ++ ul]).
  { rewrite input_lines_text. apply text_lines_lines; [|destruct ls; discriminate]. apply Forall_app. split; [exact He|]. constructor; [|constructor]. intros a Hin. apply in_app_or in Hin as [Hin|Hin]; [apply repeat_spec in Hin; subst; split; discriminate|apply Hx, Hin]. }
  change (parse_doc smart (lines_text ls)) with (result (parse (new_parser smart) (lines_text ls))) in E1. change (parse_doc smart (lines_text (ls ++ [repeat 32%N i ++ ul]))) with (result (parse (new_parser smart) (lines_text (ls ++ [repeat 32%N i ++ ul])))).
  rewrite parse_finish, El in E1. rewrite parse_finish, El2, snoc_one. destruct (incorporate_lines ls _) as [p|e] eqn:Ep; [|discriminate]. cbn [bind] in *.
  destruct (text_top smart ls p Hc He Hne Ho Ep) as (fr & b & Es & Hty). pose proof (code_lines_edge smart ls p Hc Ep) as Hed. destruct (edge_boxes _ _ _ _ Hed Es Hty) as (_ & _ & _ & sc & Hsc).
  destruct Hed as ((Hok & _) & Hpar & _). rewrite Es in Hok, Hpar. pose proof (stack_bottom _ _ _ [fr] b Hok) as Hbot. destruct b as [bd bk].
  pose proof (leaf_kids _ _ _ _ (stack_ok_hd _ _ _ _ _ Hok) ltac:(tauto)) as Hk.
  destruct (finish_par _ p fr bd bk _ sc Es Hty Hk Hsc Hbot E1) as (dd & k1 & c0 & g & s & rm & X0 & X1 & X2 & X3). injection X0 as <- <-.
  destruct X3 as [X3|(k0 & pd0 & pk0 & s1 & s2 & sp0 & e & X3 & X4 & X5 & X6 & X7 & X8)].
  { exfalso. rewrite map_app in X3. cbn [map t_data] in X3.
    assert (Hin : In pd (map t_data bk)) by (rewrite <- X3; apply in_or_app; right; left; reflexivity). apply in_map_iff in Hin as ([d1 k1] & Ed1 & Hin). cbn [t_data] in Ed1. subst d1.
    inversion Hpar as [|? ? _ P2]; subst. inversion P2 as [|? ? P3 _]; subst. cbn [f_kids] in P3. rewrite Forall_forall in P3. specialize (P3 _ Hin).
    pose proof (paras_nodes _ _ pd P3 (or_introl eq_refl) Hp) as G. destruct ls as [|l0 ls]; [contradiction|]. cbn [length] in *. lia. }
  apply app_inj_tail in X3 as [<- X3]. injection X3 as <- <-.
  assert (Hc0 : c0 <> []).
  { intros H0. rewrite (X8 H0) in X1. apply ref_loop_none in X1. destruct (lines_hold smart ls p Hc Hne Ep _ _ Es Hty Hk) as (sc' & Y1 & Y2). congruence. }
  destruct (line_under (repeat 32%N i ++ ul) p fr (F bd bk) sc i c ul c0 g s rm eq_refl Hi Hcc Hu Es Hty ltac:(rewrite X6; discriminate) Hsc X1 Hc0) as (q & b & Q1 & Q2 & Q3 & Q4 & Q5 & Q6).
  rewrite Q1. cbn [bind]. cbn [f_data f_kids] in Q2.
  assert (Eip : start_ip q = start_ip (set_p_ip s (set_p_refmap rm p))) by (unfold start_ip; cbn [p_ip p_refmap p_smart set_p_ip set_p_refmap]; rewrite Q3, Q4, Q6; reflexivity).
  destruct (finish_head (length (ls ++ [repeat 32%N i ++ ul])) q _ _ bk c0 k s1 pk s2 sp0 e Q2 eq_refl eq_refl X6 Hbot X2 ltac:(rewrite Eip; exact X4) X5) as (d' & hd & F1 & F2 & F3 & F4).
  exists d', hd, sp0, (length ls, p_last_line_length p). split; [exact F1|]. split; [exact F2|]. split; [exact F3|]. split; [exact X7|].
  rewrite F4, Q5, !app_length, repeat_length. cbn [length]. rewrite Nat.add_1_r. reflexivity.
Qed.
