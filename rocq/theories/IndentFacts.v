(** * Indented code blocks: C18 *)
From Verif Require Import Base Regex Common NormRef Node Inlines Blocks Html Main RegexFacts StrFacts Spec SpecTree SpecSame SpecLines
  TreeFacts CommonFacts StrProp InlineFacts HtmlFacts RenderFacts BlockFacts BlockInv BlockRun LineFacts ParseFacts Sim SimFacts DocFacts ColumnFacts RuleFacts MarkFacts LeafFacts FenceFacts.
From Verif Require RegexLang TextFacts.
From Coq Require Import ZifyBool ZifyNat ZifyN.

(** ** Trailing blank lines *)
Definition blank_row : regex := RGrp 1 (RSeq (RChr (cs1 10)) (RRep true 0 None (RChr (cs1 32)))).
Lemma reTrailing_shape : reTrailingBlank = RSeq (RRep true 1 None blank_row) REol.
Proof. vm_compute. reflexivity. Qed.
Definition void (t : str) : Prop := Forall (fun x => x = 10%N \/ x = 32%N) t.
Lemma hd_flat_first {A B} (f : A -> list B) l x y : hd_error l = Some x -> hd_error (f x) = Some y -> hd_error (flat_map f l) = Some y.
Proof. destruct l as [|a l]; [discriminate|]. intros [= ->] H. cbn [flat_map]. destruct (f x); [discriminate|]. exact H. Qed.
Lemma row_hd prev t caps : exists st, hd_error (results blank_row (MS prev (10%N :: t) caps)) = Some st /\ ms_rest st = drop_while (N.eqb 32) t.
Proof.
  unfold blank_row. change (results (RGrp 1 ?a) ?s) with (map (fun st' => MS (ms_prev st') (ms_rest st') ((1, firstn (length (ms_rest s) - length (ms_rest st')) (ms_rest s)) :: ms_caps st')) (results a s)).
  change (results (RSeq (RChr (cs1 10)) ?b) (MS prev (10%N :: t) caps)) with (flat_map (results b) [MS (Some 10%N) t caps]). cbn [flat_map]. rewrite app_nil_r, results_star.
  pose proof (star_res_hd (cmatch (cs1 32)) t (Some 10%N) caps) as H. destruct (star_res _ _ _ _) as [|x l]; [discriminate|]. injection H as ->. cbn [map hd_error]. eexists. split; [reflexivity|]. cbn [ms_rest].
  clear. induction t as [|c t IH]; [reflexivity|]. cbn [drop_while]. rewrite cs1_spec, N.eqb_sym. destruct (N.eqb 32 c); [exact IH|reflexivity].
Qed.
Lemma void_drop t : void t -> void (drop_while (N.eqb 32) t) /\ (drop_while (N.eqb 32) t = [] \/ exists t', drop_while (N.eqb 32) t = 10%N :: t') /\ length (drop_while (N.eqb 32) t) <= length t.
Proof.
  induction t as [|c t IH]; intros H; cbn [drop_while]; [split; [constructor|split; [auto|lia]]|]. destruct (IH (Forall_inv_tail H)) as (A & B & C). destruct (Forall_inv H) as [-> | ->].
  - change (N.eqb 32 10) with false. cbv iota. split; [exact H|]. split; [right; eexists; reflexivity|lia].
  - change (N.eqb 32 32) with true. cbv iota. split; [exact A|]. split; [exact B|cbn [length]; lia].
Qed.
Lemma rows_hd : forall n st, void (ms_rest st) -> (ms_rest st = [] \/ exists t, ms_rest st = 10%N :: t) -> length (ms_rest st) <= n ->
  exists st', hd_error (upto_res (results blank_row) true n st) = Some st' /\ ms_rest st' = [].
Proof.
  induction n as [|n IH]; intros [prev s caps] Hv Hs Hl; cbn [ms_rest] in *; cbn [upto_res].
  - destruct s; [|cbn in Hl; lia]. eexists. split; reflexivity.
  - destruct Hs as [->|(t & ->)].
    + change (results blank_row (MS prev [] caps)) with (@nil mst). eexists. split; reflexivity.
    + destruct (row_hd prev t caps) as (x & Hx & Ex). destruct (void_drop t (Forall_inv_tail Hv)) as (A & B & C). cbn [length] in Hl. destruct (IH x) as (y & Hy & Ey); [rewrite Ex; exact A|rewrite Ex; exact B|rewrite Ex; lia|].
      exists y. split; [|exact Ey]. assert (Hs : hd_error (flat_map (fun st' => if shorter st' (MS prev (10%N :: t) caps) then upto_res (results blank_row) true n st' else []) (results blank_row (MS prev (10%N :: t) caps))) = Some y).
      { eapply hd_flat_first; [exact Hx|]. cbv beta. unfold shorter. rewrite Ex. cbn [ms_rest length]. rewrite (proj2 (Nat.ltb_lt _ _)) by lia. exact Hy. }
      destruct (flat_map _ _); [discriminate|exact Hs].
Qed.
Lemma trailing_match prev t : void t -> exists caps, match_at reTrailingBlank prev (10%N :: t) = Some (10%N :: t, [], caps).
Proof.
  intros Hv. destruct (row_hd prev t []) as (x & Hx & Ex). destruct (void_drop t Hv) as (A & B & C). destruct (rows_hd (length (ms_rest x)) x) as (y & Hy & Ey); [rewrite Ex; exact A|rewrite Ex; exact B|lia|].
  assert (H : hd_error (results reTrailingBlank (MS prev (10%N :: t) [])) = Some y).
  { rewrite reTrailing_shape. change (results (RSeq ?a ?b) ?s) with (flat_map (results b) (results a s)). eapply hd_flat_first with (x := y).
    - change (results (RRep true 1 None blank_row) (MS prev (10%N :: t) [])) with (flat_map (fun st' => upto_res (results blank_row) true (length (ms_rest st')) st') (flat_map (times_res (results blank_row) 0) (results blank_row (MS prev (10%N :: t) [])))).
      eapply hd_flat_first; [|exact Hy]. eapply hd_flat_first; [exact Hx|reflexivity].
    - destruct y as [a b c]. cbn [ms_rest] in Ey. subst b. reflexivity. }
  destruct (match_at reTrailingBlank prev (10%N :: t)) as [[[g q] caps]|] eqn:E.
  - pose proof (match_at_spec _ _ _ _ _ _ E) as (Es & _). rewrite match_at_results in E. destruct (results reTrailingBlank _) as [|s0 l]; [discriminate|]. injection H as ->. injection E as _ Hq _. rewrite Ey in Hq. subst q. rewrite app_nil_r in Es. subst g. exists caps. reflexivity.
  - apply match_at_none in E. rewrite E in H. discriminate.
Qed.
Lemma L_trailing p g q : RegexLang.L reTrailingBlank p g q -> void g /\ (exists g', g = 10%N :: g') /\ (q = [] \/ q = [10%N]).
Proof.
  rewrite reTrailing_shape. intros (g1 & g2 & -> & (n & Hn & _ & H) & -> & Hq). rewrite app_nil_r. 
  assert (G : forall n p g q, RegexLang.Lrep (RegexLang.L blank_row) n p g q -> void g /\ (1 <= n -> exists g', g = 10%N :: g')).
  { clear. induction n as [|n IH]; intros p g q H; cbn [RegexLang.Lrep] in H.
    - subst g. split; [constructor|lia].
    - destruct H as (a & b & -> & (x & y & -> & (c & -> & Hc) & Hy) & Hb). destruct (IH _ _ _ Hb) as [V _]. rewrite cs1_spec in Hc. apply N.eqb_eq in Hc as ->. apply L_run in Hy as [_ Hy]. split; [|intros _; cbn [app]; eexists; reflexivity].
      cbn [app]. constructor; [auto|]. apply Forall_app. split; [|exact V]. apply Forall_forall. intros z Hz. rewrite Hy in Hz. apply repeat_spec in Hz. auto. }
  destruct (G _ _ _ _ H) as [V E]. split; [exact V|]. split; [apply E; lia|exact Hq].
Qed.
(** blank lines at the end are replaced, and nothing else *)
Lemma trailing_sub rep a l t : (exists x, In x l /\ x <> 32%N /\ x <> 10%N) -> ~ In 10%N l -> void t -> re_sub reTrailingBlank (fun _ => rep) (a ++ l ++ 10%N :: t) = a ++ l ++ rep.
Proof.
  intros (x & Hx & X1 & X2) Hl Ht. unfold re_sub.
  assert (Hno : forall p b prev, a ++ l = p ++ b -> b <> [] -> match_at reTrailingBlank prev (b ++ 10%N :: t) = None).
  { intros p b prev E Hb. apply RegexLang.match_at_none_L; [vm_compute; reflexivity|]. intros g q Eg HL. apply L_trailing in HL as (V & (g' & ->) & Hq).
    assert (Hb10 : exists b', b = 10%N :: b') by (destruct b as [|y b]; [congruence|]; injection Eg as -> _; eexists; reflexivity). destruct Hb10 as (b' & ->).
    assert (Hin : In x (10%N :: b')).
    { assert (Hlb : exists c, 10%N :: b' = c ++ l \/ l = c ++ 10%N :: b').
      { clear -E. revert p E. induction a as [|y a IH]; intros p E; [exists p; right; exact E|]. destruct p as [|z p]; [exists (y :: a); left; symmetry; exact E|]. injection E as _ E. apply (IH p E). }
      destruct Hlb as (c & [Hlb|Hlb]); [rewrite Hlb; apply in_or_app; right; exact Hx|]. exfalso. apply Hl. rewrite Hlb. apply in_or_app. right. left. reflexivity. }
    assert (Hin' : In x ((10%N :: g') ++ q)) by (rewrite <- Eg; apply in_or_app; left; exact Hin). apply in_app_or in Hin' as [Y|Y].
    - unfold void in V. rewrite Forall_forall in V. specialize (V x Y). lia.
    - destruct Hq as [-> | ->]; [destruct Y|]. destruct Y as [Y|[]]. congruence. }
  rewrite app_assoc. rewrite (app_assoc a l rep). remember (a ++ l) as b eqn:Eb.
  assert (G : forall b' p prev fuel, b = p ++ b' -> length b' + 2 <= fuel -> sub_loop fuel reTrailingBlank (fun _ => rep) prev (b' ++ 10%N :: t) = b' ++ rep).
  { induction b' as [|y b' IH]; intros p prev fuel E Hf; (destruct fuel as [|fuel]; [cbn in Hf; lia|]); rewrite sub_loop_S.
    - cbn [app]. destruct (trailing_match prev t Ht) as (caps & ->). cbn [is_nil]. destruct fuel as [|fuel]; [cbn in Hf; lia|]. rewrite sub_loop_S. change (match_at reTrailingBlank (last_opt (10%N :: t)) []) with (@None (str * str * list (nat * str))). rewrite app_nil_r. reflexivity.
    - rewrite (Hno p (y :: b') prev E ltac:(discriminate)). cbn [app]. f_equal. apply (IH (p ++ [y])); [rewrite <- app_assoc; exact E|cbn [length] in Hf; lia]. }
  apply (G b []); [reflexivity|]. rewrite app_length. cbn [length]. lia.
Qed.

(** ** Another line of an open leaf *)
Lemma leaf_line p ld d k sc l r : p_stack p = [F ld []; F d k] -> leaf_type ld -> n_sourcepos ld <> None -> n_string_content ld = Some sc ->
  (forall x, p_stack x = [F ld []; F d k] -> p_line x = replace_char 0 65533 l -> p_offset x = 0 -> p_column x = 0 -> p_pct x = false ->
     exists y, continue_ ld false (find_next_nonspace x) = Ok (CMatch, y) /\ keeps x y /\ remaining y = r) ->
  exists b p', incorporate_line l p = Ok p' /\ p_stack p' = [F (set_n_string_content (Some (sc ++ r ++ [LF])) (set_n_last_line_blank b ld)) []; F (set_n_last_line_blank b d) k] /\
    p_line_number p' = S (p_line_number p) /\ p_refmap p' = p_refmap p /\ p_smart p' = p_smart p.
Proof.
  intros Es Ht Hsp Hsc Hcont. rewrite incorporate_line_eq. cbn zeta. remember (replace_char 0 65533 l) as l' eqn:Zl. clear Zl.
  assert (P : p_stack (line_start l' p) = [F ld []; F d k] /\ p_line (line_start l' p) = l' /\ p_offset (line_start l' p) = 0 /\ p_column (line_start l' p) = 0 /\ p_pct (line_start l' p) = false /\ p_line_number (line_start l' p) = S (p_line_number p) /\ p_refmap (line_start l' p) = p_refmap p /\ p_smart (line_start l' p) = p_smart p) by (unfold line_start; cbn; auto 10).
  destruct P as (P1 & P2 & P3 & P4 & P5 & P6 & P7 & P8). remember (line_start l' p) as x eqn:Z. clear Z. rewrite P1. cbn [rev app tl descend f_data f_kids is_nil negb orb].
  destruct (Hcont x P1 P2 P3 P4 P5) as (y & -> & (K1 & K2 & K3 & K4 & K5 & K6 & K7 & K8) & Hr). cbn [bind].
  unfold line_rest. rewrite K1, P1. cbn [length Nat.eqb].
  unfold block_at. cbn [p_stack set_p_matched set_p_all_closed]. rewrite K1, P1. cbn [length Nat.sub nth_error of_option bind]. unfold f_type. cbn [f_data].
  assert (Hacc : accepts_lines (n_t ld) = Ok true /\ ntype_eqb (n_t ld) paragraph = false) by (destruct Ht as [-> | [-> _]]; split; reflexivity). destruct Hacc as [-> ->]. cbn [bind negb andb].
  destruct (line_end_leaf l' (set_p_matched 2 (set_p_all_closed true y)) ld d k sc) as (b & y' & E & Y1 & Y2 & Y3 & Y4 & Y5); [cbn; congruence|reflexivity|exact Ht|exact Hsp|exact Hsc|].
  exists b, y'. split; [exact E|]. assert (Hr' : remaining (set_p_matched 2 (set_p_all_closed true y)) = remaining y) by reflexivity. rewrite Hr', Hr in Y1. cbn [p_line_number p_refmap p_smart set_p_matched set_p_all_closed] in Y2, Y3, Y4.
  split; [exact Y1|repeat split; congruence].
Qed.

(** ** Four columns *)
Lemma adv_four p w c : p_line p = w ++ c -> p_offset p = 0 -> p_column p = 0 -> indent4 w -> advance_offset CODE_INDENT true p = mv (length w) 4 false p.
Proof.
  intros El Eo Ec Hw. destruct p as [a1 a2 a3 a4 a5 a6 a7 a8 a9 a10 a11 a12 a13 a14 a15 a16 a17 a18]. cbn [p_line p_offset p_column] in *. subst.
  destruct Hw as [-> | (k & Hk & ->)]; [reflexivity|]. destruct k as [|[|[|[|k]]]]; [reflexivity..|lia].
Qed.
Lemma indent4_blanks w : indent4 w -> blanks w /\ width w = 4.
Proof. intros [-> | (k & Hk & ->)]; [|destruct k as [|[|[|[|k]]]]; [..|lia]]; (split; [apply Forall_forall; intros x Hx; cbn in Hx; intuition|reflexivity]). Qed.
Lemma width_mono : forall w col, col <= width_from col w.
Proof. induction w as [|c w IH]; intros col; cbn [width_from]; [lia|]. destruct (N.eqb c 9); [pose proof (IH (4 * (col / 4 + 1))); pose proof (next_stop col); lia|pose proof (IH (col + 1)); lia]. Qed.
Lemma blanks_app a b : blanks a -> blanks b -> blanks (a ++ b).
Proof. intros. apply Forall_app. auto. Qed.
Lemma mv_keeps x y a b c : keeps x y -> keeps x (mv a b c y).
Proof. intros H. eapply keeps_trans; [exact H|]. unfold keeps, mv. cbn. auto 10. Qed.

(** the first line *)
Lemma indent_open x w c d k fu : p_stack x = [F d k] -> n_t d = document -> p_line x = w ++ c -> indent4 w -> p_offset x = 0 -> p_column x = 0 -> p_all_closed x = true -> no_eol c -> ~ blanks c ->
  exists y, starts_loop (S fu) 1 x = Ok (2, y) /\ p_stack y = [F (new_node code_block (Some (p_line_number x, length w + 1, (0, 0)))) []; F d k] /\
    p_all_closed y = true /\ remaining y = c /\ p_line_number y = p_line_number x /\ p_refmap y = p_refmap x /\ p_smart y = p_smart x.
Proof.
  intros Es Ed El Hw Eo Ec Ea Hc Hb. destruct (split_line c) as (w' & q & Eq & Hw' & Hq). destruct (indent4_blanks w Hw) as [Hwb Hw4].
  assert (Hqn : q <> []) by (intros ->; apply Hb; rewrite Eq, app_nil_r; exact Hw').
  destruct (fnn_blanks x (w ++ w') q) as (Z0 & Z1 & Z2 & Z3 & Z4 & Z5 & Z6 & Z7 & Z8 & Z9 & Z10); [rewrite El, Eq, app_assoc; reflexivity|exact Eo|exact Ec|apply blanks_app; assumption| |].
  { intros y Hy. destruct (Hq y Hy). destruct (Hc y); [rewrite Eq; apply in_or_app; right; destruct q; [discriminate|injection Hy as ->; left; reflexivity]|auto]. }
  destruct Z0 as (K1 & K2 & K3 & K4 & K5 & K6 & K7 & K8).
  assert (Hi : 4 <= width (w ++ w')) by (rewrite width_app, Hw4; apply width_mono).
  assert (Et : exists y, try_starts block_starts document (find_next_nonspace x) = Ok (SLeaf, y) /\ p_stack y = [F (new_node code_block (Some (p_line_number x, length w + 1, (0, 0)))) []; F d k] /\
    p_all_closed y = true /\ remaining y = c /\ p_line_number y = p_line_number x /\ p_refmap y = p_refmap x /\ p_smart y = p_smart x).
  { remember (find_next_nonspace x) as z eqn:Z. clear Z. assert (Ei : p_indented z = true) by (rewrite Z4; apply Nat.leb_le; exact Hi).
    unfold block_starts. cbn [try_starts].
    unfold start_block_quote at 1. rewrite Ei. cbn [negb andb orb bind ntype_eqb].
    unfold start_atx_heading at 1. rewrite Ei. cbn [negb andb orb bind ntype_eqb].
    unfold start_fenced_code at 1. rewrite Ei. cbn [negb andb orb bind ntype_eqb].
    unfold start_html_block at 1. rewrite Ei. cbn [negb andb orb bind ntype_eqb].
    unfold start_setext_heading at 1. rewrite Ei. cbn [negb andb orb bind ntype_eqb].
    unfold start_thematic_break at 1. rewrite Ei. cbn [negb andb orb bind ntype_eqb].
    unfold start_list_item at 1. rewrite Ei. cbn [negb andb orb bind ntype_eqb].
    unfold start_indented_code, tip. rewrite K1, Es. cbn [hd_error of_option bind]. unfold f_type. cbn [f_data]. rewrite Ei, Ed, Z5. cbn [ntype_eqb negb andb]. destruct q as [|q0 q]; [congruence|]. cbn [is_nil negb].
    rewrite (adv_four z w c) by (congruence || exact Hw). rewrite close_none by (unfold mv; cbn; congruence). cbn [bind]. rewrite (add_child_doc code_block _ _ d k) by ((unfold mv; cbn; congruence) || reflexivity).
    eexists. split; [reflexivity|]. unfold mv. cbn [p_stack set_p_stack p_all_closed p_line_number p_refmap p_smart p_offset remaining p_pct p_line]. split; [rewrite K3; reflexivity|]. split; [congruence|]. split; [|repeat split; congruence].
    unfold remaining, rest_offset. cbn [p_pct p_line p_offset set_p_stack]. rewrite K2, El. apply skipn_exact. reflexivity. }
  destruct Et as (y & Et & Y1 & Y2). exists y. split; [|split; [exact Y1|exact Y2]].
  rewrite (starts_leaf x d k y fu Es Ed); [rewrite Y1; reflexivity| |exact Et]. left. rewrite Z4. apply Nat.leb_le. exact Hi.
Qed.
(** the others *)
Lemma indent_continue x ld l c : n_t ld = code_block -> n_is_fenced ld = false -> p_line x = l -> p_offset x = 0 -> p_column x = 0 -> p_pct x = false -> no_eol l -> code_line l c ->
  exists y, continue_ ld false (find_next_nonspace x) = Ok (CMatch, y) /\ keeps x y /\ remaining y = c.
Proof.
  intros Ht Hf El Eo Ec Ep He Hl. destruct Hl as [(w & Hw & Ew)|(-> & Hb & Hwd)].
  - destruct (split_line c) as (w' & q & Eq & Hw' & Hq). destruct (indent4_blanks w Hw) as [Hwb Hw4].
    destruct (fnn_blanks x (w ++ w') q) as (Z0 & Z1 & Z2 & Z3 & Z4 & Z5 & Z6 & Z7 & Z8 & Z9 & Z10); [rewrite El, Ew, Eq, app_assoc; reflexivity|exact Eo|exact Ec|apply blanks_app; assumption| |].
    { intros y Hy. destruct (Hq y Hy). destruct (He y); [rewrite Ew, Eq, !in_app_iff; right; right; destruct q; [discriminate|injection Hy as ->; left; reflexivity]|auto]. }
    pose proof Z0 as (K1 & K2 & _). remember (find_next_nonspace x) as z eqn:Z. clear Z. unfold continue_. rewrite Ht, Hf, Z3. assert (Hi : 4 <= width (w ++ w')) by (rewrite width_app, Hw4; apply width_mono). rewrite (proj2 (Nat.leb_le CODE_INDENT _) Hi).
    rewrite (adv_four z w c) by (congruence || exact Hw). eexists. split; [reflexivity|]. split; [apply mv_keeps, Z0|]. unfold remaining, rest_offset, mv. cbn [p_pct p_line p_offset]. rewrite K2, El, Ew. apply skipn_exact. reflexivity.
  - destruct (fnn_blanks x l []) as (Z0 & Z1 & Z2 & Z3 & Z4 & Z5 & Z6 & Z7 & Z8 & Z9 & Z10); [rewrite app_nil_r; exact El|exact Eo|exact Ec|exact Hb|discriminate|].
    pose proof Z0 as (K1 & K2 & _). remember (find_next_nonspace x) as z eqn:Z. clear Z. unfold continue_. rewrite Ht, Hf, Z3. replace (Nat.leb CODE_INDENT (width l)) with false by (symmetry; apply Nat.leb_gt; exact Hwd). rewrite Z5. cbn [is_nil].
    eexists. split; [reflexivity|]. split; [eapply keeps_trans; [exact Z0|apply keeps_ann]|]. unfold remaining, rest_offset. cbn [advance_next_nonspace p_pct p_line p_offset set_p_offset set_p_column set_p_pct]. rewrite Z1, K2, El. apply skipn_all.
Qed.
Lemma blanks_replace l : blanks l -> replace_char 0 65533 l = l.
Proof. intros H. apply replace_ascii. intros X. unfold blanks in H. rewrite Forall_forall in H. specialize (H _ X). lia. Qed.
Lemma code_line_replace l c : code_line l c -> code_line (replace_char 0 65533 l) (replace_char 0 65533 c).
Proof.
  intros [(w & Hw & ->)|(-> & Hb & Hwd)].
  - left. exists w. split; [exact Hw|]. rewrite replace_app. f_equal. apply blanks_replace, indent4_blanks, Hw.
  - right. rewrite (blanks_replace l Hb). auto.
Qed.
Lemma indent_lines : forall ls cs p ld d k sc, Forall2 code_line ls cs -> Forall no_eol ls -> p_stack p = [F ld []; F d k] -> n_t ld = code_block -> n_is_fenced ld = false -> n_sourcepos ld <> None -> n_string_content ld = Some sc ->
  n_t d = document -> n_sourcepos d <> None ->
  exists ld' d' p', incorporate_lines ls p = Ok p' /\ p_stack p' = [F ld' []; F d' k] /\ n_t ld' = code_block /\ n_is_fenced ld' = false /\ n_sourcepos ld' <> None /\ n_info ld' = n_info ld /\
    n_string_content ld' = Some (sc ++ flat_map (fun c => replace_char 0 65533 c ++ [LF]) cs) /\ n_t d' = document /\ n_sourcepos d' <> None.
Proof.
  induction ls as [|l ls IH]; intros cs p ld d k sc H2 He Es Ht Hf Hsp Hsc Hd Hdsp; inversion H2 as [|? c ? cs' Hl Hr]; subst; cbn [incorporate_lines flat_map].
  - exists ld, d, p. rewrite app_nil_r. auto 10.
  - destruct (leaf_line p ld d k sc l (replace_char 0 65533 c) Es (or_introl Ht) Hsp Hsc) as (b & p1 & -> & S1 & _).
    { intros x _ El Eo Ec Ep. eapply indent_continue; [exact Ht|exact Hf|exact El|exact Eo|exact Ec|exact Ep|apply replace_no_eol, (Forall_inv He)|apply code_line_replace, Hl]. }
    cbn [bind]. destruct (IH cs' p1 _ _ k (sc ++ replace_char 0 65533 c ++ [LF]) Hr (Forall_inv_tail He) S1) as (ld' & d' & p' & E & Q1 & Q2 & Q3 & Q4 & Q5 & Q6 & Q7 & Q8); [exact Ht|exact Hf|exact Hsp|reflexivity|exact Hd|exact Hdsp|].
    exists ld', d', p'. rewrite <- !app_assoc in Q6. cbn [app] in Q6. rewrite <- app_assoc. auto 10.
Qed.

(** ** The document *)
Lemma flat_void cs : Forall (Forall (fun x => x = 32%N)) cs -> void (flat_map (fun c => replace_char 0 65533 c ++ [LF]) cs).
Proof.
  induction cs as [|c cs IH]; intros H; cbn [flat_map]; [constructor|]. pose proof (Forall_inv H) as Hc. cbn beta in Hc. rewrite blanks_replace by (eapply Forall_impl; [|exact Hc]; auto). apply Forall_app. split; [|apply IH, (Forall_inv_tail H)].
  apply Forall_app. split; [eapply Forall_impl; [|exact Hc]; auto|]. constructor; [left; reflexivity|constructor].
Qed.
Lemma code_lines_eol ls cs : Forall2 code_line ls cs -> Forall no_eol ls -> Forall no_eol cs.
Proof.
  induction 1 as [|l c ls cs Hl H IH]; intros He; constructor; [|apply IH, (Forall_inv_tail He)]. destruct Hl as [(w & _ & ->)|(-> & _)]; [|intros z []].
  intros z Hz. apply (Forall_inv He). apply in_or_app. right. exact Hz.
Qed.
Theorem indent_tree smart ls cs body tail : Forall2 code_line ls cs -> Forall no_eol ls -> cs = body ++ tail -> body <> [] -> ~ blanks (hd [] body) -> ~ blanks (last body []) -> Forall (Forall (fun x => x = 32%N)) tail ->
  exists dd cd, parse_doc smart (flat_map (fun x => x ++ [10%N]) ls) = Ok (T dd [T cd []]) /\ n_t dd = document /\ n_t cd = code_block /\ n_info cd = None /\ n_is_fenced cd = false /\
    n_literal cd = Some (flat_map (fun c => replace_char 0 65533 c ++ [10%N]) body).
Proof.
  intros H2 He Ecs Hbn Hfirst Hlast Htail. destruct body as [|c1 body]; [congruence|]. clear Hbn. subst cs. inversion H2 as [|l1 ? ls' ? Hl1 Hr]; subst. cbn [hd] in Hfirst.
  destruct Hl1 as [(w & Hw & El1)|(-> & _)]; [|destruct Hfirst; constructor].
  match goal with |- context [parse_doc smart ?t] => change (parse_doc smart t) with (result (parse (new_parser smart) t)) end.
  rewrite parse_finish, input_lines_text, text_lines_lines; [|exact He|discriminate].
  destruct (reset_fresh smart) as ((d & Es & Ed & Esp & _) & En & Er & Esm). remember (reset (new_parser smart)) as p eqn:Z. clear Z. cbn [incorporate_lines].
  rewrite (incorporate_doc _ p d [] Es Ed). pose proof (replace_no_eol _ (Forall_inv He)) as He1.
  assert (Erl : replace_char 0 65533 l1 = w ++ replace_char 0 65533 c1) by (rewrite El1, replace_app; f_equal; apply blanks_replace, indent4_blanks, Hw). rewrite Erl in *.
  assert (Hnb : ~ blanks (replace_char 0 65533 c1)). { intros X. apply Hfirst. replace c1 with (replace_char 0 65533 c1); [exact X|]. apply replace_ascii. intros Y. assert (In 65533%N (replace_char 0 65533 c1)) by (apply in_map_iff; exists 0%N; auto). unfold blanks in X. rewrite Forall_forall in X. specialize (X _ H). lia. }
  unfold line_tail. remember (w ++ replace_char 0 65533 c1) as l' eqn:El'.
  destruct (fresh_fields l' p) as (P1 & P2 & P3 & P4 & P5 & P6 & P7 & P8 & P9 & P10).
  remember (set_p_matched 1 (set_p_all_closed true (line_start l' p))) as x eqn:Z. clear Z.
  destruct (indent_open x w (replace_char 0 65533 c1) d [] (length l')) as (y & -> & Y1 & Y2 & Y3 & Y4 & Y5 & Y6); [congruence|exact Ed|congruence|exact Hw|exact P3|exact P4|exact P6| |exact Hnb|].
  { intros z Hz. apply He1. rewrite El'. apply in_or_app. right. exact Hz. }
  cbn [bind]. destruct (line_end_leaf l' y _ d [] [] Y1 Y2 (or_introl eq_refl) ltac:(discriminate) eq_refl) as (b & y' & -> & W1 & W2 & W3 & W4 & W5). cbn [bind]. rewrite Y3 in W1. cbn [app] in W1.
  destruct (indent_lines ls' (body ++ tail) y' _ _ [] (replace_char 0 65533 c1 ++ [LF]) Hr (Forall_inv_tail He) W1) as (ld & d' & p' & E & S1 & S2 & S3 & S4 & S5 & S6 & S7 & S8); [reflexivity|reflexivity|discriminate|reflexivity|exact Ed|exact Esp|].
  rewrite E. cbn [bind]. match goal with |- context [finish ?z _] => generalize z; intros ln end.
  assert (Esub : re_sub reTrailingBlank (fun _ => [LF]) ((replace_char 0 65533 c1 ++ [LF]) ++ flat_map (fun c => replace_char 0 65533 c ++ [LF]) (body ++ tail)) = flat_map (fun c => replace_char 0 65533 c ++ [LF]) (c1 :: body)).
  { rewrite flat_map_app. destruct (exists_last (l := c1 :: body)) as (bs & lb & Eb); [discriminate|]. rewrite Eb in Hlast. rewrite last_last in Hlast.
    rewrite app_assoc. change ((replace_char 0 65533 c1 ++ [LF]) ++ flat_map (fun c => replace_char 0 65533 c ++ [LF]) body) with (flat_map (fun c => replace_char 0 65533 c ++ [LF]) (c1 :: body)). rewrite Eb, flat_map_app. cbn [flat_map]. rewrite app_nil_r, <- !app_assoc. cbn [app].
    assert (Hle : no_eol lb). { assert (Hcs : Forall no_eol (c1 :: body ++ tail)) by (eapply code_lines_eol; eassumption).
      rewrite Forall_forall in Hcs. apply Hcs. change (c1 :: body ++ tail) with ((c1 :: body) ++ tail). rewrite Eb, !in_app_iff. left. right. left. reflexivity. }
    apply trailing_sub; [| |apply flat_void, Htail].
    - assert (Hex : exists z, In z lb /\ z <> 32%N /\ z <> 9%N).
      { clear -Hlast. induction lb as [|z lb IH]; [destruct Hlast; constructor|]. destruct (N.eq_dec z 32) as [->|N1]; [|destruct (N.eq_dec z 9) as [->|N2]].
        - destruct IH as (v & Hv & V); [intros X; apply Hlast; constructor; auto|]. exists v. split; [right; exact Hv|exact V].
        - destruct IH as (v & Hv & V); [intros X; apply Hlast; constructor; auto|]. exists v. split; [right; exact Hv|exact V].
        - exists z. split; [left; reflexivity|auto]. }
      destruct Hex as (z & Hz & Z1 & Z2). destruct (Hle z Hz) as [Z3 _]. exists (if N.eqb z 0 then 65533%N else z). split; [apply in_map_iff; exists z; split; [reflexivity|exact Hz]|]. destruct (N.eqb z 0); split; try discriminate; assumption.
    - intros X. destruct (replace_no_eol lb Hle _ X). congruence. }
  assert (Hf : exists cd, finalize_tip ln p' = Ok (attach (T cd []) (set_p_stack [F d' []] p')) /\ n_t cd = code_block /\ n_info cd = None /\ n_is_fenced cd = false /\ n_literal cd = Some (flat_map (fun c => replace_char 0 65533 c ++ [LF]) (c1 :: body))).
  { unfold finalize_tip. rewrite S1. cbn [f_data f_kids n_sourcepos set_n_is_open]. destruct (n_sourcepos ld) as [[[a0 b0] e]|] eqn:Esp'; [|congruence]. cbn [of_option bind n_t set_n_sourcepos set_n_is_open]. rewrite S2.
    unfold finalize_code. cbn [n_string_content n_is_fenced set_n_sourcepos set_n_is_open]. rewrite S6, S3. cbn [of_option bind]. rewrite Esub. eexists. split; [reflexivity|]. split; [exact S2|]. split; [exact S5|]. split; [exact S3|reflexivity]. }
  destruct Hf as (cd & Hf & C1 & C2 & C4 & C3). destruct (finish_leaf ln p' (attach (T cd []) (set_p_stack [F d' []] p')) d' [T cd []]) as (dd & s & D1 & _ & _ & ->); [rewrite S1; discriminate|rewrite S1; reflexivity|exact Hf|reflexivity|exact S7|exact S8|].
  rewrite process_leaf by (rewrite C1; reflexivity). cbn [bind]. exists dd, cd. auto 10.
Qed.
Theorem indent_doc smart ls cs body tail : Forall2 code_line ls cs -> Forall no_eol ls -> cs = body ++ tail -> body <> [] -> ~ blanks (hd [] body) -> ~ blanks (last body []) -> Forall (Forall (fun x => x = 32%N)) tail ->
  exists dd cd, parse_doc smart (flat_map (fun x => x ++ [10%N]) ls) = Ok (T dd [T cd []]) /\ n_t dd = document /\ n_t cd = code_block /\ n_info cd = None /\
    n_literal cd = Some (flat_map (fun c => replace_char 0 65533 c ++ [10%N]) body).
Proof. intros H1 H2 H3 H4 H5 H6 H7. destruct (indent_tree smart ls cs body tail H1 H2 H3 H4 H5 H6 H7) as (dd & cd & E & E1 & E2 & E3 & _ & E4). exists dd, cd. auto. Qed.
