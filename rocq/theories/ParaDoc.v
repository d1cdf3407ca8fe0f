(** * Documents of one paragraph or setext heading: C50, C51 *)
From Verif Require Import Base Regex Common NormRef Node Inlines Blocks Html Main RegexFacts StrFacts Spec SpecTree SpecSame SpecLines SpecParas
  TreeFacts CommonFacts StrProp EmphFacts InlineFacts HtmlFacts RenderFacts BlockFacts BlockRun LineFacts ParseFacts Sim SimFacts SameHtml DocFacts TextFacts RuleFacts WordFacts AfterFacts ParaFacts ParaInline.
From Verif Require RegexLang LeafFacts HeadFacts.
Import SpecParas.
From Coq Require Import ZifyBool ZifyNat ZifyN.

(** ** The inlines *)
(** the content of the paragraph behind the indentation of the first line *)
Definition content_of (l : list para_line) : str := flat_map (fun a => pl_words a ++ ending_text (pl_ending a) ++ [LF]) l.
(** without the blanks at its end *)
Fixpoint inner_text (l : list para_line) : str :=
  match l with
  | [] => []
  | [a] => pl_words a ++ match pl_ending a with Backslash => [92%N] | _ => [] end
  | a :: l' => pl_words a ++ ending_text (pl_ending a) ++ LF :: inner_text l'
  end.
Definition line_words_ok (a : para_line) : Prop := words_ok (pl_words a).
Lemma ok_words l : para_ok l -> l <> [] /\ Forall line_words_ok l.
Proof.
  destruct l as [|a l]; [intros []|]. intros [(H & _) Hl]. split; [discriminate|]. constructor; [exact H|]. eapply Forall_impl; [|exact Hl]. intros b [Hb _]. exact Hb.
Qed.
Lemma inner_head a l : line_words_ok a -> exists c, hd_error (inner_text (a :: l)) = Some c /\ hd_error (pl_words a) = Some c /\ is_space c = false.
Proof.
  intros (Hne & _ & Hs). destruct (pl_words a) as [|c w] eqn:E; [congruence|]. exists c. split; [destruct l; cbn [inner_text]; rewrite E; reflexivity|]. split; [reflexivity|]. apply Hs. left. reflexivity.
Qed.
Lemma last_app_ne (a b : str) : b <> [] -> last_opt (a ++ b) = last_opt b.
Proof. apply last_opt_app. Qed.
Lemma inner_last : forall l, l <> [] -> Forall line_words_ok l -> exists c, last_opt (inner_text l) = Some c /\ is_space c = false.
Proof.
  induction l as [|a [|b l] IH]; intros Hne Hl; [congruence| |].
  - cbn [inner_text]. apply Forall_inv in Hl as (Hw & _ & Hs). destruct (pl_ending a) as [k|].
    + rewrite app_nil_r. destruct (exists_last Hw) as (y & z & E). exists z. rewrite E, last_opt_snoc. split; [reflexivity|]. apply Hs. right. rewrite E. apply last_opt_snoc.
    + exists 92%N. rewrite last_opt_snoc. split; reflexivity.
  - destruct (IH ltac:(discriminate) (Forall_inv_tail Hl)) as (c & Hc & Hc'). exists c. split; [|exact Hc']. change (inner_text (a :: b :: l)) with (pl_words a ++ ending_text (pl_ending a) ++ [LF] ++ inner_text (b :: l)). rewrite !app_assoc, last_opt_app; [exact Hc|]. intros X. rewrite X in Hc. discriminate.
Qed.
(** stripping *)
Lemma drop_while_pre (f : N -> bool) a b : forallb f a = true -> (forall c, hd_error b = Some c -> f c = false) -> drop_while f (a ++ b) = b.
Proof.
  induction a as [|x a IH]; intros Ha Hb; cbn [app drop_while forallb] in *.
  - destruct b as [|c b]; [reflexivity|]. cbn [drop_while]. rewrite (Hb c eq_refl). reflexivity.
  - apply andb_prop in Ha as [-> Ha]. apply IH; assumption.
Qed.
Lemma hd_rev (l : str) : hd_error (rev l) = last_opt l.
Proof. destruct l as [|x l _] using rev_ind; [reflexivity|]. rewrite rev_app_distr, last_opt_snoc. reflexivity. Qed.
Lemma strip_blanks w b : forallb is_space b = true -> (forall c, hd_error w = Some c -> is_space c = false) -> (forall c, last_opt w = Some c -> is_space c = false) -> w <> [] -> strip (w ++ b) = w.
Proof.
  intros Hb Hh Hl Hne. unfold strip, strip_left, strip_right. change (drop_while is_space (w ++ b)) with (drop_while is_space ([] ++ w ++ b)). rewrite (drop_while_pre is_space [] (w ++ b) eq_refl).
  - rewrite rev_app_distr, drop_while_pre; [apply rev_involutive| |intros c Hc; apply Hl; rewrite <- hd_rev; exact Hc].
    apply forallb_forall. intros x Hx. apply in_rev in Hx. rewrite forallb_forall in Hb. apply Hb, Hx.
  - intros c Hc. apply Hh. rewrite hd_app in Hc by exact Hne. exact Hc.
Qed.
Lemma content_strip : forall l, l <> [] -> exists b, content_of l = inner_text l ++ b /\ forallb is_space b = true.
Proof.
  induction l as [|a [|a' l] IH]; intros Hne; [congruence| |].
  - cbn [content_of flat_map inner_text]. rewrite app_nil_r. destruct (pl_ending a) as [k|]; cbn [ending_text].
    + exists (repeat 32%N k ++ [LF]). split; [rewrite app_nil_r; reflexivity|]. rewrite forallb_app, andb_true_iff. split; [|reflexivity]. apply forallb_forall. intros x Hx. apply repeat_spec in Hx as ->. reflexivity.
    + exists [LF]. split; [rewrite <- app_assoc; reflexivity|reflexivity].
  - destruct (IH ltac:(discriminate)) as (b & E & Hb). exists b. split; [|exact Hb]. change (inner_text (a :: a' :: l)) with (pl_words a ++ ending_text (pl_ending a) ++ [LF] ++ inner_text (a' :: l)).
    change (content_of (a :: a' :: l)) with ((pl_words a ++ ending_text (pl_ending a) ++ [LF]) ++ content_of (a' :: l)). rewrite E, <- !app_assoc. reflexivity.
Qed.
Lemma strip_content l : l <> [] -> Forall line_words_ok l -> strip (content_of l) = inner_text l.
Proof.
  intros Hne Hl. destruct (content_strip l Hne) as (b & -> & Hb). destruct (inner_last l Hne Hl) as (z & Hz & Hz'). apply strip_blanks; [exact Hb| | |intros X; rewrite X in Hz; discriminate].
  - destruct l as [|a l]; [congruence|]. destruct (inner_head a l (Forall_inv Hl)) as (c & H1 & _ & H2). intros x Hx. congruence.
  - intros x Hx. congruence.
Qed.
(** the loop *)
Lemma step_slash_end st : skipn (ip_pos st) (ip_subject st) = [92%N] -> parseInline st = Ok (true, append_kid (text_node [92%N]) (ip_adv 1 st)).
Proof.
  intros E. unfold parseInline. rewrite (peek_skipn st _ _ E). cbn [N.eqb Pos.eqb LF]. unfold parseBackslash.
  assert (E1 : ip_peek (ip_adv 1 st) = None). { apply peek_end. cbn [ip_adv set_ip_pos ip_pos ip_subject]. apply (skipn_adv st [92%N]); [exact E|reflexivity]. }
  unfold peek_is. rewrite E1. unfold ip_peek in E1. rewrite E1. reflexivity.
Qed.
Lemma goes_loop m st st' K fu : goes m st st' K -> skipn (ip_pos st') (ip_subject st') = [] -> m < fu -> inline_loop fu st = Ok st'.
Proof. intros (G & _) E Hf. replace fu with (m + S (fu - m - 1)) by lia. rewrite G. apply loop_end, E. Qed.
Lemma lines_go soft : forall l st, l <> [] -> Forall line_words_ok l -> skipn (ip_pos st) (ip_subject st) = inner_text l -> ip_brackets st = [] -> ip_smart st = false ->
  exists m st' K, m <= length (inner_text l) /\ goes m st st' K /\ skipn (ip_pos st') (ip_subject st') = [] /\ shows soft K (lines_html soft l).
Proof.
  induction l as [|a [|b l] IH]; intros st Hne Hl E Hb Hs; [congruence| |].
  - cbn [inner_text lines_html] in *. apply Forall_inv in Hl as (Hw & Ho & Hsp). destruct (pl_ending a) as [k|].
    + rewrite app_nil_r in *. destruct (tame_steps [] ltac:(split; [discriminate|discriminate]) (length (pl_words a)) (pl_words a) st ltac:(lia)) as (m & st1 & ls & M & G1 & G2 & G3 & G4 & _); [rewrite app_nil_r; exact E|exact Hw|apply words_tame, Ho|exact Hb|exact Hs|].
      exists m, st1, (map text_node ls). split; [exact M|]. split; [apply goes_adds; assumption|]. split; [exact G4|]. rewrite app_nil_r, <- G3. apply shows_texts.
    + destruct (tame_steps [92%N] ltac:(split; [discriminate|intros c q' X; injection X as <- _; reflexivity]) (length (pl_words a)) (pl_words a) st ltac:(lia)) as (m & st1 & ls & M & G1 & G2 & G3 & G4 & _); [exact E|exact Hw|apply words_tame, Ho|exact Hb|exact Hs|].
      exists (m + 1), (append_kid (text_node [92%N]) (ip_adv 1 st1)), (map text_node ls ++ map text_node [[92%N]]). split; [rewrite app_length; cbn [length]; lia|]. split; [|split].
      * eapply goes_trans; [apply goes_adds; eassumption|]. apply goes_adds; [apply steps_one, step_slash_end, G4|apply adds_one].
      * cbn [append_kid ip_adv set_ip_pos set_ip_next set_ip_kids ip_subject ip_pos]. apply (skipn_adv st1 [92%N]); [exact G4|reflexivity].
      * rewrite <- G3. apply shows_app; apply shows_texts.
  - change (inner_text (a :: b :: l)) with (pl_words a ++ ending_text (pl_ending a) ++ 10%N :: inner_text (b :: l)) in *. pose proof (Forall_inv_tail Hl) as Hl'. destruct (inner_head b l (Forall_inv Hl')) as (c & Hc & _ & Hc').
    destruct (line_step soft st (pl_words a) (pl_ending a) (inner_text (b :: l)) (Forall_inv Hl) E) as (m & st1 & K & M & G & E1 & Sh); [rewrite Hc; intros X; injection X as ->; discriminate Hc'|exact Hb|exact Hs|].
    pose proof G as (_ & A1 & A2 & A3 & A4 & A5 & _). destruct (IH st1 ltac:(discriminate) Hl' E1 ltac:(congruence) ltac:(congruence)) as (m' & st2 & K' & M' & G' & E2 & Sh').
    exists (m + m'), st2, (K ++ K'). split; [rewrite !app_length in *; cbn [length]; lia|]. split; [eapply goes_trans; eassumption|]. split; [exact E2|].
    change (lines_html soft (a :: b :: l)) with (html_text (pl_words a) ++ break_html soft (pl_ending a) ++ lines_html soft (b :: l)). rewrite app_assoc. apply shows_app; assumption.
Qed.
Lemma lines_inlines soft l s : l <> [] -> Forall line_words_ok l -> ip_smart s = false -> exists K s', parseInlines (content_of l) s = Ok (K, s') /\ shows soft K (lines_html soft l) /\ ip_smart s' = false.
Proof.
  intros Hne Hl Hs. unfold parseInlines. rewrite strip_content, Hs by assumption. set (st := IP (inner_text l) 0 (ip_refmap s) false [] [] [] 0).
  destruct (lines_go soft l st Hne Hl eq_refl eq_refl eq_refl) as (m & st1 & K & M & G & E & Sh). rewrite (goes_loop m st st1 K _ G E) by lia. cbn [bind]. destruct G as (_ & _ & _ & A3 & A4 & _ & A6). rewrite A4. cbn [ip_delims st]. rewrite emphasis_none. cbn [bind].
  exists (map snd (ip_kids st1)). eexists. split; [reflexivity|]. split; [rewrite A6; exact Sh|exact A3].
Qed.

(** ** The blocks *)
Lemma block_start c : ~ block_char c -> start_char c = false.
Proof.
  intros Hb. unfold start_char. destruct (existsb _ _) eqn:E; [|reflexivity]. exfalso. apply Hb. apply existsb_exists in E as (y & Hy & E). apply N.eqb_eq in E as ->. exact Hy.
Qed.
Lemma nonspace_spaces k : re_test reNonSpace (repeat SP k) = false.
Proof.
  unfold re_test. rewrite search_chars; [reflexivity|vm_compute; reflexivity|vm_compute; reflexivity| |vm_compute; reflexivity]. intros c Hc. apply repeat_spec in Hc as ->. vm_compute. reflexivity.
Qed.
Lemma ending_head e x r : ending_text e = x :: r -> x = 32%N \/ x = 92%N.
Proof. destruct e as [[|k]|]; cbn [ending_text repeat]; intros E; try discriminate E; injection E as <- _; auto. Qed.
Lemma ending_in e x : In x (ending_text e) -> x = 32%N \/ x = 92%N.
Proof. destruct e as [k|]; cbn [ending_text]; [intros H; apply repeat_spec in H; auto|intros [<-|[]]; auto]. Qed.
Lemma not_decimal x : x = 32%N \/ x = 92%N -> is_decimal x = false.
Proof. intros [-> | ->]; vm_compute; reflexivity. Qed.
Lemma number_words w e : ~ list_number w -> ~ list_number (w ++ ending_text e).
Proof.
  intros Hn (ds & x & r & E & D1 & D2 & D3 & D4). apply app_split in E as (z & [(Z1 & Z2)|(Z1 & Z2)]).
  - destruct z as [|y z].
    + cbn [app] in Z2. symmetry in Z2. apply ending_head in Z2. lia.
    + cbn [app] in Z2. injection Z2 as <- Z2. apply Hn. exists ds, x, z. split; [exact Z1|]. split; [exact D1|]. split; [exact D2|]. split; [exact D3|]. destruct z as [|y z]; [left; reflexivity|]. right. rewrite Z2 in D4. destruct D4 as [D4|D4]; [discriminate|exact D4].
  - destruct z as [|y z].
    + cbn [app] in Z2. apply ending_head in Z2. lia.
    + assert (Hy : In y (ending_text e)) by (rewrite Z2; left; reflexivity). rewrite Forall_forall in D2. specialize (D2 y ltac:(rewrite Z1; apply in_or_app; right; left; reflexivity)). rewrite (not_decimal y (ending_in e y Hy)) in D2. discriminate.
Qed.
Lemma fence_first c r : begins reCodeFence c = false -> re_search reCodeFence (c :: r) = None.
Proof.
  intros Hb. apply re_search_none. intros p q E. destruct p as [|x p].
  - cbn [app] in E. subst q. apply begins_none; [vm_compute; reflexivity|vm_compute; reflexivity|exact Hb].
  - destruct (prev_of_cons None x p) as (y & Ey). rewrite Ey. apply RegexLang.match_at_none_L; [vm_compute; reflexivity|]. intros g a _ H.
    assert (Es : reCodeFence = RAlt (RSeq RBol (match reCodeFence with RAlt (RSeq _ r) _ => r | r => r end)) (RSeq RBol (match reCodeFence with RAlt _ (RSeq _ r) => r | r => r end))) by (vm_compute; reflexivity).
    rewrite Es in H. cbn [RegexLang.L] in H. destruct H as [(g1 & g2 & _ & [_ H] & _)|(g1 & g2 & _ & [_ H] & _)]; discriminate H.
Qed.
Lemma no_start_parts c r : start_char c = false ->
  hd_error (c :: r) <> Some 62%N /\ hd_error (c :: r) <> Some 60%N /\ re_search reATXHeadingMarker (c :: r) = None /\ re_search reCodeFence (c :: r) = None /\ re_test reThematicBreak (c :: r) = false /\ re_search reBulletListMarker (c :: r) = None.
Proof.
  intros Hc. assert (Hne : forall x, In x [62; 60; 35; 96; 126; 42; 95; 45; 43]%N -> c <> x).
  { intros x Hx ->. unfold start_char in Hc. assert (G : existsb (N.eqb x) [62; 60; 35; 96; 126; 42; 95; 45; 43]%N = true) by (apply existsb_exists; exists x; split; [exact Hx|apply N.eqb_refl]). congruence. }
  clear Hc. split; [|split; [|split; [|split; [|split]]]].
  - cbn [hd_error]. intros E. injection E as ->. apply (Hne 62%N); cbn; tauto.
  - cbn [hd_error]. intros E. injection E as ->. apply (Hne 60%N); cbn; tauto.
  - assert (E : reATXHeadingMarker = RSeq RBol (match reATXHeadingMarker with RSeq _ r => r | r => r end)) by (vm_compute; reflexivity). rewrite E. clear E. apply begins_search; [vm_compute; reflexivity|vm_compute; reflexivity|].
    firsts_calc. pose proof (Hne 35%N ltac:(cbn; tauto)). lia.
  - apply fence_first. firsts_calc. pose proof (Hne 96%N ltac:(cbn; tauto)). pose proof (Hne 126%N ltac:(cbn; tauto)). lia.
  - unfold re_test. assert (E : reThematicBreak = RSeq RBol (match reThematicBreak with RSeq _ r => r | r => r end)) by (vm_compute; reflexivity). rewrite E. clear E. rewrite begins_search; [reflexivity|vm_compute; reflexivity|vm_compute; reflexivity|].
    firsts_calc. pose proof (Hne 42%N ltac:(cbn; tauto)). pose proof (Hne 95%N ltac:(cbn; tauto)). pose proof (Hne 45%N ltac:(cbn; tauto)). lia.
  - assert (E : reBulletListMarker = RSeq RBol (match reBulletListMarker with RSeq _ r => r | r => r end)) by (vm_compute; reflexivity). rewrite E. clear E. apply begins_search; [vm_compute; reflexivity|vm_compute; reflexivity|].
    firsts_calc. pose proof (Hne 42%N ltac:(cbn; tauto)). pose proof (Hne 43%N ltac:(cbn; tauto)). pose proof (Hne 45%N ltac:(cbn; tauto)). lia.
Qed.
Lemma no_interrupt_words w e c : hd_error w = Some c -> ~ block_char c -> ~ In 10%N (w ++ ending_text e) -> ~ first_number w -> ~ underline (w ++ ending_text e) -> no_interrupt (w ++ ending_text e).
Proof.
  intros Hw Hc Hl Hf Hu. destruct w as [|x w]; [discriminate|]. injection Hw as ->. cbn [app] in *. destruct (no_start_parts c (w ++ ending_text e) (block_start c Hc)) as (N1 & N2 & N3 & N4 & N5 & N6).
  unfold no_interrupt. split; [exact N1|]. split; [exact N2|]. split; [exact N3|]. split; [exact N4|]. split; [apply setext_none; assumption|]. split; [exact N5|].
  intros i m dt. unfold list_marker. rewrite N6. destruct (re_search reOrderedListMarker _) as [mm|] eqn:Em; [|discriminate]. cbn [negb orb]. destruct (str_eqb _ _) eqn:Ed; [|discriminate]. intros X. apply Some_inj in X. assert (Eg : rm_group mm = m) by congruence. clear X.
  apply ordered_shape in Em as (ds & d & G1 & G2 & _ & _ & Hd & G3 & _). rewrite G3 in Ed. cbn [or_empty] in Ed. apply str_eqb_eq in Ed. subst ds. rewrite G1 in Eg. subst m. cbn [app] in G2. injection G2 as -> G2. cbn [app length].
  destruct w as [|y w].
  - cbn [app] in G2. apply ending_head in G2. cbn [In] in Hd. lia.
  - cbn [app] in G2. injection G2 as -> G2. destruct w as [|b w].
    + destruct e as [k|]; [right|left].
      * cbn [app ending_text skipn]. apply nonspace_spaces.
      * exists 92%N. split; [reflexivity|]. split; discriminate.
    + left. exists b. split; [reflexivity|]. split; intros ->; apply Hf; exists d; eexists; exists w; (split; [reflexivity|]); (split; [destruct Hd as [<-|[<-|[]]]; auto|auto]).
Qed.

Lemma line_ordinary a : line_words_ok a -> (forall x, In x (para_line_text a) -> x <> 10%N /\ x <> 13%N /\ x <> 0%N).
Proof.
  intros (_ & Hw & _) x Hx. unfold para_line_text in Hx. rewrite !in_app_iff in Hx. destruct Hx as [Hx|[Hx|Hx]].
  - apply repeat_spec in Hx as ->. repeat split; discriminate.
  - rewrite Forall_forall in Hw. specialize (Hw x Hx). repeat split; intros ->; apply Hw; cbn; tauto.
  - apply ending_in in Hx. lia.
Qed.
Lemma line_shape a : line_words_ok a -> exists c r, pl_words a ++ ending_text (pl_ending a) = c :: r /\ hd_error (pl_words a) = Some c /\ is_space c = false /\ c <> 91%N /\
  replace_char 0 65533 (para_line_text a) = repeat SP (pl_indent a) ++ c :: r.
Proof.
  intros Ha. pose proof Ha as (Hne & Hw & Hs). destruct (pl_words a) as [|c w] eqn:E; [congruence|]. exists c, (w ++ ending_text (pl_ending a)). split; [reflexivity|]. split; [reflexivity|]. split; [apply Hs; left; reflexivity|].
  split; [intros ->; apply Forall_inv in Hw; apply Hw; cbn; tauto|]. rewrite LeafFacts.replace_ascii by (intros X; apply (line_ordinary a Ha) in X; tauto). unfold para_line_text. rewrite E. reflexivity.
Qed.
Lemma next_lines : forall l p n i content d k, in_para p n i content d k -> Forall next_line_ok l ->
  exists p' d', incorporate_lines (map para_line_text l) p = Ok p' /\ in_para p' n i (content ++ content_of l) d' k /\ p_line_number p' = p_line_number p + length l /\ p_refmap p' = p_refmap p /\ p_smart p' = p_smart p.
Proof.
  induction l as [|a l IH]; intros p n i content d k Hp Hl.
  - exists p, d. cbn [map incorporate_lines content_of flat_map length]. rewrite app_nil_r, Nat.add_0_r. auto.
  - pose proof (Forall_inv Hl) as Ha. apply Forall_inv_tail in Hl. destruct Ha as [Hw Hi]. destruct (line_shape a Hw) as (c & r & E1 & E2 & E3 & E4 & E5).
    destruct (para_next (para_line_text a) p n i content d k (pl_indent a) c r Hp E5 E3) as (p1 & d1 & F1 & F2 & F3 & F4 & F5 & _ & _).
    { intros H3. destruct Hi as [Hi|(B1 & B2 & B3)]; [lia|]. rewrite <- E1. apply (no_interrupt_words _ _ c E2 (B1 c E2)); [|exact B2|exact B3]. intros X. destruct (line_ordinary a Hw 10%N); [unfold para_line_text; apply in_or_app; right; exact X|congruence]. }
    cbn [map incorporate_lines]. rewrite F1. cbn [bind]. destruct (IH p1 n i _ d1 k F2 Hl) as (p2 & d2 & G1 & G2 & G3 & G4 & G5). exists p2, d2. split; [exact G1|]. split.
    + replace (content ++ content_of (a :: l)) with ((content ++ c :: r ++ [LF]) ++ content_of l); [exact G2|]. rewrite <- app_assoc. f_equal. change (content_of (a :: l)) with ((pl_words a ++ ending_text (pl_ending a) ++ [LF]) ++ content_of l). f_equal. rewrite app_assoc, E1. reflexivity.
    + cbn [length]. split; [lia|]. split; congruence.
Qed.
Lemma para_blocks smart l : para_ok l -> exists p' d' i c r, incorporate_lines (map para_line_text l) (reset (new_parser smart)) = Ok p' /\ in_para p' 1 i (content_of l) d' [] /\ content_of l = c :: r /\ c <> 91%N /\ p_line_number p' = length l /\ p_refmap p' = [] /\ p_smart p' = smart.
Proof.
  destruct l as [|a l]; [intros []|]. intros [(Hw & Hi & Hb & Hn) Hl]. destruct (reset_fresh smart) as ((d & Es & Ed & Esp & _) & En & Er & Esm). remember (reset (new_parser smart)) as p eqn:Z. clear Z.
  destruct (line_shape a Hw) as (c & r & E1 & E2 & E3 & E4 & E5).
  destruct (DocFacts.para_line (para_line_text a) (pl_indent a) c r p d [] Es Ed Esp E5 Hi E3) as (p1 & d1 & F1 & F2 & F3 & F4 & F5 & F6 & F7 & _).
  { rewrite <- E1. pose proof (number_words _ (pl_ending a) Hn) as Hn'. rewrite E1 in *. apply no_start_text; [apply block_start, Hb, E2|exact Hn']. }
  rewrite En in F2, F5. cbn [map incorporate_lines]. rewrite F1. cbn [bind].
  assert (Hp : in_para p1 1 (pl_indent a) (c :: r ++ [LF]) d1 []) by (split; [exact F2|split; [exact F3|congruence]]).
  assert (Ec : content_of (a :: l) = (c :: r ++ [LF]) ++ content_of l). { change (content_of (a :: l)) with ((pl_words a ++ ending_text (pl_ending a) ++ [LF]) ++ content_of l). f_equal. rewrite app_assoc, E1. reflexivity. }
  destruct (next_lines l p1 _ _ _ d1 [] Hp Hl) as (p2 & d2 & G1 & G2 & G3 & G4 & G5). exists p2, d2, (pl_indent a), c, ((r ++ [LF]) ++ content_of l). rewrite Ec. split; [exact G1|]. split; [exact G2|]. split; [reflexivity|]. split; [exact E4|]. cbn [length]. split; [lia|]. split; congruence.
Qed.
Lemma para_lines l : Forall line_words_ok l -> l <> [] -> input_lines (para_text l) = map para_line_text l.
Proof.
  intros Hl Hne. rewrite input_lines_text. replace (para_text l) with (flat_map (fun x => x ++ [10%N]) (map para_line_text l)).
  - apply text_lines_lines; [|destruct l; [congruence|discriminate]]. apply Forall_forall. intros x Hx. apply in_map_iff in Hx as (a & <- & Ha). rewrite Forall_forall in Hl. intros c Hc. destruct (line_ordinary a (Hl a Ha) c Hc) as (H1 & H2 & _). auto.
  - clear. induction l as [|a l IH]; [reflexivity|]. cbn [map flat_map para_text]. rewrite IH. reflexivity.
Qed.
(** ** C50 *)
Theorem lines_both o l : ho_sourcepos o = false -> para_ok l ->
  (exists dd pd k, parse_doc false (para_text l) = Ok (T dd [T pd k]) /\ n_t pd = paragraph) /\ md_to_html false o (para_text l) = Ok (u "<p>" ++ lines_html (ho_softbreak o) l ++ u "</p>" ++ [10%N]).
Proof.
  intros Ho Hl. destruct (ok_words l Hl) as [Hne Hw]. unfold md_to_html. change (parse_doc false (para_text l)) with (result (parse (new_parser false) (para_text l))). rewrite parse_finish, (para_lines l Hw Hne).
  destruct (para_blocks false l Hl) as (p & d & i & c & r & E & (Es & Ed & Esp) & Ec & H91 & _ & Er & Esm). rewrite E. cbn [bind]. rewrite Ec in Es.
  destruct (finalize_para (length (map para_line_text l)) p 1 i c r [F d []] Es H91) as (pd & F1 & F2 & F3 & _).
  destruct (finish_leaf (length (map para_line_text l)) p _ d [T pd []] ltac:(rewrite Es; discriminate) ltac:(rewrite Es; reflexivity) F1 eq_refl Ed Esp) as (dd & s & D1 & D2 & D3 & ->).
  cbn [attach p_stack set_p_stack p_refmap p_smart] in D2, D3. rewrite (process_para pd _ s (or_introl F2) F3), <- Ec.
  destruct (lines_inlines (ho_softbreak o) l s Hne Hw ltac:(congruence)) as (K & s' & -> & Sh & _). cbn [bind]. split; [exists dd, pd, K; split; [reflexivity|exact F2]|]. apply para_html; [exact Ho|exact D1|exact F2|]. intros st Hd. rewrite Hd. apply Sh; [reflexivity|exact Hd].
Qed.
Theorem lines_of_paragraph o l : ho_sourcepos o = false -> para_ok l -> md_to_html false o (para_text l) = Ok (u "<p>" ++ lines_html (ho_softbreak o) l ++ u "</p>" ++ [10%N]).
Proof. intros Ho Hl. apply lines_both; assumption. Qed.

(** ** The underline *)
Lemma maybe_special c r : c = 61%N \/ c = 45%N -> re_test reMaybeSpecial (c :: r) = true.
Proof.
  intros Hc. rewrite (re_test_bol (RChr (match reMaybeSpecial with RSeq _ (RChr cs) => cs | _ => CS false false [] end))), match_at_chr.
  match goal with |- context [cmatch ?cs c] => replace (cmatch cs c) with true; [reflexivity|] end. destruct Hc as [-> | ->]; vm_compute; reflexivity.
Qed.
Lemma under_starts z c r m n i e0 content d k : c = 61%N \/ c = 45%N -> rest_nonspace z = c :: r -> peek (p_line z) (p_next_nonspace z) = Some c -> p_indented z = false -> p_stack z = [F (para_data n i (e0 :: content)) []; F d k] -> p_all_closed z = true -> e0 <> 91%N ->
  re_search reSetextHeadingLine (c :: r) = Some m -> hd_error (rm_group m) = Some c ->
  exists y, try_starts block_starts paragraph z = Ok (SLeaf, advance_to_end y) /\ p_stack y = [F (LeafFacts.heading_data n i (if N.eqb c 61 then 1 else 2) (e0 :: content)) []; F d k] /\
    p_line y = p_line z /\ p_all_closed y = true /\ p_line_number y = p_line_number z /\ p_refmap y = p_refmap z /\ p_smart y = p_smart z.
Proof.
  intros Hc Er Ep Ei Es Ea H91 Em Eh. unfold block_starts. cbn [try_starts].
  assert (C1 : opt_is 62 (Some c) = false) by (destruct Hc as [-> | ->]; reflexivity). assert (C2 : opt_is 60 (Some c) = false) by (destruct Hc as [-> | ->]; reflexivity).
  assert (N3 : re_search reATXHeadingMarker (c :: r) = None).
  { assert (E : reATXHeadingMarker = RSeq RBol (match reATXHeadingMarker with RSeq _ r => r | r => r end)) by (vm_compute; reflexivity). rewrite E. clear E. apply begins_search; [vm_compute; reflexivity|vm_compute; reflexivity|]. destruct Hc as [-> | ->]; vm_compute; reflexivity. }
  assert (N4 : re_search reCodeFence (c :: r) = None) by (apply fence_first; destruct Hc as [-> | ->]; vm_compute; reflexivity).
  unfold start_block_quote at 1. rewrite Ei, Ep, C1. cbn [negb andb bind]. unfold start_atx_heading at 1. rewrite Ei, Er, N3. cbn [bind].
  unfold start_fenced_code at 1. rewrite Ei, Er, N4. cbn [bind]. unfold start_html_block at 1. rewrite Ei, Ep, C2. cbn [negb andb bind].
  unfold start_setext_heading at 1. rewrite Ei, Er, Em. change (ntype_eqb paragraph paragraph) with true. cbn [negb andb bind]. unfold close_unmatched_blocks. rewrite Ea. cbn [bind]. unfold tip. rewrite Es. cbn [hd_error of_option bind f_data]. unfold para_data at 1. cbn [n_string_content set_n_string_content of_option bind].
  unfold strip_refs. cbn [length ref_loop]. unfold peek at 1. cbn [nth_error opt_is]. rewrite (proj2 (N.eqb_neq e0 91) H91). cbn [bind andb is_nil]. rewrite Eh. cbn [of_option bind]. eexists. split; [reflexivity|].
  cbn [p_stack set_p_stack p_line p_all_closed p_line_number p_refmap p_smart set_p_ip set_p_refmap]. rewrite Es. cbn [tl]. split; [reflexivity|]. auto 10.
Qed.
Lemma para_under ln p n i e0 content d k a c ul : in_para p n i (e0 :: content) d k -> e0 <> 91%N -> ln = repeat SP a ++ ul -> a <= 3 -> c = 61%N \/ c = 45%N -> underline_of c ul ->
  exists y b, incorporate_line ln p = Ok y /\ p_stack y = [F (set_n_last_line_blank b (LeafFacts.heading_data n i (if N.eqb c 61 then 1 else 2) (e0 :: content))) []; F (set_n_last_line_blank b d) k] /\ p_refmap y = p_refmap p /\ p_smart y = p_smart p.
Proof.
  intros Hp H91 El Ha Hc Hu. destruct (setext_some ul c Hc Hu) as (m & Em & Eh). destruct Hu as (u0 & w & Eu & Hw). assert (Eu' : ul = c :: repeat c u0 ++ w) by exact Eu.
  assert (Hcs : is_space c = false) by (destruct Hc as [-> | ->]; reflexivity).
  assert (Hr : replace_char 0 65533 ln = repeat SP a ++ c :: repeat c u0 ++ w).
  { rewrite LeafFacts.replace_ascii; [rewrite El, Eu'; reflexivity|]. rewrite El, Eu', in_app_iff. cbn [In]. rewrite in_app_iff. intros [X|[X|[X|X]]]; [apply repeat_spec in X; discriminate|destruct Hc; congruence|apply repeat_spec in X; destruct Hc; congruence|]. unfold blanks in Hw. rewrite Forall_forall in Hw. specialize (Hw _ X). destruct Hw; discriminate. }
  destruct (para_descend ln p n i (e0 :: content) d k a c _ Hp Hr Hcs) as (x & -> & P1 & P2 & P3 & P4 & P5 & P6 & P7 & P8 & P9 & _). destruct Hp as (Es & Ed & Ep).
  assert (Hs : c <> SP /\ c <> TAB /\ c <> 10%N /\ c <> 13%N) by (repeat split; intros ->; discriminate Hcs). destruct Hs as (H1 & H2 & H3 & H4).
  unfold line_tail. cbn [starts_loop].
  destruct (fnn_spec x a c _ (eq_trans P2 Hr) P3 P4 H1 H2 H3 H4) as ((K1 & K2 & K3 & K4 & K5 & K6 & K7 & K8) & Z1 & Z2 & Z3 & Z4 & Z5 & Z6 & Z7 & Z8 & Z9 & Z10).
  remember (find_next_nonspace x) as z eqn:Z. clear Z.
  assert (Ei : p_indented z = false) by (rewrite Z4; apply Nat.leb_gt; lia). rewrite Ei, Z6, (maybe_special c _ Hc). cbn [negb andb]. unfold block_at. rewrite K1, P1, Es. cbn [length Nat.sub nth_error of_option bind]. change (f_type (F (para_data n i (e0 :: content)) [])) with paragraph.
  destruct (under_starts z c (repeat c u0 ++ w) m n i e0 content d k Hc Z6 Z7 Ei ltac:(congruence) ltac:(congruence) H91 ltac:(rewrite <- Eu'; exact Em) Eh) as (y & -> & Y1 & Y2 & Y3 & Y4 & Y5 & Y6). cbn [bind].
  destruct (LeafFacts.to_end_fields y) as (T1 & T2 & T3 & T4 & T5 & T6 & T7).
  destruct (LeafFacts.line_end_empty (replace_char 0 65533 ln) (advance_to_end y) _ d k ltac:(rewrite T1; exact Y1) ltac:(congruence) (or_introl eq_refl) ltac:(discriminate) ltac:(rewrite T2; exact T3)) as (b & y' & -> & W1 & W2 & W3 & W4 & W5).
  exists y', b. split; [reflexivity|]. split; [exact W1|]. split; congruence.
Qed.
(** ** C51 *)
Definition setext_level (c : N) : nat := if N.eqb c 61 then 1 else 2.
Theorem setext_both o l a c ul : ho_sourcepos o = false -> para_ok l -> a <= 3 -> c = 61%N \/ c = 45%N -> underline_of c ul ->
  (exists dd hd k, parse_doc false (para_text l ++ repeat 32%N a ++ ul ++ [10%N]) = Ok (T dd [T hd k]) /\ n_t hd = heading) /\
  md_to_html false o (para_text l ++ repeat 32%N a ++ ul ++ [10%N]) = Ok (u "<h" ++ str_of_nat (setext_level c) ++ u ">" ++ lines_html (ho_softbreak o) l ++ u "</h" ++ str_of_nat (setext_level c) ++ u ">" ++ [10%N]).
Proof.
  intros Ho Hl Ha Hc Hu. destruct (ok_words l Hl) as [Hne Hw]. unfold md_to_html. set (src := para_text l ++ repeat 32%N a ++ ul ++ [10%N]). change (parse_doc false src) with (result (parse (new_parser false) src)). rewrite parse_finish.
  assert (El : input_lines src = map para_line_text l ++ [repeat SP a ++ ul]).
  { rewrite input_lines_text. replace src with (flat_map (fun x => x ++ [10%N]) (map para_line_text l ++ [repeat SP a ++ ul])).
    - apply text_lines_lines; [|destruct l; discriminate]. apply Forall_app. split.
      + apply Forall_forall. intros x Hx. apply in_map_iff in Hx as (b & <- & Hb). rewrite Forall_forall in Hw. intros y Hy. destruct (line_ordinary b (Hw b Hb) y Hy) as (H1 & H2 & _). auto.
      + constructor; [|constructor]. intros x Hx. destruct Hu as (n & w & -> & Hb). rewrite !in_app_iff in Hx. destruct Hx as [Hx|[Hx|Hx]]; [apply repeat_spec in Hx as ->; split; discriminate|apply repeat_spec in Hx as ->; destruct Hc as [-> | ->]; split; discriminate|]. unfold blanks in Hb. rewrite Forall_forall in Hb. destruct (Hb x Hx) as [-> | ->]; split; discriminate.
    - unfold src. rewrite flat_map_app. cbn [flat_map]. rewrite app_nil_r, <- app_assoc. f_equal. clear. induction l as [|b l IH]; [reflexivity|]. cbn [map flat_map para_text]. rewrite IH. reflexivity. }
  rewrite El, incorporate_app. destruct (para_blocks false l Hl) as (p & d & i & e0 & r & E & Hp & Ec & H91 & _ & Er & Esm). rewrite E. cbn [bind incorporate_lines]. rewrite Ec in Hp.
  destruct (para_under _ p 1 i e0 r d [] a c ul Hp H91 eq_refl Ha Hc Hu) as (y & b & -> & W1 & W2 & W3). cbn [bind]. destruct Hp as (_ & Ed & Esp). set (ln := length _).
  pose (hd := set_n_sourcepos (Some (1, S i, (ln, p_last_line_length y))) (set_n_is_open false (set_n_last_line_blank b (LeafFacts.heading_data 1 i (setext_level c) (e0 :: r))))).
  destruct (finish_leaf ln y (attach (T hd []) (set_p_stack [F (set_n_last_line_blank b d) []] y)) (set_n_last_line_blank b d) [T hd []]) as (dd & st & D1 & D2 & D3 & ->);
    [rewrite W1; discriminate|rewrite W1; reflexivity|unfold finalize_tip; rewrite W1; reflexivity|reflexivity|exact Ed|exact Esp|].
  rewrite (process_para hd (e0 :: r)) by (auto || (right; reflexivity)). cbn [attach p_stack set_p_stack p_refmap p_smart] in D2, D3. rewrite <- Ec.
  destruct (lines_inlines (ho_softbreak o) l st Hne Hw ltac:(congruence)) as (K & s' & -> & Sh & _). cbn [bind]. split; [exists dd, hd, K; split; reflexivity|]. apply HeadFacts.heading_html; [exact Ho|exact D1|reflexivity|reflexivity|]. intros st1 Hd. rewrite Hd. apply Sh; [reflexivity|exact Hd].
Qed.
Theorem setext_of_paragraph o l a c ul : ho_sourcepos o = false -> para_ok l -> a <= 3 -> c = 61%N \/ c = 45%N -> underline_of c ul ->
  md_to_html false o (para_text l ++ repeat 32%N a ++ ul ++ [10%N]) = Ok (u "<h" ++ str_of_nat (setext_level c) ++ u ">" ++ lines_html (ho_softbreak o) l ++ u "</h" ++ str_of_nat (setext_level c) ++ u ">" ++ [10%N]).
Proof. intros Ho Hl Ha Hc Hu. apply setext_both; assumption. Qed.
Theorem setext_levels o l a ul : ho_sourcepos o = false -> para_ok l -> a <= 3 ->
  (underline_of 61 ul -> md_to_html false o (para_text l ++ repeat 32%N a ++ ul ++ [10%N]) = Ok (u "<h1>" ++ lines_html (ho_softbreak o) l ++ u "</h1>" ++ [10%N])) /\
  (underline_of 45 ul -> md_to_html false o (para_text l ++ repeat 32%N a ++ ul ++ [10%N]) = Ok (u "<h2>" ++ lines_html (ho_softbreak o) l ++ u "</h2>" ++ [10%N])).
Proof.
  intros Ho Hl Ha. split; intros Hu; [exact (setext_of_paragraph o l a 61%N ul Ho Hl Ha (or_introl eq_refl) Hu)|exact (setext_of_paragraph o l a 45%N ul Ho Hl Ha (or_intror eq_refl) Hu)].
Qed.

(** ** Checks by computation *)
Definition ordinaryb (w : str) : bool := forallb tame w.
Definition wordsb (w : str) : bool :=
  match hd_error w, last_opt w with Some a, Some b => negb (is_space a) && negb (is_space b) && ordinaryb w | _, _ => false end.
Definition numberb (w : str) : bool :=
  match drop_while is_decimal w with x :: _ => N.eqb x 46 || N.eqb x 41 | [] => false end.
Definition first_numberb (w : str) : bool :=
  match w with a :: x :: b :: _ => N.eqb a 49 && (N.eqb b 32 || N.eqb b 9) | _ => false end.
Definition underlineb (l : str) : bool :=
  match l with c :: _ => (N.eqb c 61 || N.eqb c 45) && forallb (fun x => N.eqb x c || N.eqb x 32 || N.eqb x 9) l | [] => false end.
Definition markb (w : str) : bool := match hd_error w with Some c => start_char c | None => false end.
Definition first_lineb (a : para_line) : bool := wordsb (pl_words a) && Nat.leb (pl_indent a) 3 && negb (markb (pl_words a)) && negb (numberb (pl_words a)).
Definition next_lineb (a : para_line) : bool :=
  wordsb (pl_words a) && (Nat.leb 4 (pl_indent a) || (negb (markb (pl_words a)) && negb (first_numberb (pl_words a)) && negb (underlineb (pl_words a ++ ending_text (pl_ending a))))).
Definition para_okb (l : list para_line) : bool := match l with [] => false | a :: l' => first_lineb a && forallb next_lineb l' end.
Lemma wordsb_ok w : wordsb w = true -> words_ok w.
Proof.
  unfold wordsb. destruct (hd_error w) as [a|] eqn:Ea; [|discriminate]. destruct (last_opt w) as [b|] eqn:Eb; [|discriminate]. intros H. apply andb_true_iff in H as [H H3]. apply andb_true_iff in H as [H1 H2]. apply negb_true_iff in H1, H2.
  split; [intros ->; discriminate|]. split.
  - apply Forall_forall. intros x Hx. unfold ordinaryb in H3. rewrite forallb_forall in H3. specialize (H3 x Hx). unfold tame in H3. intros Hy. apply negb_true_iff in H3. assert (G : existsb (N.eqb x) [10; 13; 0; 96; 91; 92; 60; 38; 42; 95]%N = true) by (apply existsb_exists; exists x; split; [exact Hy|apply N.eqb_refl]). congruence.
  - intros c [E|E]; congruence.
Qed.
Lemma markb_ok w : markb w = false -> forall c, hd_error w = Some c -> ~ block_char c.
Proof.
  intros H c Hc Hb. unfold markb in H. rewrite Hc in H. assert (G : start_char c = true); [|congruence]. unfold start_char. apply existsb_exists. exists c. split; [exact Hb|apply N.eqb_refl].
Qed.
Lemma numberb_ok w : numberb w = false -> ~ list_number w.
Proof.
  intros H (ds & x & r & -> & _ & Hd & Hx & _). unfold numberb in H. rewrite drop_while_pre in H.
  - cbn in H. destruct Hx as [-> | ->]; discriminate.
  - apply forallb_forall. intros y Hy. rewrite Forall_forall in Hd. apply Hd, Hy.
  - intros c E. injection E as <-. destruct Hx as [-> | ->]; vm_compute; reflexivity.
Qed.
Lemma underlineb_ok l : underlineb l = false -> ~ underline l.
Proof.
  intros H [(n & w & -> & Hw)|(n & w & -> & Hw)]; unfold underlineb in H; cbn [repeat app] in H; cbn [N.eqb Pos.eqb orb andb] in H; (rewrite (proj2 (forallb_forall _ _)) in H; [discriminate|]); intros x Hx; unfold blanks in Hw; rewrite Forall_forall in Hw;
    (destruct Hx as [<-|Hx]; [reflexivity|]); apply in_app_or in Hx as [Hx|Hx]; try (apply repeat_spec in Hx as ->; reflexivity); destruct (Hw x Hx) as [-> | ->]; reflexivity.
Qed.
Lemma para_okb_ok l : para_okb l = true -> para_ok l.
Proof.
  destruct l as [|a l]; [discriminate|]. intros H. cbn [para_okb] in H. apply andb_true_iff in H as [Ha Hl]. unfold first_lineb in Ha. apply andb_true_iff in Ha as [Ha A4]. apply andb_true_iff in Ha as [Ha A3]. apply andb_true_iff in Ha as [A1 A2]. apply negb_true_iff in A3, A4. apply Nat.leb_le in A2.
  split.
  - split; [apply wordsb_ok, A1|]. split; [exact A2|]. split; [apply markb_ok, A3|apply numberb_ok, A4].
  - apply Forall_forall. intros b Hb. rewrite forallb_forall in Hl. specialize (Hl b Hb). unfold next_lineb in Hl. apply andb_true_iff in Hl as [B1 Hl]. split; [apply wordsb_ok, B1|]. apply orb_true_iff in Hl as [Hl|Hl]; [left; apply Nat.leb_le, Hl|right].
    apply andb_true_iff in Hl as [Hl B4]. apply andb_true_iff in Hl as [B2 B3]. apply negb_true_iff in B2, B3, B4. split; [apply markb_ok, B2|]. split; [|apply underlineb_ok, B4].
    intros (x & y & r & E & _ & Hy). rewrite E in B3. cbn in B3. destruct Hy as [-> | ->]; discriminate.
Qed.
