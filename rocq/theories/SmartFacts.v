(** * The smart option (C30) *)
From Verif Require Import Base Regex Common NormRef Node Inlines Blocks Html Main RegexFacts StrFacts Spec SpecTree SpecSame
  TreeFacts CommonFacts StrProp EmphFacts InlineFacts InlineInv BlockFacts BlockInv BlockRun LineFacts ParseFacts Sim SimFacts HtmlFacts DocFacts TextFacts WordFacts.
From Verif Require RegexLang.
From Coq Require Import ZifyBool ZifyNat ZifyN.

(** ** Runs of hyphens *)
Lemma dashes_spec l : 2 <= length l -> exists em en, smart_dashes l = repeat 8212%N em ++ repeat 8211%N en /\ 3 * em + 2 * en = length l.
Proof.
  intros H. unfold smart_dashes. set (n := length l) in *. pose proof (Nat.div_mod n 3 ltac:(lia)) as D3. pose proof (Nat.div_mod n 2 ltac:(lia)) as D2.
  pose proof (Nat.mod_upper_bound n 3 ltac:(lia)) as B3. pose proof (Nat.mod_upper_bound n 2 ltac:(lia)) as B2.
  destruct (Nat.eqb_spec (n mod 3) 0) as [E|E]; [exists (n / 3), 0; split; [reflexivity|lia]|].
  destruct (Nat.eqb_spec (n mod 2) 0) as [E2|E2]; [exists 0, (n / 2); split; [reflexivity|lia]|].
  destruct (Nat.eqb_spec (n mod 3) 2) as [E3|E3].
  - exists ((n - 2) / 3), 1. split; [reflexivity|]. replace (n - 2) with ((n / 3) * 3) by lia. rewrite Nat.div_mul by lia. lia.
  - exists ((n - 4) / 3), 2. split; [reflexivity|]. assert (1 <= n / 3) by lia. replace (n - 4) with ((n / 3 - 1) * 3) by lia. rewrite Nat.div_mul by lia. lia.
Qed.

(** ** Nothing to change *)
Definition smart_text (s : str) : Prop := ~ In 39%N s /\ ~ In 34%N s /\ ~ infix [45; 45]%N s /\ ~ infix [46; 46; 46]%N s.
Lemma smart_infix a s : infix a s -> smart_text s -> smart_text a.
Proof.
  intros H (H1 & H2 & H3 & H4). split; [|split; [|split]]; intros X; [apply H1|apply H2|apply H3|apply H4]; try (eapply infix_In; eassumption); eapply infix_trans; eassumption.
Qed.
Definition dot_cs : cset := CS false false [CRange 46 46].
Definition dash_cs : cset := CS false false [CRange 45 45].
Lemma reEllipses_shape : reEllipses = RSeq (RChr dot_cs) (RSeq (RChr dot_cs) (RChr dot_cs)).
Proof. vm_compute. reflexivity. Qed.
Lemma reDash_shape : reDash = RSeq (RChr dash_cs) (RRep true 1 None (RChr dash_cs)).
Proof. vm_compute. reflexivity. Qed.
Lemma dot_spec c : cmatch dot_cs c = true -> c = 46%N.
Proof. unfold dot_cs. cm_unfold. lia. Qed.
Lemma dash_spec c : cmatch dash_cs c = true -> c = 45%N.
Proof. unfold dash_cs. cm_unfold. lia. Qed.
Lemma search_infix r w s : RegexLang.good r = true -> (forall p g q, RegexLang.L r p g q -> infix w g) -> ~ infix w s -> re_search r s = None.
Proof.
  intros Hg H Hw. destruct (re_search r s) as [m|] eqn:E; [|reflexivity]. apply RegexLang.re_search_L in E as [E1 E2]; [|exact Hg]. exfalso. apply Hw.
  rewrite E1. eapply infix_trans; [eapply H, E2|]. exists (rm_before m), (rm_after m). reflexivity.
Qed.
Lemma smart_none m : smart_text m -> re_search reEllipses m = None /\ re_search reDash m = None.
Proof.
  intros (_ & _ & H3 & H4). split.
  - apply (search_infix _ [46; 46; 46]%N); [vm_compute; reflexivity| |exact H4]. intros p g q H. rewrite reEllipses_shape in H. cbn [RegexLang.L] in H.
    destruct H as (g1 & g2 & -> & (c1 & -> & C1) & g3 & g4 & -> & (c3 & -> & C3) & c4 & -> & C4). apply dot_spec in C1, C3, C4. subst. exists [], []. reflexivity.
  - apply (search_infix _ [45; 45]%N); [vm_compute; reflexivity| |exact H3]. intros p g q H. rewrite reDash_shape in H. cbn [RegexLang.L] in H.
    destruct H as (g1 & g2 & -> & (c1 & -> & C1) & n & Hn & _ & H). destruct n as [|n]; [lia|]. cbn [RegexLang.Lrep] in H. destruct H as (g3 & g4 & -> & (c3 & -> & C3) & _). apply dash_spec in C1, C3. subst. exists [], g4. reflexivity.
Qed.

(** ** The inline parser with another value of the option *)
Notation sm := set_ip_smart.
Definition rsm {A} (b : bool) (x : res (A * ip)) : res (A * ip) := let* (a, s) := x in Ok (a, sm b s).
Definition rsm1 (b : bool) (x : res ip) : res ip := let* s := x in Ok (sm b s).
Lemma match_sm b r s : ip_match r (sm b s) = match ip_match r s with Some (m, s1) => Some (m, sm b s1) | None => None end.
Proof. unfold ip_match. cbn [sm ip_pos ip_subject]. destruct (re_search _ _); reflexivity. Qed.
Lemma skip_sm b r s : ip_skip r (sm b s) = sm b (ip_skip r s).
Proof. unfold ip_skip. rewrite match_sm. destruct (ip_match r s) as [[m s1]|]; reflexivity. Qed.
Lemma ticks_sm b : forall f t a s, ticks_loop f t a (sm b s) = rsm1 b (ticks_loop f t a s).
Proof.
  induction f as [|f IH]; intros t a s; [reflexivity|]. cbn [ticks_loop]. rewrite match_sm. destruct (ip_match reTicks s) as [[m s1]|]; [|reflexivity].
  destruct (str_eqb m t); [reflexivity|]. apply IH.
Qed.
Lemma dest_sm b : forall f n s, dest_loop f n (sm b s) = rsm b (dest_loop f n s).
Proof.
  induction f as [|f IH]; intros n s; [reflexivity|]. cbn [dest_loop]. change (ip_peek (sm b s)) with (ip_peek s). destruct (ip_peek s) as [c|]; [|reflexivity].
  change (ip_pos (sm b s)) with (ip_pos s). change (ip_subject (sm b s)) with (ip_subject s). destruct (N.eqb c 92 && _).
  - change (ip_adv 1 (sm b s)) with (sm b (ip_adv 1 s)). change (ip_peek (sm b (ip_adv 1 s))) with (ip_peek (ip_adv 1 s)). destruct (ip_peek (ip_adv 1 s)); [change (ip_adv 1 (sm b (ip_adv 1 s))) with (sm b (ip_adv 1 (ip_adv 1 s)))|]; apply IH.
  - change (ip_adv 1 (sm b s)) with (sm b (ip_adv 1 s)). destruct (N.eqb c 40); [apply IH|]. destruct (N.eqb c 41); [destruct n; [reflexivity|apply IH]|]. destruct (re_test _ _); [reflexivity|apply IH].
Qed.
Lemma destination_sm b s : parseLinkDestination (sm b s) = rsm b (parseLinkDestination s).
Proof.
  unfold parseLinkDestination. rewrite match_sm. destruct (ip_match _ s) as [[m s1]|]; [destruct (normalize_uri _); reflexivity|].
  change (peek_is 60 (sm b s)) with (peek_is 60 s). destruct (peek_is 60 s); [reflexivity|]. change (ip_pos (sm b s)) with (ip_pos s). change (ip_subject (sm b s)) with (ip_subject s). rewrite dest_sm.
  destruct (dest_loop _ _ s) as [[c s1]|e]; [|reflexivity]. cbn [rsm bind]. change (ip_pos (sm b s1)) with (ip_pos s1). change (ip_subject (sm b s1)) with (ip_subject s1).
  destruct (Nat.eqb _ _ && _); [reflexivity|]. destruct (normalize_uri _); reflexivity.
Qed.
Lemma title_sm b s : parseLinkTitle (sm b s) = (fst (parseLinkTitle s), sm b (snd (parseLinkTitle s))).
Proof. unfold parseLinkTitle. rewrite match_sm. destruct (ip_match _ s) as [[m s1]|]; reflexivity. Qed.
Lemma label_sm b s : parseLinkLabel (sm b s) = (fst (parseLinkLabel s), sm b (snd (parseLinkLabel s))).
Proof. unfold parseLinkLabel. rewrite match_sm. destruct (ip_match _ s) as [[m s1]|]; [destruct (Nat.ltb _ _)|]; reflexivity. Qed.
Lemma tail_sm b s : inline_tail (sm b s) = rsm b (inline_tail s).
Proof.
  unfold inline_tail. change (peek_is 40 (sm b s)) with (peek_is 40 s). destruct (peek_is 40 s); [|reflexivity]. change (ip_adv 1 (sm b s)) with (sm b (ip_adv 1 s)). unfold spnl. rewrite skip_sm, destination_sm.
  destruct (parseLinkDestination _) as [[d s2]|e]; [|reflexivity]. cbn [rsm bind]. destruct d as [d|]; [|reflexivity]. rewrite skip_sm.
  change (ip_pos (sm b (ip_skip reSpnl s2))) with (ip_pos (ip_skip reSpnl s2)). change (ip_subject (sm b (ip_skip reSpnl s2))) with (ip_subject (ip_skip reSpnl s2)).
  destruct (of_option _ _) as [c|e]; [|reflexivity]. cbn [bind]. destruct (re_test _ _).
  - rewrite title_sm. destruct (parseLinkTitle _) as [t s4]. cbn [fst snd]. rewrite skip_sm. change (peek_is 41 (sm b (ip_skip reSpnl s4))) with (peek_is 41 (ip_skip reSpnl s4)). destruct (peek_is 41 _); reflexivity.
  - rewrite skip_sm. set (s4 := ip_skip reSpnl s2). change (peek_is 41 (sm b (ip_skip reSpnl s4))) with (peek_is 41 (ip_skip reSpnl s4)). destruct (peek_is 41 _); reflexivity.
Qed.
Lemma reftail_sm b o x y s : reference_tail o x y (sm b s) = (fst (reference_tail o x y s), sm b (snd (reference_tail o x y s))).
Proof.
  unfold reference_tail. rewrite label_sm. destruct (parseLinkLabel s) as [n s1]. cbn [fst snd]. change (ip_pos (sm b s)) with (ip_pos s). change (ip_subject (sm b s1)) with (ip_subject s1).
  destruct (Nat.eqb n 0); (destruct (is_nil _); [reflexivity|]); cbn [sm set_ip_pos ip_refmap]; destruct (assoc_str _ _) as [[? ?]|]; reflexivity.
Qed.
Lemma make_link_sm b o d t s : make_link o d t (sm b s) = rsm1 b (make_link o d t s).
Proof.
  unfold make_link. cbn [sm ip_kids ip_next ip_delims]. destruct (split_kid _ _) as [[[pre x] post]|]; [|reflexivity]. destruct (processEmphasis _ _ _ _) as [[[ds ks] n]|e]; [|reflexivity]. cbn [bind]. destruct (b_image o); reflexivity.
Qed.
Lemma close_sm b s : parseCloseBracket (sm b s) = rsm b (parseCloseBracket s).
Proof.
  unfold parseCloseBracket. change (ip_adv 1 (sm b s)) with (sm b (ip_adv 1 s)). set (s1 := ip_adv 1 s). cbn [sm ip_brackets]. fold (sm b s1). change (ip_pos (sm b s1)) with (ip_pos s1).
  destruct (ip_brackets s1) as [|o bs]; [reflexivity|]. destruct (negb _); [reflexivity|]. rewrite tail_sm. destruct (inline_tail s1) as [[tl s2]|e]; [|reflexivity]. cbn [rsm bind].
  destruct tl as [[d t]|].
  - rewrite make_link_sm. destruct (make_link _ _ _ s2); reflexivity.
  - rewrite reftail_sm. destruct (reference_tail _ _ _ s2) as [[[d t]|] s3]; cbn [fst snd]; [|reflexivity]. rewrite make_link_sm. destruct (make_link _ _ _ s3); reflexivity.
Qed.
Lemma parseInline_sm b s : smart_text (ip_subject s) -> parseInline (sm b s) = rsm b (parseInline s).
Proof.
  intros Ht. unfold parseInline. change (ip_peek (sm b s)) with (ip_peek s). destruct (ip_peek s) as [c|] eqn:Ep; [|reflexivity].
  assert (Hin : In c (ip_subject s)) by (unfold ip_peek in Ep; eapply nth_error_In, Ep).
  match goal with |- bind ?F _ = rsm b (bind ?G _) => assert (E : F = rsm b G); [|rewrite E; destruct G as [[[|] s1]|e]; reflexivity] end.
  destruct (N.eqb c LF).
  { unfold parseNewline. change (ip_adv 1 (sm b s)) with (sm b (ip_adv 1 s)). assert (E : newline_kids (sm b (ip_adv 1 s)) = rsm1 b (newline_kids (ip_adv 1 s))).
    { set (s1 := ip_adv 1 s). unfold newline_kids. cbn [sm ip_kids]. destruct (last_opt (ip_kids s1)) as [[id [d k]]|]; [|reflexivity]. destruct (ntype_eqb _ _); [|reflexivity]. destruct (n_literal d) as [l|]; [|reflexivity]. cbn [of_option bind].
      destruct (last_opt l) as [c1|]; [|reflexivity]. cbn [of_option bind]. destruct (N.eqb c1 SP); reflexivity. }
    rewrite E. destruct (newline_kids (ip_adv 1 s)) as [s2|e]; [|reflexivity]. cbn [rsm1 bind rsm]. rewrite skip_sm. reflexivity. }
  destruct (N.eqb c 92).
  { unfold parseBackslash. change (ip_adv 1 (sm b s)) with (sm b (ip_adv 1 s)). set (s1 := ip_adv 1 s). change (peek_is LF (sm b s1)) with (peek_is LF s1). destruct (peek_is LF s1); [reflexivity|].
    change (ip_pos (sm b s1)) with (ip_pos s1). change (ip_subject (sm b s1)) with (ip_subject s1). destruct (nth_error _ _) as [x|]; [destruct (re_test _ _)|]; reflexivity. }
  destruct (N.eqb c 96).
  { unfold parseBackticks. rewrite match_sm. destruct (ip_match _ s) as [[t s1]|]; [|reflexivity]. change (ip_subject (sm b s)) with (ip_subject s). change (ip_pos (sm b s1)) with (ip_pos s1). rewrite ticks_sm. destruct (ticks_loop _ _ _ s1); reflexivity. }
  destruct (N.eqb c 42 || N.eqb c 95).
  { unfold handleDelim. change (scanDelims c (sm b s)) with (scanDelims c s). destruct (scanDelims c s) as [[[n co] cc]|]; reflexivity. }
  destruct (N.eqb c 39 || N.eqb c 34) eqn:Eq.
  { exfalso. destruct Ht as (H1 & H2 & _). apply orb_true_iff in Eq as [Eq|Eq]; apply N.eqb_eq in Eq as ->; auto. }
  destruct (N.eqb c 91); [reflexivity|].
  destruct (N.eqb c 33).
  { unfold parseBang. change (ip_adv 1 (sm b s)) with (sm b (ip_adv 1 s)). set (s1 := ip_adv 1 s). change (peek_is 91 (sm b s1)) with (peek_is 91 s1). destruct (peek_is 91 s1); reflexivity. }
  destruct (N.eqb c 93); [apply close_sm|].
  assert (Ha : parseAutolink (sm b s) = rsm b (parseAutolink s)).
  { unfold parseAutolink. rewrite match_sm. destruct (ip_match _ s) as [[m s1]|]; [destruct (normalize_uri _); reflexivity|]. rewrite match_sm. destruct (ip_match _ s) as [[m s1]|]; [destruct (normalize_uri _); reflexivity|reflexivity]. }
  destruct (N.eqb c 60).
  { rewrite Ha. destruct (parseAutolink s) as [[[|] s1]|e]; [reflexivity| |reflexivity]. cbn [rsm bind]. unfold parseHtmlTag. rewrite match_sm. destruct (ip_match _ s1) as [[m s2]|]; reflexivity. }
  destruct (N.eqb c 38).
  { unfold parseEntity. rewrite match_sm. destruct (ip_match _ s) as [[m s2]|]; reflexivity. }
  unfold parseString. rewrite match_sm. destruct (ip_match reMain s) as [[m s1]|] eqn:Em; [|reflexivity].
  assert (Hm : smart_text m).
  { unfold ip_match in Em. destruct (re_search reMain _) as [x|] eqn:Ex; [|discriminate]. injection Em as <- <-. apply re_search_some in Ex as (Ex & _). eapply smart_infix; [|exact Ht]. eapply infix_trans; [|apply (infix_skipn (ip_pos s))]. rewrite Ex. exists (rm_before x), (rm_after x). reflexivity. }
  destruct (smart_none m Hm) as [N1 N2]. rewrite (re_sub_none _ _ _ N1), (re_sub_none _ _ _ N2). cbn [sm ip_smart]. destruct b, (ip_smart s); reflexivity.
Qed.
Lemma inv_sm b s : inv code_point s -> inv code_point (sm b s).
Proof. intros [H1 H2 H3 H4 H5 H6 H7 H8]. constructor; assumption. Qed.
Lemma plain_code c : plain_char c -> code_point c.
Proof. intros (_ & X & _). exact X. Qed.
Lemma inline_loop_sm b : forall f s, inv code_point s -> smart_text (ip_subject s) -> inline_loop f (sm b s) = rsm1 b (inline_loop f s).
Proof.
  induction f as [|f IH]; intros s Hi Ht; [reflexivity|]. cbn [inline_loop]. rewrite parseInline_sm by exact Ht. pose proof (parseInline_spec code_point plain_code (fun c H => H) s Hi) as H.
  destruct (parseInline s) as [[r s1]|e]; [|reflexivity]. cbn [rsm bind]. destruct r; [|reflexivity].
  destruct (istep_inv code_point plain_code (fun c H => H) _ _ Hi H) as (J1 & _ & J3 & _ & _). apply IH; [exact J1|rewrite J3; exact Ht].
Qed.
Lemma parseInlines_sm b content s : Forall code_point content -> refs_ok code_point (ip_refmap s) -> smart_text content ->
  parseInlines content (sm b s) = rsm b (parseInlines content s).
Proof.
  intros Hc Hr Ht. unfold parseInlines. change (IP (strip content) 0 (ip_refmap (sm b s)) (ip_smart (sm b s)) [] [] [] 0) with (sm b (ip0 content s)). fold (ip0 content s).
  rewrite inline_loop_sm; [|apply ip0_inv; assumption|eapply smart_infix; [apply infix_strip|exact Ht]]. destruct (inline_loop _ _) as [s1|e]; [|reflexivity]. cbn [rsm1 bind]. cbn [sm ip_delims ip_kids ip_next].
  destruct (processEmphasis _ _ _ _) as [[[ds ks] n]|e]; reflexivity.
Qed.
Section Tree.
  Variable A : str -> Prop.
  Hypothesis HA : ~ A [39]%N /\ ~ A [34]%N /\ ~ A [45; 45]%N /\ ~ A [46; 46; 46]%N.
  Lemma ok_smart c : ok_str code_point A c -> smart_text c.
  Proof.
    intros [_ H]. destruct HA as (H1 & H2 & H3 & H4).
    assert (W : forall w, w <> [] -> ~ In SP w -> ~ In LF w -> ~ A w -> ~ infix w c) by (intros w W1 W2 W3 W4 W5; apply W4, H; [split; auto|exact W5]).
    split; [|split; [|split]].
    - intros X. apply in_split in X as (l1 & l2 & ->). apply (W [39]%N); [discriminate|unfold SP; cbn; intuition discriminate|unfold LF; cbn; intuition discriminate|exact H1|]. exists l1, l2. reflexivity.
    - intros X. apply in_split in X as (l1 & l2 & ->). apply (W [34]%N); [discriminate|unfold SP; cbn; intuition discriminate|unfold LF; cbn; intuition discriminate|exact H2|]. exists l1, l2. reflexivity.
    - apply W; [discriminate|unfold SP; cbn; intuition discriminate|unfold LF; cbn; intuition discriminate|exact H3].
    - apply W; [discriminate|unfold SP; cbn; intuition discriminate|unfold LF; cbn; intuition discriminate|exact H4].
  Qed.
  Lemma process_sm b : forall t s, closed code_point A t -> refs_ok code_point (ip_refmap s) -> process_inlines t (sm b s) = rsm b (process_inlines t s) /\ (forall t' s', process_inlines t s = Ok (t', s') -> ip_refmap s' = ip_refmap s).
  Proof.
    induction t as [d k IH] using tree_ind'. intros s Hc Hr. apply tree_every_unfold in Hc as [Hc Hk]. destruct Hc as (_ & _ & _ & _ & _ & _ & _ & _ & C9).
    assert (Hgo : forall s, refs_ok code_point (ip_refmap s) -> process_all k (sm b s) = rsm b (process_all k s) /\ (forall t' s', process_all k s = Ok (t', s') -> ip_refmap s' = ip_refmap s)).
    { clear -IH Hk. induction IH as [|x l H1 _ IHl]; intros s Hs; cbn [process_all].
      - split; [reflexivity|]. intros t' s' E. injection E as <- <-. reflexivity.
      - inversion Hk as [|x0 l0 K1 K2]; subst. destruct (H1 s K1 Hs) as [E1 E2]. rewrite E1. destruct (process_inlines x s) as [[k' s1]|e]; cbn [rsm bind]; [|split; [reflexivity|discriminate]].
        specialize (E2 _ _ eq_refl). destruct (IHl K2 s1 ltac:(rewrite E2; exact Hs)) as [E3 E4]. rewrite E3. destruct (process_all l s1) as [[l' s2]|e]; cbn [rsm bind]; [|split; [reflexivity|discriminate]].
        specialize (E4 _ _ eq_refl). split; [reflexivity|]. intros t' s' E. injection E as <- <-. congruence. }
    rewrite !process_inlines_eq. destruct (is_container (n_t d)); [|split; [reflexivity|]; intros t' s' E; injection E as <- <-; reflexivity].
    destruct (Hgo s Hr) as [E1 E2]. rewrite E1. destruct (process_all k s) as [[k' s1]|e]; cbn [rsm bind]; [|split; [reflexivity|discriminate]]. specialize (E2 _ _ eq_refl).
    destruct (ntype_eqb (n_t d) paragraph || ntype_eqb (n_t d) heading) eqn:Eph; [|split; [reflexivity|]; intros t' s' E; injection E as <- <-; exact E2].
    assert (Hsc : exists sc, n_string_content d = Some sc /\ ok_str code_point A sc) by (unfold content_ok in C9; destruct (n_t d); try discriminate; [destruct C9 as (sc & K1 & K2 & _); eauto|exact C9]).
    destruct Hsc as (sc & Esc & Hsc). rewrite Esc. cbn [of_option bind]. rewrite parseInlines_sm; [|apply Hsc|rewrite E2; exact Hr|apply ok_smart, Hsc].
    pose proof (parseInlines_spec code_point plain_code (fun c H => H) sc s1 (proj1 Hsc) ltac:(rewrite E2; exact Hr)) as H.
    destruct (parseInlines sc s1) as [[inls s2]|e]; cbn [rsm bind]; [|split; [reflexivity|discriminate]]. split; [reflexivity|]. intros t' s' E. injection E as <- <-. destruct H as (_ & H & _). congruence.
  Qed.
End Tree.
Lemma trel_eq : forall t t', trel 0 0 C02_Rl t t' -> t' = t.
Proof.
  induction t as [d k IH] using tree_ind'. intros t' H. inversion H as [d1 d' k1 k' Hd Hk]; subst; apply drel_eq in Hd as ->.
  f_equal. clear - IH Hk. revert k' Hk. induction IH as [|x l Hx _ IHl]; intros k' Hk; inversion Hk; subst; [reflexivity|]. f_equal; auto.
Qed.
Lemma word_replace w s : ~ In 65533%N w -> infix w (replace_char 0 65533 s) -> infix w s.
Proof.
  unfold replace_char. intros Hw (p & q & E). apply map_eq_app in E as (p' & s1 & -> & _ & E). apply map_eq_app in E as (w' & q' & -> & E & _). exists p', q'. f_equal. f_equal.
  clear p' q' p q. revert w Hw E. induction w' as [|x w' IH]; intros w Hw E; [cbn in E; exact E|]. cbn [map] in E. destruct w as [|y w]; [discriminate|]. injection E as E1 E2.
  assert (x = y) as <-. { destruct (N.eqb x 0); [subst y; destruct Hw; left; reflexivity|exact E1]. }
  apply f_equal, IH; [|exact E2]. intros X. apply Hw. right. exact X.
Qed.
Theorem smart_same s : Forall code_point s -> smart_text s -> parse_doc true s = parse_doc false s.
Proof.
  intros Hs Ht. change (result (parse (new_parser true) s) = result (parse (new_parser false) s)). set (p := new_parser true). set (q := new_parser false).
  pose proof (result_total q s Hs) as Hf. pose proof (parse_blocks_spec code_point plain_code (fun c H => H) (fun w => infix w (replace_char 0 65533 s)) s q) as Hb.
  assert (Hok : ok_str code_point (fun w => infix w (replace_char 0 65533 s)) (replace_char 0 65533 s)).
  { split; [|auto]. unfold replace_char. apply Forall_forall. intros x Hx. apply in_map_iff in Hx as (y & <- & Hy). rewrite Forall_forall in Hs. destruct (N.eqb y 0); [unfold code_point; lia|apply Hs, Hy]. }
  specialize (Hb Hok). rewrite !parse_finish in *. pose proof (input_lines_ne s) as Hne. assert (Hne' : input_lines s <> []) by (intros E; rewrite E in Hne; cbn in Hne; lia).
  pose proof (lines_sim 0 C02_Rl True C02_hex (fun _ _ => True) no_pre no_pre_blank (input_lines s) (reset q) (reset p) (fun _ => eq_refl) Hne' eq_refl (srel_doc 0 0 C02_Rl True) eq_refl eq_refl eq_refl I) as H.
  unfold parse_blocks in Hb. destruct (incorporate_lines (input_lines s) (reset q)) as [q1|e] eqn:E1; cbn [bind] in *.
  - destruct H as (p1 & -> & H). cbn [bind]. unfold finish in *. pose proof (srel_len _ _ _ _ _ _ _ C02_hex _ _ _ (r_stack _ _ _ _ _ _ _ _ _ _ _ (r_0 _ _ _ _ _ _ _ _ _ _ _ H))) as [El _].
    pose proof (finalize_all_sim 0 0 0 None [] C02_Rl True C02_hex (fun _ _ => True) no_pre no_pre_blank (length (p_stack q1)) (length (p_stack p1)) (length (input_lines s)) q1 p1 ltac:(lia) H) as G. rewrite Nat.add_0_r in G.
    destruct (finalize_all (length (p_stack q1)) _ q1) as [q2|e] eqn:E; [|destruct e; cbn in G, Hf |- *; try rewrite G; try reflexivity; congruence]. cbn [bind] in *.
    destruct G as (p2 & -> & G1 & _ & d & k & d' & k' & G3 & _ & G5 & G6 & _ & _ & [[_ G9]|[[X _]|[X _]]]); [|discriminate|discriminate]. cbn [bind].
    assert (Ek : k' = k). { apply no_krel in G5. clear -G5. induction G5 as [|x y l l' Hx _ IH]; [reflexivity|]. f_equal; [apply trel_eq, Hx|exact IH]. }
    rewrite (G6 I), Ek in G9. rewrite G3, G9 in *. cbn [of_option bind] in *. destruct Hb as (t & Et & Hc & _ & _ & _ & Hr). apply Some_inj in Et as <-.
    set (iq := IP _ _ (p_refmap q2) _ _ _ _ _) in *. set (ip' := IP _ _ (p_refmap p2) _ _ _ _ _).
    assert (Hl : tree_every leaf_par (T d k)) by (eapply closed_leaf, Hc).
    destruct (process_sm (fun w => infix w (replace_char 0 65533 s))) with (b := p_smart p2) (t := T d k) (s := iq) as [P1 _]; [|exact Hc|exact Hr|].
    { destruct Ht as (T1 & T2 & T3 & T4). split; [|split; [|split]]; intros X; (apply word_replace in X; [|cbn; intuition discriminate]).
      - apply T1. destruct X as (a & z & ->). apply in_or_app. right. left. reflexivity.
      - apply T2. destruct X as (a & z & ->). apply in_or_app. right. left. reflexivity.
      - exact (T3 X).
      - exact (T4 X). }
    pose proof (process_inlines_sim 0 0 C02_Rl (T d k) (T d k)) as K. assert (Ht0 : trel 0 0 C02_Rl (T d k) (T d k)).
    { clear. induction (T d k) as [d0 k0 IH] using tree_ind'. constructor; [|clear -IH; induction IH; constructor; assumption]. exists (n_sourcepos d0). split; [destruct d0; reflexivity|].
      destruct (n_sourcepos d0) as [[[l c] [el ec]]|]; cbn [posrel]; [|exact I]. rewrite !Nat.add_0_r. split; [reflexivity|]. split; [reflexivity|]. right. split; reflexivity. }
    specialize (K Ht0 Hl (sm (p_smart p2) iq) ip' (conj G1 eq_refl)). rewrite P1 in K. destruct (process_inlines (T d k) iq) as [[t1 s1]|e]; cbn [rsm bind] in K, Hf |- *.
    + destruct K as ([t2 s2] & -> & K & _). cbn [fst] in K. apply prel_eq in K as ->. reflexivity.
    + destruct e; cbn in K, Hf |- *; try rewrite K; try reflexivity. congruence.
  - destruct e; cbn in H |- *; try rewrite H; try reflexivity. cbn in Hf. congruence.
Qed.

Theorem smart_same_doc s : Forall code_point s -> no_smart_marks s -> parse_doc true s = parse_doc false s.
Proof.
  intros Hs (H1 & H2 & H3 & H4). apply smart_same; [exact Hs|]. split; [exact H1|]. split; [exact H2|]. split; intros (a & b & E); [apply (H3 a b E)|apply (H4 a b E)].
Qed.

(** ** Runs of hyphens in a text *)
Lemma dash_match c s prev : match_at reDash prev (c :: s) =
  if N.eqb c 45 then match s with d :: _ => if N.eqb d 45 then Some (c :: take_while (N.eqb 45) s, drop_while (N.eqb 45) s, []) else None | [] => None end else None.
Proof.
  assert (Hc : forall x, cmatch dash_cs x = N.eqb x 45) by (intros x; unfold dash_cs; cm_unfold; lia). assert (Hc' : forall x, cmatch dash_cs x = N.eqb 45 x) by (intros x; rewrite Hc, N.eqb_sym; reflexivity).
  rewrite reDash_shape, match_at_results. cbn [results ms_rest]. rewrite Hc. destruct (N.eqb c 45); [|reflexivity]. cbn [flat_map ms_caps]. rewrite app_nil_r. change (times_res _ _ _) with (times_res (results (RChr dash_cs)) 1 (MS (Some c) s [])).
  match goal with |- context [match ?x with [] => None | _ => _ end] => change x with (results (RRep true 1 None (RChr dash_cs)) (MS (Some c) s [])) end. rewrite results_plus.
  destruct s as [|d s]; [reflexivity|]. rewrite Hc. destruct (N.eqb d 45) eqn:Ed; [|reflexivity]. pose proof (star_res_hd (cmatch dash_cs) s (Some d) []) as H. destruct (star_res _ _ _ _) as [|x l]; [discriminate|]. injection H as ->. cbn [ms_rest ms_caps].
  apply N.eqb_eq in Ed as ->. assert (Et : take_while (cmatch dash_cs) s = take_while (N.eqb 45) s /\ drop_while (cmatch dash_cs) s = drop_while (N.eqb 45) s).
  { clear -Hc'. induction s as [|x s [I1 I2]]; [split; reflexivity|]. cbn [take_while drop_while]. rewrite Hc'. destruct (N.eqb 45 x); [rewrite I1, I2; split; reflexivity|split; reflexivity]. }
  destruct Et as [E1 E2]. rewrite E2. cbn [take_while drop_while]. change (N.eqb 45 45) with true. cbv iota.
  assert (Hs : c :: 45%N :: s = (c :: 45%N :: take_while (N.eqb 45) s) ++ drop_while (N.eqb 45) s) by (cbn; rewrite take_drop_while; reflexivity). rewrite Hs at 1 2. rewrite firstn_sub. reflexivity.
Qed.
Lemma dash_end prev : match_at reDash prev [] = None.
Proof. rewrite reDash_shape, match_at_results. reflexivity. Qed.
Lemma run_repeat c s : take_while (N.eqb c) s = repeat c (length (take_while (N.eqb c) s)).
Proof. apply Forall_eq_repeat, Forall_forall. intros x Hx. pose proof (take_while_all (N.eqb c) s) as H. rewrite forallb_forall in H. apply H, N.eqb_eq in Hx. exact Hx. Qed.
Lemma dashed_sub : forall n s prev, length s < n -> dashed s (sub_loop n reDash (fun x => smart_dashes (rm_group x)) prev s).
Proof.
  induction n as [|n IH]; intros s prev Hn; [lia|]. cbn [sub_loop]. destruct s as [|c s]; [rewrite dash_end; constructor|]. rewrite dash_match. cbn [length] in Hn.
  destruct (N.eqb_spec c 45) as [->|Hc]; [|apply dashed_char; [exact Hc|apply IH; lia]].
  destruct s as [|d s]; [apply dashed_one; [discriminate|apply IH; cbn; lia]|]. destruct (N.eqb_spec d 45) as [->|Hd]; [|apply dashed_one; [intros X; injection X as X; congruence|apply IH; lia]].
  cbn [is_nil rm_group]. set (g := take_while (N.eqb 45) (45%N :: s)). set (q := drop_while (N.eqb 45) (45%N :: s)). assert (Es : 45%N :: s = g ++ q) by (symmetry; apply take_drop_while).
  assert (Eg : g = repeat 45%N (length g)) by apply run_repeat. assert (Hg : 1 <= length g) by (unfold g; cbn; lia).
  assert (Hq : hd_error q <> Some 45%N). { destruct q as [|x q'] eqn:Eq; [discriminate|]. intros X. injection X as ->. unfold q in Eq. apply drop_while_head in Eq. discriminate. }
  rewrite Es. change (45%N :: g ++ q) with ((45%N :: g) ++ q). destruct (dashes_spec (45%N :: g)) as (em & en & E & E2); [cbn; lia|]. rewrite E, <- app_assoc.
  replace (45%N :: g) with (repeat 45%N (S (length g))) by (cbn [repeat]; rewrite <- Eg; reflexivity). apply dashed_run; [lia|exact E2|exact Hq|]. apply IH. apply (f_equal (@length _)) in Es. rewrite app_length in Es. lia.
Qed.
Lemma dash_line_char c : letter_or_digit c \/ c = 32%N \/ c = 45%N -> main_special c = false /\ c <> 10%N /\ c <> 13%N /\ c <> 0%N /\ c <> 46%N /\ c <> 41%N /\ c <> 91%N.
Proof.
  intros [H|[-> | ->]]; [|repeat split; discriminate|repeat split; discriminate]. apply letter_spec in H as (_ & H1 & H2 & _ & H3 & H4 & H5 & _ & H6 & _).
  repeat split; auto; intros ->; discriminate.
Qed.
Theorem dash_line o s : ho_sourcepos o = false -> Forall (fun c => letter_or_digit c \/ c = 32%N \/ c = 45%N) s -> (exists c, hd_error s = Some c /\ letter_or_digit c) -> (exists c, last_opt s = Some c /\ is_space c = false) ->
  exists t, dashed s t /\ (exists d, parse_doc true s = Ok d /\ paragraph_of_text d t) /\ md_to_html true o s = Ok (one_paragraph (html_text t)).
Proof.
  intros Ho Hl (c & Hc & Hc') (d & Hd & Hd'). set (t := re_sub reDash (fun x => smart_dashes (rm_group x)) s).
  assert (Hin : forall x, In x s -> letter_or_digit x \/ x = 32%N \/ x = 45%N) by (apply Forall_forall; exact Hl). exists t. split; [apply dashed_sub; lia|]. apply text_para_md; [exact Ho|].
  destruct (line_para true s (fun k => k = [text_node t])) as (dd & pd & k & E & D1 & D2 & _ & ->).
  - intros ->. discriminate.
  - intros x Hx. apply Hin, dash_line_char in Hx. tauto.
  - intros Hx. apply Hin, dash_line_char in Hx. tauto.
  - intros x Hx. rewrite Hc in Hx. apply Some_inj in Hx as <-. pose proof (dash_line_char c (or_introl Hc')). apply letter_spec in Hc' as (_ & H1 & H2 & H3). split; [exact H1|tauto].
  - intros x Hx. rewrite Hd in Hx. apply Some_inj in Hx as <-. exact Hd'.
  - destruct s as [|x r]; [discriminate|]. apply Some_inj in Hc as ->. apply no_start_text; [apply letter_spec in Hc'; tauto|]. intros (ds & x & q & El & _ & _ & Hx & _).
    specialize (Hin x ltac:(rewrite El; apply in_or_app; right; left; reflexivity)). apply dash_line_char in Hin. destruct Hx; tauto.
  - intros rm st. assert (Hne : s <> []) by (intros ->; discriminate).
    assert (Hm : forallb (fun c => negb (main_special c)) s = true) by (apply forallb_forall; intros x Hx; apply Hin, dash_line_char in Hx as (-> & _); reflexivity).
    assert (Est : parseInline st = Ok (true, append_kid (text_node t) (ip_adv (length s) st))).
    { pose proof (match_main st s [] ltac:(cbn; rewrite app_nil_r; reflexivity) Hne Hm ltac:(discriminate)) as M. unfold parseInline.
      destruct s as [|x r]; [congruence|]. rewrite (peek_skipn st x r eq_refl). assert (Hx : main_special x = false) by (cbn [forallb] in Hm; destruct (main_special x); [discriminate|reflexivity]).
      unfold main_special in Hx. cbn [existsb] in Hx. repeat rewrite orb_false_iff in Hx. destruct Hx as (C1 & C2 & C3 & C4 & C5 & C6 & C7 & C8 & C9 & C10 & C11 & C12 & _). change LF with 10%N. rewrite C1, C2, C3, C4, C5, C6, C7, C8, C9, C10, C11, C12. cbn [orb].
      unfold parseString. rewrite M. cbn [st ip_smart bind]. assert (N1 : re_search reEllipses (x :: r) = None); [|rewrite (re_sub_none _ _ _ N1); reflexivity].
      apply (search_infix _ [46; 46; 46]%N); [vm_compute; reflexivity| |].
      - intros p g q H. rewrite reEllipses_shape in H. cbn [RegexLang.L] in H. destruct H as (g1 & g2 & -> & (c1 & -> & K1) & g3 & g4 & -> & (c3 & -> & K3) & c4 & -> & K4). apply dot_spec in K1, K3, K4. subst. exists [], []. reflexivity.
      - intros (a & b & X). assert (Hi : In 46%N (x :: r)) by (rewrite X; apply in_or_app; right; left; reflexivity). apply Hin, dash_line_char in Hi. tauto. }
    eexists _, _, _, _. split; [|split].
    + destruct s as [|x r]; [congruence|]. cbn [length]. rewrite (loop_step _ _ _ Est). apply loop_end. cbn. apply skipn_all.
    + cbn. reflexivity.
    + reflexivity.
  - eexists. split; [exact E|]. exists dd, pd, [t]. cbn. rewrite app_nil_r. auto.
Qed.
