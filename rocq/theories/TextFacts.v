(** * Inline parsing of plain text *)
From Verif Require Import Base Regex Common NormRef Node Inlines Blocks Html Main RegexFacts StrFacts Spec SpecTree SpecSame
  TreeFacts CommonFacts StrProp InlineFacts HtmlFacts RenderFacts BlockFacts LineFacts ParseFacts Sim SimFacts SameHtml DocFacts.
From Verif Require RegexLang.
From Coq Require Import ZifyBool ZifyNat ZifyN.

(** ** The first character of a match *)
Fixpoint begins (r : regex) (c : N) : bool :=
  match r with
  | RChr cs => cmatch cs c
  | RSeq a b => begins a c || (RegexLang.nullable a && begins b c)
  | RAlt a b => begins a c || begins b c
  | RRep _ _ _ a | RGrp _ a => begins a c
  | _ => false
  end.
Fixpoint firsts (r : regex) : list cset :=
  match r with
  | RChr cs => [cs]
  | RSeq a b => firsts a ++ (if RegexLang.nullable a then firsts b else [])
  | RAlt a b => firsts a ++ firsts b
  | RRep _ _ _ a | RGrp _ a => firsts a
  | _ => []
  end.
Lemma begins_firsts r c : begins r c = existsb (fun cs => cmatch cs c) (firsts r).
Proof.
  induction r as [|cs|a IHa b IHb|a IHa b IHb|gr mn mx a IHa|n a IHa| | | |neg a IHa]; cbn [begins firsts existsb]; rewrite ?orb_false_r; try reflexivity; try assumption.
  - rewrite existsb_app, IHa. f_equal. destruct (RegexLang.nullable a); [exact IHb|reflexivity].
  - rewrite existsb_app, IHa, IHb. reflexivity.
Qed.
(** The goal [begins r c = b] for a given pattern becomes one about the code point [c] *)
Ltac firsts_calc := rewrite begins_firsts; match goal with |- context [firsts ?r] => let v := eval vm_compute in (firsts r) in change (firsts r) with v end; cbn [existsb]; cm_unfold; unfold fold_icase, in_range.
Lemma begins_L r : forall p g q c s, RegexLang.L r p g q -> g ++ q = c :: s -> begins r c = false -> g = [].
Proof.
  induction r as [|cs|a IHa b IHb|a IHa b IHb|gr mn mx a IHa|n a IHa| | | |neg a IHa]; intros p g q c s H E Hb; cbn [RegexLang.L begins] in H, Hb; try (exact H || apply H).
  - destruct H as (x & -> & Hx). injection E as -> _. congruence.
  - destruct H as (g1 & g2 & -> & H1 & H2). apply orb_false_iff in Hb as [B1 B2]. rewrite <- app_assoc in E. pose proof (IHa _ _ _ _ _ H1 E B1) as ->. cbn [app] in *.
    destruct (RegexLang.nullable a) eqn:En; [exact (IHb _ _ _ _ _ H2 E B2)|]. destruct (RegexLang.L_nonempty a En _ _ _ H1 eq_refl).
  - apply orb_false_iff in Hb as [B1 B2]. destruct H as [H|H]; eauto.
  - destruct H as (k & _ & _ & H). revert p g q s H E. induction k as [|k IHk]; intros p g q s H E; cbn [RegexLang.Lrep] in H; [exact H|].
    destruct H as (g1 & g2 & -> & H1 & H2). rewrite <- app_assoc in E. pose proof (IHa _ _ _ _ _ H1 E Hb) as ->. cbn [app] in *. eapply IHk; eauto.
  - eauto.
Qed.
Lemma begins_none r p c s : RegexLang.good r = true -> RegexLang.nullable r = false -> begins r c = false -> match_at r p (c :: s) = None.
Proof.
  intros Hg Hn Hb. apply RegexLang.match_at_none_L; [exact Hg|]. intros g a E H. pose proof (begins_L r p g a c s H (eq_sym E) Hb) as ->. destruct (RegexLang.L_nonempty r Hn _ _ _ H eq_refl).
Qed.
Lemma begins_search r c s : RegexLang.good r = true -> RegexLang.nullable r = false -> begins r c = false -> re_search (RSeq RBol r) (c :: s) = None.
Proof. intros Hg Hn Hb. rewrite re_search_bol, begins_none by assumption. reflexivity. Qed.

(** ** Substitution without a match *)
Lemma sub_loop_none r f : forall s fu prev, length s < fu -> (forall p q, s = p ++ q -> match_at r (prev_of prev p) q = None) -> sub_loop fu r f prev s = s.
Proof.
  induction s as [|c s IH]; intros fu prev Hf H; (destruct fu as [|fu]; [cbn in Hf; lia|]); cbn [sub_loop].
  - rewrite (H [] [] eq_refl : match_at r prev [] = None). reflexivity.
  - rewrite (H [] (c :: s) eq_refl : match_at r prev (c :: s) = None). f_equal. apply IH; [cbn in Hf; lia|]. intros p q ->. specialize (H (c :: p) q eq_refl).
    replace (prev_of prev (c :: p)) with (prev_of (Some c) p) in H; [exact H|]. change (c :: p) with ([c] ++ p). rewrite prev_of_app. reflexivity.
Qed.
Lemma re_sub_none r f s : re_search r s = None -> re_sub r f s = s.
Proof. intros H. apply sub_loop_none; [lia|]. apply re_search_none. exact H. Qed.

(** ** Runs of ordinary characters *)
Definition main_special (c : N) : bool := existsb (N.eqb c) [10; 96; 91; 93; 92; 33; 60; 38; 42; 95; 39; 34]%N.
Definition main_cs : cset := match reMain with RSeq _ (RRep _ _ _ (RChr cs)) => cs | _ => CS false false [] end.
Lemma reMain_shape : reMain = RSeq RBolM (RRep true 1 None (RChr main_cs)).
Proof. vm_compute. reflexivity. Qed.
Lemma main_cs_spec c : cmatch main_cs c = negb (main_special c).
Proof.
  assert (E : main_cs = CS true false [CRange 10 10; CRange 96 96; CRange 91 91; CRange 93 93; CRange 92 92; CRange 33 33; CRange 60 60; CRange 38 38; CRange 42 42; CRange 95 95; CRange 39 39; CRange 34 34]) by (vm_compute; reflexivity).
  rewrite E. unfold main_special. cm_unfold. cbn [existsb]. lia.
Qed.
Lemma take_while_app_stop {A} (f : A -> bool) g q : forallb f g = true -> (forall c q', q = c :: q' -> f c = false) -> take_while f (g ++ q) = g /\ drop_while f (g ++ q) = q.
Proof.
  induction g as [|x g IH]; intros Hg Hq; cbn [app].
  - destruct q as [|c q]; [split; reflexivity|]. cbn [take_while drop_while]. rewrite (Hq c q eq_refl). split; reflexivity.
  - cbn [forallb] in Hg. apply andb_true_iff in Hg as [H1 H2]. destruct (IH H2 Hq) as [E1 E2]. cbn [take_while drop_while]. rewrite H1, E1, E2. split; reflexivity.
Qed.
Lemma forallb_ext {A} (f g : A -> bool) l : (forall x, f x = g x) -> forallb f l = forallb g l.
Proof. intros H. induction l as [|x l IH]; [reflexivity|]. cbn [forallb]. rewrite H, IH. reflexivity. Qed.
Lemma match_main s g q : skipn (ip_pos s) (ip_subject s) = g ++ q -> g <> [] -> forallb (fun c => negb (main_special c)) g = true ->
  (forall c q', q = c :: q' -> main_special c = true) -> ip_match reMain s = Some (g, ip_adv (length g) s).
Proof.
  intros E Hg Hm Hq. unfold ip_match. rewrite E. unfold re_search. destruct g as [|c g]; [congruence|].
  assert (Em : match_at reMain None ((c :: g) ++ q) = Some (c :: g, q, [])).
  { rewrite reMain_shape. unfold match_at. cbn [mtch ms_prev]. 
    change (match_at (RRep true 1 None (RChr main_cs)) None ((c :: g) ++ q) = Some (c :: g, q, [])). rewrite match_at_plus. cbn [app]. rewrite main_cs_spec.
    assert (Hf : forallb (cmatch main_cs) (c :: g) = true) by (rewrite <- Hm; apply forallb_ext; intros x; apply main_cs_spec).
    destruct (take_while_app_stop (cmatch main_cs) (c :: g) q Hf) as [E1 E2]; [intros x q' ->; rewrite main_cs_spec, (Hq x q' eq_refl); reflexivity|].
    cbn [app] in E1, E2. rewrite E1, E2. cbn [forallb] in Hm. apply andb_true_iff in Hm as [-> _]. reflexivity. }
  cbn [app search_from] in *. rewrite Em. cbn [rm_group]. reflexivity.
Qed.

Lemma search_chars r s : RegexLang.good r = true -> RegexLang.nullable r = false -> (forall c, In c s -> begins r c = false) -> match_at r None [] = None -> re_search r s = None.
Proof.
  intros Hg Hn H _. apply re_search_none. intros p q ->. destruct q as [|c q].
  - apply RegexLang.match_at_none_L; [exact Hg|]. intros g a E HL. symmetry in E. apply app_eq_nil in E as [-> ->]. destruct (RegexLang.L_nonempty r Hn _ _ _ HL eq_refl).
  - apply begins_none; [exact Hg|exact Hn|]. apply H. apply in_or_app. right. left. reflexivity.
Qed.
Lemma peek_skipn s c r : skipn (ip_pos s) (ip_subject s) = c :: r -> ip_peek s = Some c.
Proof. intros E. unfold ip_peek. rewrite <- (Nat.add_0_r (ip_pos s)), <- nth_error_skipn, E. reflexivity. Qed.
Lemma peek_end s : skipn (ip_pos s) (ip_subject s) = [] -> ip_peek s = None.
Proof. intros E. unfold ip_peek. rewrite <- (Nat.add_0_r (ip_pos s)), <- nth_error_skipn, E. reflexivity. Qed.
Lemma skipn_adv s g q n : skipn (ip_pos s) (ip_subject s) = g ++ q -> n = length g -> skipn (ip_pos s + n) (ip_subject s) = q.
Proof.
  intros E ->. assert (H : forall {A} a b (l : list A), skipn (a + b) l = skipn b (skipn a l)).
  { intros A a. induction a as [|a IH]; intros b l; [reflexivity|]. destruct l; [cbn [Nat.add skipn]; rewrite skipn_nil; reflexivity|apply IH]. }
  rewrite H, E. rewrite skipn_app, skipn_all, Nat.sub_diag. reflexivity.
Qed.

(** [s'] is [s] further on, with more text children *)
Definition adds (s s' : ip) (ls : list str) : Prop :=
  ip_subject s' = ip_subject s /\ ip_refmap s' = ip_refmap s /\ ip_smart s' = ip_smart s /\ ip_delims s' = ip_delims s /\ ip_brackets s' = ip_brackets s /\
  map snd (ip_kids s') = map snd (ip_kids s) ++ map text_node ls.
Lemma adds_nil s : adds s s [].
Proof. unfold adds. cbn [map]. rewrite app_nil_r. auto 10. Qed.
Lemma adds_trans a b c l l' : adds a b l -> adds b c l' -> adds a c (l ++ l').
Proof. intros (A1 & A2 & A3 & A4 & A5 & A6) (B1 & B2 & B3 & B4 & B5 & B6). unfold adds. rewrite B6, A6, map_app, app_assoc. repeat split; congruence. Qed.
Lemma adds_one s n l : adds s (append_kid (text_node l) (ip_adv n s)) [l].
Proof. unfold adds. cbn [append_kid ip_adv set_ip_pos set_ip_next set_ip_kids ip_subject ip_refmap ip_smart ip_delims ip_brackets ip_kids]. rewrite map_app. auto 10. Qed.

Lemma step_run s g q : skipn (ip_pos s) (ip_subject s) = g ++ q -> g <> [] -> forallb (fun c => negb (main_special c)) g = true ->
  (forall c q', q = c :: q' -> main_special c = true) -> (ip_smart s = true -> re_search reEllipses g = None /\ re_search reDash g = None) ->
  parseInline s = Ok (true, append_kid (text_node g) (ip_adv (length g) s)).
Proof.
  intros E Hg Hm Hq Hs. pose proof (match_main s g q E Hg Hm Hq) as M. destruct g as [|c g]; [congruence|]. unfold parseInline. rewrite (peek_skipn s c (g ++ q) E).
  cbn [forallb] in Hm. apply andb_true_iff in Hm as [Hc _]. unfold main_special in Hc. cbn [existsb] in Hc.
  rewrite !negb_orb in Hc. repeat rewrite andb_true_iff in Hc. destruct Hc as (C1 & C2 & C3 & C4 & C5 & C6 & C7 & C8 & C9 & C10 & C11 & C12 & _).
  apply negb_true_iff in C1, C2, C3, C4, C5, C6, C7, C8, C9, C10, C11, C12. change LF with 10%N. rewrite C1, C2, C3, C4, C5, C6, C7, C8, C9, C10, C11, C12. cbn [orb].
  unfold parseString. rewrite M. destruct (ip_smart s); [|reflexivity]. destruct (Hs eq_refl) as [H1 H2]. rewrite (re_sub_none _ _ _ H1), (re_sub_none _ _ _ H2). reflexivity.
Qed.
Definition esc_items : list citem := ltac:(let v := eval vm_compute in (match reEscapable with RSeq _ (RChr cs) => cs_items cs | _ => [] end) in exact v).
Lemma reEscapable_shape : reEscapable = RSeq RBol (RChr (CS false false esc_items)).
Proof. vm_compute. reflexivity. Qed.
Lemma escapable_test c : re_test reEscapable [c] = ascii_punct c.
Proof.
  rewrite reEscapable_shape, re_test_bol, match_at_chr. assert (H : cmatch (CS false false esc_items) c = ascii_punct c); [|rewrite H; destruct (ascii_punct c); reflexivity].
  unfold esc_items. cm_unfold. unfold ascii_punct, in_range. lia.
Qed.
Lemma step_escape s c q : skipn (ip_pos s) (ip_subject s) = 92%N :: c :: q -> ascii_punct c = true -> parseInline s = Ok (true, append_kid (text_node [c]) (ip_adv 2 s)).
Proof.
  intros E Hc. unfold parseInline. rewrite (peek_skipn s _ _ E). change (N.eqb 92 LF) with false. change (N.eqb 92 92) with true. cbv iota.
  unfold parseBackslash. assert (Ep : ip_peek (ip_adv 1 s) = Some c). { apply peek_skipn with (r := q). cbn [ip_adv set_ip_pos ip_pos ip_subject]. apply (skipn_adv s [92%N]); [exact E|reflexivity]. }
  unfold peek_is. rewrite Ep. assert (Hl : N.eqb c LF = false) by (apply N.eqb_neq; intros ->; discriminate Hc). rewrite Hl. unfold ip_peek in Ep. rewrite Ep, escapable_test, Hc. cbn [bind].
  do 2 f_equal. unfold append_kid, ip_adv. cbn [set_ip_pos set_ip_next set_ip_kids ip_subject ip_pos ip_refmap ip_smart ip_delims ip_brackets ip_kids ip_next]. rewrite <- Nat.add_assoc. reflexivity.
Qed.

Lemma loop_step fu s s1 : parseInline s = Ok (true, s1) -> inline_loop (S fu) s = inline_loop fu s1.
Proof. intros E. cbn [inline_loop]. rewrite E. reflexivity. Qed.
Lemma loop_end fu s : skipn (ip_pos s) (ip_subject s) = [] -> inline_loop (S fu) s = Ok s.
Proof. intros E. cbn [inline_loop]. unfold parseInline. rewrite (peek_end s E). reflexivity. Qed.
Lemma dash_start c : begins reDash c = N.eqb c 45.
Proof. firsts_calc. lia. Qed.
Lemma dots_start c : begins reEllipses c = N.eqb c 46.
Proof. firsts_calc. lia. Qed.
Lemma no_smart g : ~ In 45%N g -> ~ In 46%N g -> re_search reEllipses g = None /\ re_search reDash g = None.
Proof.
  intros H1 H2. split; (apply search_chars; [vm_compute; reflexivity|vm_compute; reflexivity| |vm_compute; reflexivity]); intros c Hc.
  - rewrite dots_start. apply N.eqb_neq. intros ->. auto.
  - rewrite dash_start. apply N.eqb_neq. intros ->. auto.
Qed.
Lemma escape_run g : forallb (fun c => negb (ascii_punct c)) g = true -> backslash_escape g = g.
Proof. intros H. apply flat_map_id. intros c Hc. rewrite forallb_forall in H. specialize (H c Hc). destruct (ascii_punct c); [discriminate|reflexivity]. Qed.
Lemma punct_main c : c <> 10%N -> ascii_punct c = false -> main_special c = false.
Proof. unfold main_special, ascii_punct, in_range. cbn [existsb]. lia. Qed.
(** A backslash before every punctuation character: the children are text, and spell the text *)
Lemma escaped_loop : forall n s st fu, length s <= n -> skipn (ip_pos st) (ip_subject st) = backslash_escape s -> ~ In 10%N s -> length (backslash_escape s) < fu ->
  exists st' ls, inline_loop fu st = Ok st' /\ adds st st' ls /\ concat ls = s.
Proof.
  induction n as [|n IH]; intros s st fu Hn E Hl Hf; (destruct fu as [|fu]; [lia|]).
  - destruct s; [|cbn in Hn; lia]. exists st, []. split; [apply loop_end; exact E|]. split; [apply adds_nil|reflexivity].
  - destruct s as [|c s]; [exists st, []; split; [apply loop_end; exact E|]; split; [apply adds_nil|reflexivity]|].
    destruct (ascii_punct c) eqn:Ec.
    + assert (E1 : backslash_escape (c :: s) = 92%N :: c :: backslash_escape s) by (unfold backslash_escape; cbn [flat_map]; rewrite Ec; reflexivity). rewrite E1 in E, Hf.
      rewrite (loop_step _ _ _ (step_escape st c _ E Ec)).
      destruct (IH s (append_kid (text_node [c]) (ip_adv 2 st)) fu) as (st' & ls & G1 & G2 & G3); [cbn in Hn; lia| |intros X; apply Hl; right; exact X|cbn in Hf; lia|].
      { cbn [append_kid ip_adv set_ip_pos set_ip_next set_ip_kids ip_subject ip_pos]. apply (skipn_adv st [92%N; c]); [exact E|reflexivity]. }
      exists st', ([c] :: ls). split; [exact G1|]. split; [|cbn [concat app]; rewrite G3; reflexivity]. apply (adds_trans st _ st' [[c]] ls (adds_one st 2 [c]) G2).
    + set (f := fun c => negb (ascii_punct c)). set (g := take_while f (c :: s)). set (q := drop_while f (c :: s)). assert (Es : c :: s = g ++ q) by (symmetry; apply take_drop_while).
      assert (Hg : g <> []) by (unfold g; cbn [take_while]; unfold f at 1; rewrite Ec; discriminate). assert (Hf' : forallb f g = true) by apply take_while_all.
      assert (Hq : forall x q', q = x :: q' -> ascii_punct x = true) by (intros x q' Eq; unfold q in Eq; apply drop_while_head in Eq; unfold f in Eq; destruct (ascii_punct x); [reflexivity|discriminate]).
      clearbody g q. rewrite Es in *. assert (Eb : backslash_escape (g ++ q) = g ++ backslash_escape q) by (unfold backslash_escape at 1; rewrite flat_map_app; fold (backslash_escape g); rewrite (escape_run g Hf'); reflexivity). rewrite Eb in E, Hf.
      assert (Hgp : forall x, In x g -> ascii_punct x = false) by (intros x Hx; rewrite forallb_forall in Hf'; specialize (Hf' x Hx); unfold f in Hf'; destruct (ascii_punct x); [discriminate|reflexivity]).
      rewrite (loop_step _ _ _ (step_run st g (backslash_escape q) E Hg ltac:(apply forallb_forall; intros x Hx; rewrite punct_main; [reflexivity|intros ->; apply Hl, in_or_app; left; exact Hx|auto])
        ltac:(intros x q' Eq; destruct q as [|y q]; [discriminate|]; unfold backslash_escape in Eq; cbn [flat_map] in Eq; rewrite (Hq y q eq_refl) in Eq; injection Eq as <- _; reflexivity)
        ltac:(intros _; apply no_smart; intros X; apply Hgp in X; discriminate X))).
      assert (0 < length g) by (destruct g; [congruence|cbn; lia]). rewrite !app_length in *.
      destruct (IH q (append_kid (text_node g) (ip_adv (length g) st)) fu) as (st' & ls & G1 & G2 & G3); [lia| |intros X; apply Hl, in_or_app; right; exact X|lia|].
      { cbn [append_kid ip_adv set_ip_pos set_ip_next set_ip_kids ip_subject ip_pos]. apply (skipn_adv st g); [exact E|reflexivity]. }
      exists st', (g :: ls). split; [exact G1|]. split; [|cbn [concat]; rewrite G3; reflexivity]. apply (adds_trans st _ st' [g] ls (adds_one st _ g) G2).
Qed.

(** ** A paragraph of text *)
Lemma strip_line s : s <> [] -> (forall c, hd_error s = Some c -> is_space c = false) -> (forall c, last_opt s = Some c -> is_space c = false) -> strip (s ++ [LF]) = s.
Proof.
  intros Hs H1 H2. destruct s as [|c s]; [congruence|]. unfold strip, strip_left. cbn [app drop_while]. rewrite (H1 c eq_refl). change (c :: s ++ [LF]) with ((c :: s) ++ [LF]). unfold strip_right. rewrite rev_app_distr. cbn [rev app drop_while].
  change (is_space LF) with true. cbv iota. change (rev s ++ [c]) with (rev (c :: s)). destruct (rev (c :: s)) as [|x l] eqn:E; [exfalso; apply (f_equal (@rev N)) in E; rewrite rev_involutive in E; discriminate|].
  assert (El : last_opt (c :: s) = Some x). { rewrite <- (rev_involutive (c :: s)), E. cbn [rev]. apply last_opt_snoc. }
  cbn [drop_while]. rewrite (H2 x El). rewrite <- E. apply rev_involutive.
Qed.
Lemma texts_html o anc ls : forall st, exists l, html_events o (flat_map (events anc) (map text_node ls)) st = Ok (HS (h_buf st ++ escape_xml (concat ls)) l (h_dis st)).
Proof.
  induction ls as [|x ls IH]; intros st.
  - exists (h_last st). cbn [map flat_map html_events concat]. change (escape_xml []) with (@nil N). rewrite app_nil_r. destruct st; reflexivity.
  - cbn [map flat_map]. rewrite html_events_app. change (events anc (text_node x)) with [EV (text_node x) true anc]. unfold text_node. cbn [html_events].
    change (html_node o (text_data x) anc true st) with (Ok (h_out (Some x) st)). cbn [bind]. destruct (IH (h_out (Some x) st)) as (l & E). unfold text_node in E. rewrite E. exists l.
    unfold h_out, h_lit. cbn [h_buf h_last h_dis escape_xml_opt concat]. rewrite escape_xml_app, <- app_assoc. reflexivity.
Qed.
Lemma para_html o dd pd k s : ho_sourcepos o = false -> n_t dd = document -> n_t pd = paragraph -> 
  (forall st, h_dis st = 0%Z -> exists l, html_events o (flat_map (events [pd; dd]) k) st = Ok (HS (h_buf st ++ s) l (h_dis st))) ->
  render_html o (T dd [T pd k]) = Ok (u "<p>" ++ s ++ u "</p>" ++ [LF]).
Proof.
  intros Ho Ed Ep Hk. unfold render_html. rewrite html_document by exact Ed. cbn [flat_map]. rewrite app_nil_r. cbn [events]. rewrite Ep. change (is_container paragraph) with true. cbv iota. cbn [html_events].
  assert (En : forall e st, html_node o pd [dd] e st = Ok (if e then h_tag (u "p") [] false (h_cr st) else h_cr (h_tag0 (u "/p") st))).
  { intros e st. unfold html_node. rewrite Ep. unfold h_paragraph, attrs_of. rewrite Ho. reflexivity. }
  rewrite En. cbn [bind]. rewrite html_events_app.
  change (h_tag (u "p") [] false (h_cr (HS [] [LF] (h_dis new_html)))) with (HS (u "<p>") (u ">") 0).
  destruct (Hk (HS (u "<p>") (u ">") 0) eq_refl) as (l & ->). cbn [bind html_events]. rewrite En. cbn [bind h_buf h_dis].
  unfold h_tag0, h_tag. cbn [h_dis]. change (Z.ltb 0 0) with false. cbv iota. unfold h_cr. cbn [h_last]. change (str_eqb (u ">") [LF]) with false. cbv iota. unfold h_lit. cbn [h_buf flat_map]. rewrite <- !app_assoc. reflexivity.
Qed.

(** ** Lines that start no block *)
Definition start_char (c : N) : bool := existsb (N.eqb c) [62; 60; 35; 96; 126; 42; 95; 45; 43]%N.
Definition ord_re : regex := ltac:(let v := eval vm_compute in (match reOrderedListMarker with RSeq _ r => r | r => r end) in exact v).
Lemma reOrdered_shape : reOrderedListMarker = RSeq RBol ord_re.
Proof. vm_compute. reflexivity. Qed.
Lemma no_start_marker c r : start_char c = false -> (forall m, re_search reOrderedListMarker (c :: r) = Some m -> exists x, nth_error (c :: r) (length (rm_group m)) = Some x /\ x <> SP /\ x <> TAB) -> no_start (c :: r).
Proof.
  intros Hc Ho. assert (Hne : forall x, In x [62; 60; 35; 96; 126; 42; 95; 45; 43]%N -> c <> x).
  { intros x Hx ->. unfold start_char in Hc. assert (G : existsb (N.eqb x) [62; 60; 35; 96; 126; 42; 95; 45; 43]%N = true) by (apply existsb_exists; exists x; split; [exact Hx|apply N.eqb_refl]). congruence. }
  clear Hc. unfold no_start. split; [|split; [|split; [|split; [|split]]]].
  - cbn [hd_error]. intros E. injection E as ->. apply (Hne 62%N); cbn; tauto.
  - cbn [hd_error]. intros E. injection E as ->. apply (Hne 60%N); cbn; tauto.
  - assert (E : reATXHeadingMarker = RSeq RBol (match reATXHeadingMarker with RSeq _ r => r | r => r end)) by (vm_compute; reflexivity). rewrite E. clear E. apply begins_search; [vm_compute; reflexivity|vm_compute; reflexivity|].
    firsts_calc. pose proof (Hne 35%N ltac:(cbn; tauto)). lia.
  - apply re_search_none. intros p q E. destruct p as [|x p].
    + cbn [app] in E. subst q. apply begins_none; [vm_compute; reflexivity|vm_compute; reflexivity|].
      firsts_calc. pose proof (Hne 96%N ltac:(cbn; tauto)). pose proof (Hne 126%N ltac:(cbn; tauto)). lia.
    + destruct (prev_of_cons None x p) as (y & Ey). rewrite Ey. apply RegexLang.match_at_none_L; [vm_compute; reflexivity|]. intros g a _ H.
      assert (Es : reCodeFence = RAlt (RSeq RBol (match reCodeFence with RAlt (RSeq _ r) _ => r | r => r end)) (RSeq RBol (match reCodeFence with RAlt _ (RSeq _ r) => r | r => r end))) by (vm_compute; reflexivity).
      rewrite Es in H. cbn [RegexLang.L] in H. destruct H as [(g1 & g2 & _ & [_ H] & _)|(g1 & g2 & _ & [_ H] & _)]; discriminate H.
  - unfold re_test. assert (E : reThematicBreak = RSeq RBol (match reThematicBreak with RSeq _ r => r | r => r end)) by (vm_compute; reflexivity). rewrite E. clear E. rewrite begins_search; [reflexivity|vm_compute; reflexivity|vm_compute; reflexivity|].
    firsts_calc. pose proof (Hne 42%N ltac:(cbn; tauto)). pose proof (Hne 95%N ltac:(cbn; tauto)). pose proof (Hne 45%N ltac:(cbn; tauto)). lia.
  - intros i m dt. unfold list_marker. assert (E : reBulletListMarker = RSeq RBol (match reBulletListMarker with RSeq _ r => r | r => r end)) by (vm_compute; reflexivity). rewrite E. clear E. rewrite begins_search; [|vm_compute; reflexivity|vm_compute; reflexivity|].
    { destruct (re_search reOrderedListMarker (c :: r)) as [mm|] eqn:Em; [|discriminate]. cbn [negb orb]. intros X. apply Some_inj in X. assert (Eg : rm_group mm = m) by congruence. rewrite <- Eg. apply Ho. reflexivity. }
    firsts_calc. pose proof (Hne 42%N ltac:(cbn; tauto)). pose proof (Hne 43%N ltac:(cbn; tauto)). pose proof (Hne 45%N ltac:(cbn; tauto)). lia.
Qed.
Lemma no_start_plain c r : start_char c = false -> re_search reOrderedListMarker (c :: r) = None -> no_start (c :: r).
Proof. intros Hc Ho. apply no_start_marker; [exact Hc|]. intros m Hm. congruence. Qed.
Lemma decimal_punct c : is_decimal c = true -> ascii_punct c = false.
Proof.
  intros H. destruct (ascii_punct c) eqn:E; [|reflexivity]. exfalso. assert (Hc : (c < 128)%N) by (unfold ascii_punct, in_range in E; lia).
  assert (B : below 128 (fun c => negb (ascii_punct c) || negb (is_decimal c)) = true) by (vm_compute; reflexivity). pose proof (below_spec _ _ B c Hc) as G. cbv beta in G. rewrite E, H in G. discriminate.
Qed.
(** what an ordered list marker looks like *)
Lemma ordered_marker l m : re_search reOrderedListMarker l = Some m -> exists ds x r, l = ds ++ x :: r /\ ds <> [] /\ Forall (fun c => is_decimal c = true) ds /\ (x = 46%N \/ x = 41%N) /\ rm_group m = ds ++ [x].
Proof.
  rewrite reOrdered_shape, re_search_bol. destruct (match_at ord_re None l) as [[[g a] caps]|] eqn:E; [|discriminate]. intros H. apply Some_inj in H as <-. cbn [rm_group].
  apply RegexLang.match_at_L in E as [-> H]; [|vm_compute; reflexivity]. unfold ord_re in H. destruct H as (g1 & g2 & -> & H1 & (x & -> & Hx)).
  change (RegexLang.L (RRep true 1 (Some 9) (RChr (CS false false [CDigit]))) None g1 ([x] ++ a)) in H1.
  apply RegexLang.L_rep_chr in H1 as (H1 & _ & H3). exists g1, x, a. rewrite <- app_assoc. split; [reflexivity|]. split; [intros ->; cbn in H1; lia|].
  split; [eapply Forall_impl; [|exact H3]; intros c Hc; cm_unfold_in Hc; rewrite orb_false_r in Hc; exact Hc|]. split; [cm_unfold_in Hx; lia|reflexivity].
Qed.
Lemma escape_no_marker : forall ds s x r, Forall (fun c => ascii_punct c = false) ds -> ascii_punct x = true -> x <> 92%N -> backslash_escape s <> ds ++ x :: r.
Proof.
  induction ds as [|d ds IH]; intros s x r Hd Hx H92 E; destruct s as [|c s]; try discriminate E; unfold backslash_escape in E; cbn [flat_map] in E; fold (backslash_escape s) in E.
  - destruct (ascii_punct c) eqn:Ec; injection E as E _; congruence.
  - inversion Hd as [|? ? D1 D2]; subst. destruct (ascii_punct c) eqn:Ec; cbn [app] in E; injection E as E1 E2; [subst d; discriminate D1|]. eapply IH; eauto.
Qed.
Lemma escape_no_ordered s : re_search reOrderedListMarker (backslash_escape s) = None.
Proof.
  destruct (re_search reOrderedListMarker (backslash_escape s)) as [m|] eqn:E; [|reflexivity]. exfalso. apply ordered_marker in E as (ds & x & r & E & _ & Hd & Hx & _).
  apply escape_no_marker in E; [exact E| |destruct Hx as [-> | ->]; reflexivity|destruct Hx as [-> | ->]; discriminate]. eapply Forall_impl; [|exact Hd]. intros c. apply decimal_punct.
Qed.

(** ** C19 *)
Lemma escape_ne s : s <> [] -> backslash_escape s <> [].
Proof. destruct s as [|c s]; [congruence|]. intros _. unfold backslash_escape. cbn [flat_map]. destruct (ascii_punct c); discriminate. Qed.
Lemma escape_in s c : In c (backslash_escape s) -> c = 92%N \/ In c s.
Proof. unfold backslash_escape. intros H. apply in_flat_map in H as (x & Hx & H). destruct (ascii_punct x); [destruct H as [<-|[<-|[]]]|destruct H as [<-|[]]]; auto. Qed.
Lemma escape_hd s c : hd_error (backslash_escape s) = Some c -> c = 92%N \/ (ascii_punct c = false /\ hd_error s = Some c).
Proof. destruct s as [|x s]; [discriminate|]. unfold backslash_escape. cbn [flat_map]. destruct (ascii_punct x) eqn:E; cbn [app hd_error]; intros H; injection H as <-; auto. Qed.
Lemma escape_last s : s <> [] -> last_opt (backslash_escape s) = last_opt s.
Proof.
  destruct s as [|x s _] using rev_ind; [congruence|]. intros _. unfold backslash_escape. rewrite flat_map_app. cbn [flat_map]. rewrite app_nil_r, last_opt_snoc.
  destruct (ascii_punct x); [|apply last_opt_snoc]. change [92%N; x] with ([92%N] ++ [x]). rewrite app_assoc. apply last_opt_snoc.
Qed.
Lemma emphasis_none ks next : processEmphasis None [] ks next = Ok ([], ks, next).
Proof. reflexivity. Qed.
Definition text_para (t : tree) (s : str) : Prop :=
  exists dd pd ls, t = T dd [T pd (map text_node ls)] /\ n_t dd = document /\ n_t pd = paragraph /\ concat ls = s.
Lemma text_para_html o t s : ho_sourcepos o = false -> text_para t s -> render_html o t = Ok (u "<p>" ++ escape_xml s ++ u "</p>" ++ [LF]).
Proof.
  intros Ho (dd & pd & ls & -> & D1 & D2 & <-). apply para_html; [exact Ho|exact D1|exact D2|]. intros st _. apply texts_html.
Qed.
(** a line that is one paragraph *)
Lemma line_para smart l (Pk : list tree -> Prop) : l <> [] -> no_eol l -> ~ In 0%N l -> (forall c, hd_error l = Some c -> is_space c = false /\ c <> 91%N) -> (forall c, last_opt l = Some c -> is_space c = false) -> no_start l ->
  (forall rm, let st := IP l 0 rm smart [] [] [] 0 in exists st' ds' ks' n', inline_loop (S (length l)) st = Ok st' /\ processEmphasis None (ip_delims st') (ip_kids st') (ip_next st') = Ok (ds', ks', n') /\ Pk (map snd ks')) ->
  exists dd pd k, parse_doc smart l = Ok (T dd [T pd k]) /\ n_t dd = document /\ n_t pd = paragraph /\ n_sourcepos pd = Some (1, 1, (1, length l)) /\ Pk k.
Proof.
  intros Hne He H0 Hh Hl Hn Hloop. destruct l as [|c r]; [congruence|]. destruct (Hh c eq_refl) as [Hc H91].
  assert (Er : replace_char 0 65533 (c :: r) = c :: r). { unfold replace_char. rewrite <- (map_id (c :: r)) at 2. apply map_ext_in. intros x Hx. destruct (N.eqb_spec x 0) as [->|]; [contradiction|reflexivity]. }
  destruct (one_para smart (c :: r) 0 c r He Er ltac:(lia) Hc H91 Hn) as (dd & pd & s0 & D1 & D2 & D3 & D4 & D5 & ->).
  change (c :: r ++ [LF]) with ((c :: r) ++ [LF]). unfold parseInlines. rewrite strip_line by (assumption || (intros x Hx; apply Hh, Hx)). rewrite D5.
  destruct (Hloop (ip_refmap s0)) as (st' & ds' & ks' & n' & -> & E2 & Hk). cbn [bind]. rewrite E2. cbn [bind].
  exists dd, pd, (map snd ks'). auto 10.
Qed.
(** whose inline parsing adds only text *)
Lemma text_line smart l s : l <> [] -> no_eol l -> ~ In 0%N l -> (forall c, hd_error l = Some c -> is_space c = false /\ c <> 91%N) -> (forall c, last_opt l = Some c -> is_space c = false) -> no_start l ->
  (forall st, skipn (ip_pos st) (ip_subject st) = l -> ip_smart st = smart -> ip_brackets st = [] -> exists st' ls, inline_loop (S (length l)) st = Ok st' /\ adds st st' ls /\ concat ls = s) ->
  exists t, parse_doc smart l = Ok t /\ text_para t s.
Proof.
  intros Hne He H0 Hh Hl Hn Hloop. destruct (line_para smart l (fun k => exists ls, k = map text_node ls /\ concat ls = s) Hne He H0 Hh Hl Hn) as (dd & pd & k & E & D1 & D2 & _ & ls & -> & Hc).
  - intros rm st. destruct (Hloop st eq_refl eq_refl eq_refl) as (st' & ls & E & (A1 & A2 & A3 & A4 & A5 & A6) & Ec). exists st', [], (ip_kids st'), (ip_next st'). split; [exact E|]. rewrite A4. split; [apply emphasis_none|]. exists ls. split; [exact A6|exact Ec].
  - eexists. split; [exact E|]. exists dd, pd, ls. auto.
Qed.
Theorem escaped_text smart s : s <> [] -> no_eol s -> ~ In 0%N s -> (forall c, hd_error s = Some c \/ last_opt s = Some c -> is_space c = false) ->
  exists t, parse_doc smart (backslash_escape s) = Ok t /\ text_para t s.
Proof.
  intros Hne He H0 Hw. apply text_line.
  - apply escape_ne, Hne.
  - intros c Hc. apply escape_in in Hc as [->|Hc]; [split; discriminate|apply He, Hc].
  - intros Hc. apply escape_in in Hc as [Hc|Hc]; [discriminate|auto].
  - intros c Hc. apply escape_hd in Hc as [->|[Hp Hc]]; [split; [reflexivity|discriminate]|]. split; [auto|intros ->; discriminate Hp].
  - intros c Hc. rewrite escape_last in Hc by exact Hne. auto.
  - destruct (backslash_escape s) as [|c r] eqn:E; [destruct (escape_ne s Hne E)|]. apply no_start_plain; [|rewrite <- E; apply escape_no_ordered].
    assert (Hc : hd_error (backslash_escape s) = Some c) by (rewrite E; reflexivity). apply escape_hd in Hc as [->|[Hp _]]; [reflexivity|]. unfold start_char, ascii_punct, in_range in *. cbn [existsb]. lia.
  - intros st E _ _. apply (escaped_loop (length s)); [lia|exact E|intros X; apply He in X; destruct X; congruence|lia].
Qed.
