(** * Lines without markup, words with underscores, code spans: C20, C29, C22 *)
From Verif Require Import Base Regex Common NormRef Node Inlines Blocks Html Main RegexFacts StrFacts Spec SpecTree SpecSame
  TreeFacts CommonFacts StrProp EmphFacts InlineFacts HtmlFacts RenderFacts BlockFacts LineFacts ParseFacts Sim SimFacts SameHtml DocFacts TextFacts.
From Verif Require RegexLang.
From Coq Require Import ZifyBool ZifyNat ZifyN.

(** ** C20 *)
(** characters that are always text (given there is no opening bracket), with smart off *)
Definition tame (c : N) : bool := negb (existsb (N.eqb c) [10; 13; 0; 96; 91; 92; 60; 38; 42; 95]%N).
Lemma step_single s c q : skipn (ip_pos s) (ip_subject s) = c :: q -> In c [33; 93; 39; 34]%N -> ip_brackets s = [] -> ip_smart s = false -> hd_error q <> Some 91%N ->
  parseInline s = Ok (true, append_kid (text_node [c]) (ip_adv 1 s)).
Proof.
  intros E Hc Hb Hs Hq. unfold parseInline. rewrite (peek_skipn s _ _ E). destruct Hc as [<-|[<-|[<-|[<-|[]]]]]; cbn [N.eqb Pos.eqb LF orb].
  - unfold parseBang. assert (Ep : peek_is 91 (ip_adv 1 s) = false).
    { unfold peek_is. destruct q as [|d q].
      - rewrite peek_end; [reflexivity|]. cbn [ip_adv set_ip_pos ip_pos ip_subject]. apply (skipn_adv s [33%N]); [exact E|reflexivity].
      - rewrite (peek_skipn _ d q); [apply N.eqb_neq; intros ->; apply Hq; reflexivity|]. cbn [ip_adv set_ip_pos ip_pos ip_subject]. apply (skipn_adv s [33%N]); [exact E|reflexivity]. }
    rewrite Ep. reflexivity.
  - unfold parseCloseBracket. change (ip_brackets (ip_adv 1 s)) with (ip_brackets s). rewrite Hb. reflexivity.
  - rewrite Hs. reflexivity.
  - rewrite Hs. reflexivity.
Qed.
Lemma tame_main c : tame c = true -> main_special c = true -> In c [33; 93; 39; 34]%N.
Proof. unfold tame, main_special. cbn [existsb In]. lia. Qed.
Lemma tame_loop : forall n s st fu, length s <= n -> skipn (ip_pos st) (ip_subject st) = s -> forallb tame s = true -> ip_brackets st = [] -> ip_smart st = false -> length s < fu ->
  exists st' ls, inline_loop fu st = Ok st' /\ adds st st' ls /\ concat ls = s.
Proof.
  induction n as [|n IH]; intros s st fu Hn E Ht Hb Hs Hf; (destruct fu as [|fu]; [lia|]).
  - destruct s; [|cbn in Hn; lia]. exists st, []. split; [apply loop_end; exact E|]. split; [apply adds_nil|reflexivity].
  - destruct s as [|c s]; [exists st, []; split; [apply loop_end; exact E|]; split; [apply adds_nil|reflexivity]|]. pose proof Ht as Ht0. cbn [forallb] in Ht. apply andb_true_iff in Ht as [Hc Ht].
    destruct (main_special c) eqn:Ec.
    + assert (Hq : hd_error s <> Some 91%N) by (intros X; destruct s as [|d s]; [discriminate|]; injection X as ->; cbn [forallb] in Ht; discriminate Ht).
      rewrite (loop_step _ _ _ (step_single st c s E (tame_main c Hc Ec) Hb Hs Hq)).
      destruct (IH s (append_kid (text_node [c]) (ip_adv 1 st)) fu) as (st' & ls & G1 & G2 & G3); [cbn in Hn; lia| |exact Ht|exact Hb|exact Hs|cbn in Hf; lia|].
      { cbn [append_kid ip_adv set_ip_pos set_ip_next set_ip_kids ip_subject ip_pos]. apply (skipn_adv st [c]); [exact E|reflexivity]. }
      exists st', ([c] :: ls). split; [exact G1|]. split; [|cbn [concat app]; rewrite G3; reflexivity]. apply (adds_trans st _ st' [[c]] ls (adds_one st 1 [c]) G2).
    + set (f := fun c => negb (main_special c)). set (g := take_while f (c :: s)). set (q := drop_while f (c :: s)). assert (Es : c :: s = g ++ q) by (symmetry; apply take_drop_while).
      assert (Hg : g <> []) by (unfold g; cbn [take_while]; unfold f at 1; rewrite Ec; discriminate). assert (Hf' : forallb f g = true) by apply take_while_all.
      assert (Hq : forall x q', q = x :: q' -> main_special x = true) by (intros x q' Eq; unfold q in Eq; apply drop_while_head in Eq; unfold f in Eq; destruct (main_special x); [reflexivity|discriminate]).
      clearbody g q. rewrite Es in *.
      rewrite (loop_step _ _ _ (step_run st g q E Hg Hf' Hq ltac:(intros X; congruence))).
      assert (0 < length g) by (destruct g; [congruence|cbn; lia]). rewrite forallb_app in Ht0. apply andb_true_iff in Ht0 as [_ Ht0]. rewrite !app_length in *.
      destruct (IH q (append_kid (text_node g) (ip_adv (length g) st)) fu) as (st' & ls & G1 & G2 & G3); [lia| |exact Ht0|exact Hb|exact Hs|lia|].
      { cbn [append_kid ip_adv set_ip_pos set_ip_next set_ip_kids ip_subject ip_pos]. apply (skipn_adv st g); [exact E|reflexivity]. }
      exists st', (g :: ls). split; [exact G1|]. split; [|cbn [concat]; rewrite G3; reflexivity]. apply (adds_trans st _ st' [g] ls (adds_one st _ g) G2).
Qed.

Lemma no_start_text c r : start_char c = false -> ~ list_number (c :: r) -> no_start (c :: r).
Proof.
  intros Hc Hn. apply no_start_marker; [exact Hc|]. intros m Hm. apply ordered_marker in Hm as (ds & x & q & E & D1 & D2 & D3 & ->). rewrite E.
  destruct q as [|y q]; [destruct Hn; exists ds, x, []; auto 10|]. exists y. split; [|split; intros ->; apply Hn; exists ds, x; eexists; (split; [exact E|]); cbn [hd_error]; auto 10].
  rewrite app_length. cbn [length]. rewrite nth_error_app2 by lia. replace (length ds + 1 - length ds) with 1 by lia. reflexivity.
Qed.
Lemma esc_char_html c : esc_char c = html_char c.
Proof. unfold esc_char, html_char. repeat match goal with |- context [N.eqb ?a ?b] => destruct (N.eqb_spec a b) end; subst; reflexivity || lia. Qed.
Lemma escape_xml_html s : escape_xml s = html_text s.
Proof. rewrite escape_xml_flat_map. unfold html_text. apply flat_map_ext, esc_char_html. Qed.
Lemma last_opt_last (l : str) d : l <> [] -> last_opt l = Some (last l d).
Proof. intros H. destruct (exists_last H) as (a & x & ->). rewrite last_opt_snoc, last_last. reflexivity. Qed.
Lemma plain_tame l : Forall ordinary_char l -> forallb tame l = true.
Proof.
  intros H. apply forallb_forall. intros x Hx. rewrite Forall_forall in H. specialize (H x Hx). unfold tame. apply negb_true_iff. destruct (existsb _ _) eqn:E; [|reflexivity]. exfalso. apply H.
  apply existsb_exists in E as (y & Hy & E). apply N.eqb_eq in E as ->. exact Hy.
Qed.
Lemma last_opt_In (s : str) c : last_opt s = Some c -> In c s.
Proof. destruct s as [|x s _] using rev_ind; [discriminate|]. rewrite last_opt_snoc. intros H. injection H as ->. apply in_or_app. right. left. reflexivity. Qed.
Theorem plain_line l : l <> [] -> Forall ordinary_char l -> (forall c, hd_error l = Some c -> is_space c = false /\ ~ block_char c) -> (forall c, last_opt l = Some c -> is_space c = false) -> ~ list_number l ->
  exists t, parse_doc false l = Ok t /\ text_para t l.
Proof.
  intros Hne Hp Hh Hl Hn. assert (Hin : forall x, In x l -> ~ In x [10; 13; 0; 96; 91; 92; 60; 38; 42; 95]%N) by (apply Forall_forall; exact Hp). apply text_line; try assumption.
  - intros x Hx. apply Hin in Hx. cbn [In] in Hx. split; intros ->; apply Hx; tauto.
  - intros Hx. apply Hin in Hx. cbn [In] in Hx. tauto.
  - intros c Hc. split; [apply Hh, Hc|]. intros ->. destruct l as [|x l]; [discriminate|]. injection Hc as ->. apply (Hin 91%N); cbn [In]; tauto.
  - destruct l as [|c r]; [congruence|]. apply no_start_text; [|exact Hn]. destruct (Hh c eq_refl) as [_ Hb]. unfold start_char. destruct (existsb _ _) eqn:E; [|reflexivity]. exfalso. apply Hb.
    apply existsb_exists in E as (y & Hy & E). apply N.eqb_eq in E as ->. exact Hy.
  - intros st E Es Eb. apply (tame_loop (length l)); auto. apply plain_tame, Hp.
Qed.

(** ** C29 *)
Definition item_avoids (lo hi : N) (i : citem) : bool := match i with CRange x y => N.ltb hi x || N.ltb y lo | _ => false end.
Definition cs_avoids (lo hi : N) (cs : cset) : bool := negb (cs_neg cs) && negb (cs_icase cs) && forallb (item_avoids lo hi) (cs_items cs).
Lemma avoids_cmatch lo hi cs c : cs_avoids lo hi cs = true -> (lo <= c <= hi)%N -> cmatch cs c = false.
Proof.
  unfold cs_avoids, cmatch. intros H Hc. apply andb_true_iff in H as [H H3]. apply andb_true_iff in H as [H1 H2]. apply negb_true_iff in H1, H2. rewrite H1, H2, xorb_false_l.
  destruct (existsb _ _) eqn:E; [|reflexivity]. apply existsb_exists in E as (i & Hi & E). rewrite forallb_forall in H3. specialize (H3 i Hi). destruct i; try discriminate H3. cbn in H3, E. unfold in_range in E. lia.
Qed.
Lemma avoids_begins lo hi r c : forallb (cs_avoids lo hi) (firsts r) = true -> (lo <= c <= hi)%N -> begins r c = false.
Proof.
  intros H Hc. rewrite begins_firsts. destruct (existsb _ _) eqn:E; [|reflexivity]. apply existsb_exists in E as (cs & Hi & E). rewrite forallb_forall in H. rewrite (avoids_cmatch lo hi cs c (H cs Hi) Hc) in E. discriminate.
Qed.
Definition word_check (p : N * N) : bool := let '(lo, hi) := p in forallb (cs_avoids lo hi) (firsts rePunctuation).
Lemma letters_check : forallb word_check letter_ranges = true.
Proof. vm_compute. reflexivity. Qed.
Lemma letter_spec c : letter_or_digit c -> re_test rePunctuation [c] = false /\ is_space c = false /\ main_special c = false /\ start_char c = false /\ c <> 0%N /\ c <> 46%N /\ c <> 41%N /\ c <> 45%N /\ c <> 13%N /\ c <> 160%N.
Proof.
  intros (lo & hi & Hi & Hc). split.
  - unfold re_test. rewrite search_chars; [reflexivity|vm_compute; reflexivity|vm_compute; reflexivity| |vm_compute; reflexivity]. intros x [<-|[]]. apply (avoids_begins lo hi); [|exact Hc].
    pose proof letters_check as H. rewrite forallb_forall in H. apply (H (lo, hi) Hi).
  - unfold letter_ranges in Hi. cbn [In] in Hi. unfold is_space, main_special, start_char, in_range. cbn [existsb].
    repeat match type of Hi with _ \/ _ => destruct Hi as [Hi|Hi] | False => destruct Hi end; injection Hi as <- <-; lia.
Qed.
Lemma letter_space c : letter_or_digit c -> re_test reUnicodeWhitespaceChar [c] || N.eqb c 160 = false.
Proof.
  intros H. apply letter_spec in H as (_ & H & _ & _ & _ & _ & _ & _ & _ & H160). apply orb_false_iff. split; [|apply N.eqb_neq, H160].
  assert (E : reUnicodeWhitespaceChar = RSeq RBol (RChr (CS false false [CSpace]))) by (vm_compute; reflexivity). rewrite E, re_test_bol, match_at_chr. cm_unfold. rewrite H. reflexivity.
Qed.
Definition no_close (l : list delim) : Prop := Forall (fun d => d_can_close d = false) l.
Lemma handle_underscores s a c g d q : ip_subject s = a ++ [c] ++ g ++ d :: q -> ip_pos s = length (a ++ [c]) -> g <> [] -> forallb (N.eqb 95) g = true -> letter_or_digit c -> letter_or_digit d ->
  exists dl, handleDelim 95 s = Ok (true, set_ip_delims (dl :: ip_delims s) (append_kid (text_node g) (ip_adv (length g) s))) /\ d_can_close dl = false.
Proof.
  intros E Ep Hg Ha Hc Hd. unfold handleDelim, scanDelims. assert (Ek : skipn (ip_pos s) (ip_subject s) = g ++ d :: q). { rewrite E, Ep, app_assoc. rewrite skipn_app, skipn_all, Nat.sub_diag. reflexivity. }
  rewrite Ek. change (N.eqb 95 39 || N.eqb 95 34) with false. cbv iota.
  assert (Hd95 : N.eqb 95 d = false). { apply letter_spec in Hd as (_ & _ & Hd & _). unfold main_special in Hd. cbn [existsb] in Hd. lia. }
  destruct (take_while_app_stop (N.eqb 95) g (d :: q) Ha) as [E1 _]; [intros ? ? X; injection X as <- <-; exact Hd95|]. rewrite E1.
  destruct (Nat.eqb_spec (length g) 0) as [Z|_]; [destruct g; [congruence|discriminate Z]|].
  assert (Eb : (if Nat.eqb (ip_pos s) 0 then LF else nth (ip_pos s - 1) (ip_subject s) LF) = c).
  { rewrite Ep, app_length. cbn [length]. destruct (Nat.eqb_spec (length a + 1) 0) as [Z|_]; [lia|]. rewrite E. replace (length a + 1 - 1) with (length a) by lia. rewrite app_nth2, Nat.sub_diag by lia. reflexivity. }
  rewrite Eb. assert (Ea : nth (ip_pos s + length g) (ip_subject s) LF = d).
  { rewrite E, Ep, app_assoc. rewrite app_nth2 by lia. replace (length (a ++ [c]) + length g - length (a ++ [c])) with (length g) by lia. rewrite app_nth2, Nat.sub_diag by lia. reflexivity. }
  rewrite Ea. rewrite (letter_space c Hc), (letter_space d Hd). destruct (letter_spec c Hc) as (-> & _). destruct (letter_spec d Hd) as (-> & _). cbn [negb orb andb]. change (N.eqb 95 95) with true. cbv iota.
  change (N.eqb 95 39) with false. change (N.eqb 95 34) with false. cbv iota. eexists. split.
  - assert (Es : slice (ip_pos s) (ip_pos (ip_adv (length g) s)) (ip_subject (ip_adv (length g) s)) = g).
    { unfold slice. cbn [ip_adv set_ip_pos ip_pos ip_subject]. rewrite Ek. replace (ip_pos s + length g - ip_pos s) with (length g) by lia. rewrite firstn_app, firstn_all, Nat.sub_diag. apply app_nil_r. }
    rewrite Es. reflexivity.
  - reflexivity.
Qed.
Definition wadds (s s' : ip) (ls : list str) : Prop := no_close (ip_delims s') /\ map snd (ip_kids s') = map snd (ip_kids s) ++ map text_node ls.
Lemma words_loop : forall n s a st fu, length s <= n -> ip_subject st = a ++ s -> ip_pos st = length a -> Forall (fun c => letter_or_digit c \/ c = 95%N) s -> 
  (hd_error s = Some 95%N -> exists c, last_opt a = Some c /\ letter_or_digit c) -> (s <> [] -> exists c, last_opt s = Some c /\ letter_or_digit c) -> no_close (ip_delims st) -> length s < fu ->
  exists st' ls, inline_loop fu st = Ok st' /\ wadds st st' ls /\ concat ls = s.
Proof.
  induction n as [|n IH]; intros s a st fu Hn E Ep Hs Hh Hl Hd Hf; (destruct fu as [|fu]; [lia|]).
  - destruct s; [|cbn in Hn; lia]. exists st, []. split; [apply loop_end; rewrite E, Ep, skipn_app, skipn_all, Nat.sub_diag; reflexivity|]. split; [split; [exact Hd|cbn [map]; rewrite app_nil_r; reflexivity]|reflexivity].
  - assert (Ek : skipn (ip_pos st) (ip_subject st) = s) by (rewrite E, Ep, skipn_app, skipn_all, Nat.sub_diag; reflexivity).
    destruct s as [|c s]; [exists st, []; split; [apply loop_end; exact Ek|]; split; [split; [exact Hd|cbn [map]; rewrite app_nil_r; reflexivity]|reflexivity]|].
    set (f := if N.eqb 95 c then N.eqb 95 else fun c => negb (main_special c)). set (g := take_while f (c :: s)). set (q := drop_while f (c :: s)). assert (Es : c :: s = g ++ q) by (symmetry; apply take_drop_while).
    assert (Hc : f c = true). { unfold f. destruct (N.eqb_spec 95 c) as [<-|Hne]; [reflexivity|]. inversion Hs as [|? ? [Hc|Hc] _]; subst; [|congruence]. apply letter_spec in Hc as (_ & _ & -> & _). reflexivity. }
    assert (Hg : g <> []) by (unfold g; cbn [take_while]; rewrite Hc; discriminate). assert (Hf' : forallb f g = true) by apply take_while_all.
    assert (Hq : forall x q', q = x :: q' -> f x = false) by (intros x q' Eq; unfold q in Eq; apply drop_while_head in Eq; exact Eq).
    clearbody g q. assert (Hcg : hd_error g = Some c) by (destruct g as [|x g]; [congruence|injection Es as -> _; reflexivity]).
    assert (Hlq : q <> [] -> exists c, last_opt q = Some c /\ letter_or_digit c).
    { intros Hne. destruct Hl as (x & Hx & Hx'); [discriminate|]. exists x. split; [|exact Hx']. rewrite Es, RegexFacts.last_opt_app in Hx. rewrite (last_opt_last q 0%N Hne) in *. exact Hx. }
    rewrite Es in Hs. pose proof Hs as Hs0. apply Forall_app in Hs as [Hsg Hsq]. rewrite Es in Ek, E. assert (0 < length g) by (destruct g; [congruence|cbn; lia]).
    assert (Hlen : length (c :: s) = length g + length q) by (rewrite Es; apply app_length).
    assert (Hfq : forall x, letter_or_digit x \/ x = 95%N -> f x = false -> if N.eqb 95 c then letter_or_digit x else x = 95%N).
    { intros x Hx. unfold f. destruct (N.eqb 95 c); [intros Z; destruct Hx as [Hx|Hx]; [exact Hx|]; apply N.eqb_neq in Z; congruence|]. intros Z. destruct Hx as [Hx|Hx]; [|exact Hx]. apply letter_spec in Hx as (_ & _ & Hx & _). rewrite Hx in Z. discriminate. }
    assert (Hgg : forall x, In x g -> if N.eqb 95 c then x = 95%N else letter_or_digit x).
    { intros x Hx. rewrite Forall_forall in Hsg. specialize (Hsg x Hx). rewrite forallb_forall in Hf'. specialize (Hf' x Hx). unfold f in Hf'. destruct (N.eqb 95 c); [apply N.eqb_eq in Hf'; congruence|]. destruct Hsg as [Hsg| ->]; [exact Hsg|discriminate Hf']. }
    destruct (N.eqb_spec 95 c) as [Z|Hne].
    + subst c. destruct (Hh eq_refl) as (p & Hp & Hp'). assert (Hqne : q <> []).
      { intros ->. rewrite app_nil_r in Es. destruct Hl as (x & Hx & Hx'); [discriminate|]. rewrite Es in Hx. rewrite (Hgg x) in Hx' by (apply last_opt_In; exact Hx). apply letter_spec in Hx' as (_ & _ & Hx' & _). discriminate Hx'. }
      destruct q as [|d q]; [congruence|]. assert (Hd' : letter_or_digit d) by (apply (Hfq d); [inversion Hsq; assumption|apply (Hq d q eq_refl)]).
      destruct a as [|p0 l _] using rev_ind; [discriminate|]. rewrite last_opt_snoc in Hp. apply Some_inj in Hp as ->. rewrite <- app_assoc in E.
      destruct (handle_underscores st l p g d q E Ep Hg Hf' Hp' Hd') as (dl & Eh & Hdl).
      assert (Est : parseInline st = Ok (true, set_ip_delims (dl :: ip_delims st) (append_kid (text_node g) (ip_adv (length g) st)))).
      { unfold parseInline. rewrite (peek_skipn st 95%N s); [|rewrite Ek, <- Es; reflexivity]. cbn [N.eqb Pos.eqb LF orb]. rewrite Eh. reflexivity. }
      rewrite (loop_step _ _ _ Est). clear Est Eh.
      destruct (IH (d :: q) ((l ++ [p]) ++ g) (set_ip_delims (dl :: ip_delims st) (append_kid (text_node g) (ip_adv (length g) st))) fu) as (st' & ls & G1 & [G2 G4] & G3).
      * cbn in Hlen, Hn |- *. lia.
      * cbn [set_ip_delims append_kid ip_adv set_ip_pos set_ip_next set_ip_kids ip_subject]. rewrite E. rewrite <- !app_assoc. reflexivity.
      * cbn [set_ip_delims append_kid ip_adv set_ip_pos set_ip_next set_ip_kids ip_pos]. rewrite (app_length (l ++ [p])). lia.
      * exact Hsq.
      * intros X. injection X as ->. apply letter_spec in Hd' as (_ & _ & Hd' & _). discriminate Hd'.
      * exact Hlq.
      * constructor; [exact Hdl|exact Hd].
      * cbn in Hlen, Hf |- *. lia.
      * exists st', (g :: ls). split; [exact G1|]. split; [split; [exact G2|]|cbn [concat]; rewrite G3; symmetry; exact Es].
        rewrite G4. cbn [set_ip_delims append_kid ip_adv set_ip_pos set_ip_next set_ip_kids ip_kids map]. rewrite map_app, <- app_assoc. reflexivity.
    + assert (Est : parseInline st = Ok (true, append_kid (text_node g) (ip_adv (length g) st))).
      { apply (step_run st g q Ek Hg).
        - rewrite forallb_forall. intros x Hx. apply Hgg in Hx. apply letter_spec in Hx as (_ & _ & -> & _). reflexivity.
        - intros x q' ->. rewrite (Hfq x); [reflexivity|inversion Hsq; assumption|apply (Hq x q' eq_refl)].
        - intros _. apply no_smart; intros Hx; apply Hgg in Hx; apply letter_spec in Hx; tauto. }
      rewrite (loop_step _ _ _ Est). clear Est.
      destruct (IH q (a ++ g) (append_kid (text_node g) (ip_adv (length g) st)) fu) as (st' & ls & G1 & [G2 G4] & G3).
      * lia.
      * cbn [append_kid ip_adv set_ip_pos set_ip_next set_ip_kids ip_subject]. rewrite E. apply app_assoc.
      * cbn [append_kid ip_adv set_ip_pos set_ip_next set_ip_kids ip_pos]. rewrite app_length. lia.
      * exact Hsq.
      * intros _. rewrite RegexFacts.last_opt_app. rewrite (last_opt_last g 0%N Hg). exists (last g 0%N). split; [reflexivity|]. apply Hgg. destruct (exists_last Hg) as (b & y & ->). rewrite last_last. apply in_or_app. right. left. reflexivity.
      * exact Hlq.
      * exact Hd.
      * lia.
      * exists st', (g :: ls). split; [exact G1|]. split; [split; [exact G2|]|cbn [concat]; rewrite G3; symmetry; exact Es].
        rewrite G4. cbn [append_kid ip_adv set_ip_pos set_ip_next set_ip_kids ip_kids map]. rewrite map_app, <- app_assoc. reflexivity.
Qed.

Lemma no_close_loop : forall l fu p bottom, pe_cur p = l -> no_close l -> length l < fu -> exists p', pe_loop fu bottom p = Ok p' /\ pe_kids p' = pe_kids p.
Proof.
  induction l as [|c l IH]; intros fu p bottom E H Hf; (destruct fu as [|fu]; [lia|]); cbn [pe_loop]; rewrite E.
  - exists p. auto.
  - inversion H as [|? ? H1 H2]; subst. unfold pe_step. rewrite H1. cbn [negb bind]. destruct (IH fu (PE (c :: pe_left p) l (pe_ob p) (pe_odd p) (pe_kids p) (pe_next p)) bottom eq_refl H2) as (p' & E' & E''); [cbn in Hf; lia|]. exists p'. split; [exact E'|exact E''].
Qed.
Lemma measure_length l : length l <= delims_measure l.
Proof. induction l as [|d l IH]; [cbn; lia|]. unfold delims_measure in *. cbn [fold_right length]. lia. Qed.
Lemma closer_length bottom : forall l acc lft cur, first_closer bottom l acc = (lft, cur) -> length cur <= length l + length acc /\ (no_close l -> no_close acc -> no_close cur).
Proof.
  induction l as [|d l IH]; intros acc lft cur; cbn [first_closer].
  - intros H. injection H as <- <-. split; [cbn; lia|intros; constructor].
  - destruct (id_eqb (hd_id l) bottom).
    + intros H. injection H as <- <-. split; [cbn; lia|]. intros H1 H2. inversion H1; subst. constructor; assumption.
    + intros H. apply IH in H as [H1 H2]. split; [cbn in H1 |- *; lia|]. intros N1 N2. inversion N1; subst. apply H2; [assumption|constructor; assumption].
Qed.
Lemma emphasis_no_close bottom ds ks n : no_close ds -> exists ds' n', processEmphasis bottom ds ks n = Ok (ds', ks, n').
Proof.
  intros H. unfold processEmphasis. destruct (first_closer bottom ds []) as [lft cur] eqn:E. apply closer_length in E as [E1 E2]. destruct cur as [|c cur]; [eexists _, _; reflexivity|].
  destruct (no_close_loop (c :: cur) (S (delims_measure ds)) (PE lft (c :: cur) (OB bottom bottom bottom bottom) false ks n) bottom eq_refl) as (p' & -> & E').
  - apply E2; [exact H|constructor].
  - pose proof (measure_length ds). cbn [length] in *. lia.
  - cbn [bind]. rewrite E'. eexists _, _. reflexivity.
Qed.
Theorem word_line smart l : Forall (fun c => letter_or_digit c \/ c = 95%N) l -> (exists c, hd_error l = Some c /\ letter_or_digit c) -> (exists c, last_opt l = Some c /\ letter_or_digit c) ->
  exists t, parse_doc smart l = Ok t /\ text_para t l.
Proof.
  intros Hl (c & Hc & Hc') (d & Hd & Hd'). assert (Hin : forall x, In x l -> letter_or_digit x \/ x = 95%N) by (apply Forall_forall; exact Hl).
  destruct (line_para smart l (fun k => exists ls, k = map text_node ls /\ concat ls = l)) as (dd & pd & k & E & D1 & D2 & _ & ls & -> & Hcc).
  - intros ->. discriminate.
  - intros x Hx. apply Hin in Hx as [Hx| ->]; [|split; discriminate]. apply letter_spec in Hx as (_ & H1 & H2 & H3). split; intros ->; discriminate H1.
  - intros Hx. apply Hin in Hx as [Hx|Hx]; [|discriminate]. apply letter_spec in Hx. tauto.
  - intros x Hx. rewrite Hc in Hx. apply Some_inj in Hx as <-. apply letter_spec in Hc' as (_ & H1 & H2 & H3). split; [exact H1|intros ->; discriminate H2].
  - intros x Hx. rewrite Hd in Hx. apply Some_inj in Hx as <-. apply letter_spec in Hd' as (_ & H1 & H2 & H3). exact H1.
  - destruct l as [|x r]; [discriminate|]. apply Some_inj in Hc as ->. apply no_start_text; [apply letter_spec in Hc'; tauto|]. intros (ds & x & q & El & _ & _ & Hx & _).
    specialize (Hin x ltac:(rewrite El; apply in_or_app; right; left; reflexivity)). destruct Hin as [Hin| ->]; [apply letter_spec in Hin; destruct Hx; tauto|destruct Hx; discriminate].
  - intros rm st. destruct (words_loop (length l) l [] st (S (length l))) as (st' & ls & E & [A1 A2] & Ec); [lia|reflexivity|reflexivity|exact Hl| | |constructor|lia|].
    + intros X. rewrite Hc in X. apply Some_inj in X as ->. apply letter_spec in Hc' as (_ & _ & Hc' & _). discriminate Hc'.
    + intros _. exists d. auto.
    + destruct (emphasis_no_close None (ip_delims st') (ip_kids st') (ip_next st') A1) as (ds' & n' & E'). exists st', ds', (ip_kids st'), n'. split; [exact E|]. split; [exact E'|]. exists ls. split; [exact A2|exact Ec].
  - eexists. split; [exact E|]. exists dd, pd, ls. auto.
Qed.

(** ** C22 *)
Definition tick_cs : cset := CS false false [CRange 96 96].
Lemma tick_spec c : cmatch tick_cs c = N.eqb c 96.
Proof. unfold tick_cs. cm_unfold. lia. Qed.
Lemma reTicks_shape : reTicks = RRep true 1 None (RChr tick_cs) /\ reTicksHere = RSeq RBol (RRep true 1 None (RChr tick_cs)).
Proof. vm_compute. split; reflexivity. Qed.
Lemma ticks_repeat k : forallb (cmatch tick_cs) (repeat 96%N k) = true.
Proof. apply forallb_forall. intros x Hx. apply repeat_spec in Hx as ->. reflexivity. Qed.
Lemma match_ticks prev k b : 0 < k -> hd_error b <> Some 96%N -> match_at (RRep true 1 None (RChr tick_cs)) prev (repeat 96%N k ++ b) = Some (repeat 96%N k, b, []).
Proof.
  intros Hk Hb. rewrite match_at_plus. destruct (take_while_app_stop (cmatch tick_cs) (repeat 96%N k) b (ticks_repeat k)) as [-> ->].
  - intros c q' ->. rewrite tick_spec. apply N.eqb_neq. intros ->. apply Hb. reflexivity.
  - destruct k as [|k]; [lia|]. reflexivity.
Qed.
Lemma search_ticks k b : 0 < k -> hd_error b <> Some 96%N -> forall a prev before, ~ In 96%N a -> search_from reTicks prev before (a ++ repeat 96%N k ++ b) = Some (RM (rev before ++ a) (repeat 96%N k) b []).
Proof.
  destruct reTicks_shape as [-> _]. intros Hk Hb. induction a as [|c a IH]; intros prev before Ha.
  - cbn [app]. pose proof (match_ticks prev k b Hk Hb) as M. destruct k as [|k]; [lia|]. cbn [repeat app search_from] in *. rewrite M. rewrite app_nil_r. reflexivity.
  - cbn [app search_from]. rewrite match_at_plus, tick_spec. destruct (N.eqb_spec c 96) as [->|Hc]; [exfalso; apply Ha; left; reflexivity|]. rewrite IH by (intros X; apply Ha; right; exact X). cbn [rev]. rewrite <- app_assoc. reflexivity.
Qed.
Lemma match_ticks_ip s a k b : skipn (ip_pos s) (ip_subject s) = a ++ repeat 96%N k ++ b -> 0 < k -> hd_error b <> Some 96%N -> ~ In 96%N a ->
  ip_match reTicks s = Some (repeat 96%N k, set_ip_pos (ip_pos s + (length a + k)) s).
Proof. intros E Hk Hb Ha. unfold ip_match, re_search. rewrite E, search_ticks by assumption. unfold rm_end. cbn [rm_group rm_before rev app]. rewrite repeat_length. reflexivity. Qed.
Lemma split_ticks : forall t : str, hd_error t <> Some 96%N -> In 96%N t -> last_opt t <> Some 96%N ->
  exists a k b, t = a ++ repeat 96%N (S k) ++ b /\ ~ In 96%N a /\ hd_error b <> Some 96%N /\ b <> [] /\ a <> [].
Proof.
  intros t Hh Hi Hl. set (f := fun c => negb (N.eqb c 96)). set (a := take_while f t). set (r := drop_while f t). assert (E : t = a ++ r) by (symmetry; apply take_drop_while).
  set (g := take_while (N.eqb 96) r). set (b := drop_while (N.eqb 96) r). assert (E' : r = g ++ b) by (symmetry; apply take_drop_while).
  assert (Ha : ~ In 96%N a). { intros H. pose proof (take_while_all f t) as X. fold a in X. rewrite forallb_forall in X. apply X in H. discriminate H. }
  assert (Hg : g = repeat 96%N (length g)). { apply Forall_eq_repeat, Forall_forall. intros x Hx. pose proof (take_while_all (N.eqb 96) r) as X. fold g in X. rewrite forallb_forall in X. apply X in Hx. apply N.eqb_eq in Hx. exact Hx. }
  assert (Hr : r <> []) by (intros X; rewrite X, app_nil_r in E; congruence). destruct r as [|x r'] eqn:Er; [congruence|].
  assert (Hx : x = 96%N). { assert (X : f x = false) by (eapply drop_while_head; exact Er). unfold f in X. lia. } subst x.
  destruct (length g) as [|k] eqn:Eg. { unfold g in Eg. cbn [take_while N.eqb Pos.eqb length] in Eg. discriminate. }
  exists a, k, b. split; [rewrite <- Hg, <- E'; exact E|]. split; [exact Ha|]. split.
  - destruct b as [|y b'] eqn:Eb; [discriminate|]. intros X. injection X as ->. assert (X : N.eqb 96 96 = false) by (eapply drop_while_head; exact Eb). discriminate X.
  - split; [|intros ->; cbn [app] in E; rewrite E in Hh; apply Hh; reflexivity]. intros ->. apply Hl. rewrite E, E', app_nil_r, Hg. cbn [repeat]. change (96%N :: repeat 96%N k) with (repeat 96%N (S k)). replace (S k) with (k + 1) by lia. rewrite repeat_app, app_assoc. apply last_opt_snoc.
Qed.
Lemma hd_app (a b : str) : a <> [] -> hd_error (a ++ b) = hd_error a.
Proof. destruct a; [congruence|reflexivity]. Qed.
Definition strip_lit (contents : str) : str :=
  match strip_left (N.eqb SP) contents, contents with
  | _ :: _, c0 :: _ => match last_opt contents with Some cl => if N.eqb c0 SP && N.eqb cl SP then chop_ends contents else contents | None => contents end
  | _, _ => contents
  end.
Definition code_node (l : str) : tree := T (set_n_literal (Some l) (new_node code None)) [].
(** a text without runs of exactly [n] backquotes *)
Definition no_run (n : nat) (t : str) : Prop := forall a b, t = a ++ repeat 96%N n ++ b -> last_opt a = Some 96%N \/ hd_error b = Some 96%N.
Lemma ticks_spec n q after : 0 < n -> hd_error q <> Some 96%N -> forall m t s fu full, length t <= m -> skipn (ip_pos s) (ip_subject s) = t ++ repeat 96%N n ++ q -> 
  hd_error t <> Some 96%N -> last_opt t <> Some 96%N -> no_run n t -> skipn after (ip_subject s) = full ++ t ++ repeat 96%N n ++ q -> ip_pos s = after + length full -> length t < fu ->
  ticks_loop fu (repeat 96%N n) after s = Ok (append_kid (code_node (strip_lit (replace_char LF SP (full ++ t)))) (set_ip_pos (after + length full + length t + n) s)).
Proof.
  intros Hn Hq. induction m as [|m IH]; intros t s fu full Hm E Hh Hl Hr Ef Ep Hf; (destruct fu as [|fu]; [lia|]).
  - destruct t; [|cbn in Hm; lia]. cbn [ticks_loop]. rewrite (match_ticks_ip s [] n q E Hn Hq) by (intros []). rewrite (proj2 (str_eqb_eq _ _) eq_refl). cbv zeta. cbn [app] in Ef. cbn [length Nat.add]. rewrite app_nil_r.
    match goal with |- context [slice ?a ?b ?c] => assert (Es : slice a b c = full) end. { unfold slice. cbn [set_ip_pos ip_pos ip_subject]. rewrite repeat_length, Ep, Ef. replace (after + length full + n - n - after) with (length full) by lia. rewrite firstn_app, firstn_all, Nat.sub_diag. apply app_nil_r. }
    rewrite Es. rewrite Ep, Nat.add_0_r. reflexivity.
  - destruct (in_dec N.eq_dec 96%N t) as [Hi|Hi].
    + destruct (split_ticks t Hh Hi Hl) as (a & k & b & Et & Ha & Hb & Hbn & Han). cbn [ticks_loop]. subst t. rewrite <- !app_assoc in E.
      rewrite (match_ticks_ip s a (S k) (b ++ repeat 96%N n ++ q) E ltac:(lia)) by (exact Ha || (rewrite hd_app by exact Hbn; exact Hb)).
      destruct (str_eqb (repeat 96%N (S k)) (repeat 96%N n)) eqn:Eq.
      { exfalso. apply str_eqb_eq in Eq. destruct (Hr a b) as [X|X]; [rewrite Eq; reflexivity| |congruence]. apply Ha, last_opt_In, X. }
      rewrite !app_length, repeat_length in Hm, Hf |- *. 
      rewrite (IH b (set_ip_pos (ip_pos s + (length a + S k)) s) fu (full ++ a ++ repeat 96%N (S k))).
      * cbn [set_ip_pos]. rewrite !app_length, repeat_length, <- !app_assoc. replace (after + (length full + (length a + S k)) + length b + n) with (after + length full + (length a + (S k + length b)) + n) by lia. reflexivity.
      * lia.
      * cbn [set_ip_pos ip_pos ip_subject]. apply (skipn_adv s (a ++ repeat 96%N (S k))); [rewrite <- app_assoc; exact E|rewrite app_length, repeat_length; reflexivity].
      * exact Hb.
      * rewrite app_assoc, RegexFacts.last_opt_app in Hl. rewrite (last_opt_last b 0%N Hbn) in *. exact Hl.
      * intros a' b' Eb. destruct (Hr (a ++ repeat 96%N (S k) ++ a') b') as [X|X]; [rewrite Eb, <- !app_assoc; reflexivity| |auto].
        destruct a' as [|y a']; [exfalso; destruct n as [|n]; [lia|]; apply Hb; rewrite Eb; reflexivity|]. left. rewrite !RegexFacts.last_opt_app in X. rewrite (last_opt_last (y :: a') 0%N) in * by discriminate. exact X.
      * cbn [set_ip_pos ip_subject]. rewrite Ef, <- !app_assoc. reflexivity.
      * cbn [set_ip_pos ip_pos]. rewrite !app_length, repeat_length, Ep. lia.
      * lia.
    + cbn [ticks_loop]. rewrite (match_ticks_ip s t n q E Hn Hq Hi). rewrite (proj2 (str_eqb_eq _ _) eq_refl). cbv zeta.
      match goal with |- context [slice ?a ?b ?c] => assert (Es : slice a b c = full ++ t) end. { unfold slice. cbn [set_ip_pos ip_pos ip_subject]. rewrite repeat_length, Ep, Ef. replace (after + length full + (length t + n) - n - after) with (length (full ++ t)) by (rewrite app_length; lia). rewrite app_assoc, firstn_app, firstn_all, Nat.sub_diag. apply app_nil_r. }
      rewrite Es. rewrite Ep. replace (after + length full + (length t + n)) with (after + length full + length t + n) by lia. reflexivity.
Qed.
Lemma step_code s n t q : skipn (ip_pos s) (ip_subject s) = repeat 96%N n ++ t ++ repeat 96%N n ++ q -> 0 < n -> t <> [] -> hd_error t <> Some 96%N -> last_opt t <> Some 96%N -> no_run n t -> hd_error q <> Some 96%N ->
  parseInline s = Ok (true, append_kid (code_node (strip_lit (replace_char LF SP t))) (ip_adv (n + length t + n) s)).
Proof.
  intros E Hn Ht Hh Hl Hr Hq. unfold parseInline. destruct n as [|n]; [lia|]. rewrite (peek_skipn s _ _ E). cbn [N.eqb Pos.eqb LF orb]. unfold parseBackticks.
  assert (E1 : ip_match reTicksHere s = Some (repeat 96%N (S n), set_ip_pos (ip_pos s + S n) s)).
  { unfold ip_match. destruct reTicks_shape as [_ ->]. rewrite E, re_search_bol. rewrite match_ticks; [|exact Hn|rewrite hd_app by exact Ht; exact Hh]. unfold rm_end. cbn [rm_group rm_before length]. rewrite repeat_length. reflexivity. }
  rewrite E1. pose proof (f_equal (@length N) E) as El. rewrite skipn_length, !app_length, !repeat_length in El.
  pose proof (skipn_adv s (repeat 96%N (S n)) _ (S n) E ltac:(rewrite repeat_length; reflexivity)) as Ek.
  rewrite (ticks_spec (S n) q (ip_pos (set_ip_pos (ip_pos s + S n) s)) Hn Hq (length t) t (set_ip_pos (ip_pos s + S n) s) (S (length (ip_subject s))) []); [|lia|exact Ek|exact Hh|exact Hl|exact Hr|exact Ek|cbn [length]; lia|lia].
  cbn [bind]. cbn [set_ip_pos ip_pos length app]. unfold ip_adv. replace (ip_pos s + S n + 0 + length t + S n) with (ip_pos s + (S n + length t + S n)) by lia. reflexivity.
Qed.
Lemma strip_lit_spec t : code_span_text t (strip_lit (replace_char LF SP t)).
Proof.
  unfold code_span_text. change (map (fun x => if (x =? 10)%N then 32%N else x) t) with (replace_char LF SP t). set (c := replace_char LF SP t). clearbody c. clear t.
  assert (Hs : forall m, strip_left (N.eqb SP) m = [] -> Forall (eq 32%N) m). { intros m. unfold strip_left. intros X. apply Forall_forall. intros x Hx. rewrite <- (take_drop_while (N.eqb SP) m), X, app_nil_r in Hx. pose proof (take_while_all (N.eqb SP) m) as Y. rewrite forallb_forall in Y. apply Y in Hx. apply N.eqb_eq in Hx. exact Hx. }
  split.
  - intros m Ec (x & Hx & Hx'). unfold strip_lit. destruct (strip_left (N.eqb SP) c) as [|y l] eqn:Es.
    + exfalso. apply Hs in Es. rewrite Ec in Es. apply Hx'. rewrite Forall_forall in Es. symmetry. apply Es. right. apply in_or_app. left. exact Hx.
    + rewrite Ec. change (32%N :: m ++ [32%N]) with ((32%N :: m) ++ [32%N]). rewrite last_opt_snoc. cbn [app]. change (N.eqb 32 SP && N.eqb 32 SP) with true. cbv iota. unfold chop_ends. cbn [tl]. apply removelast_last.
  - intros H. unfold strip_lit. destruct (strip_left (N.eqb SP) c) as [|y l] eqn:Es; [reflexivity|]. destruct c as [|c0 r]; [reflexivity|]. destruct (last_opt (c0 :: r)) as [cl|] eqn:El; [|reflexivity].
    destruct (N.eqb_spec c0 SP) as [->|]; [|reflexivity]. destruct (N.eqb_spec cl SP) as [->|]; [|reflexivity]. cbn [andb]. exfalso.
    destruct r as [|z r _] using rev_ind; [discriminate Es|]. change (SP :: r ++ [z]) with ((SP :: r) ++ [z]) in El. rewrite last_opt_snoc in El. apply Some_inj in El as ->. specialize (H r eq_refl).
    assert (X : forall m, Forall (eq 32%N) m -> strip_left (N.eqb SP) m = []). { induction m as [|x m IH]; intros Y; [reflexivity|]. inversion Y; subst. unfold strip_left in *. cbn [drop_while]. change (N.eqb SP 32) with true. cbv iota. auto. }
    rewrite X in Es; [discriminate|]. constructor; [reflexivity|]. apply Forall_app. split; [exact H|]. constructor; [reflexivity|constructor].
Qed.
Lemma ticks_cond n t : no_ticks_run n t -> t <> [] /\ hd_error t <> Some 96%N /\ last_opt t <> Some 96%N /\ (0 < n -> no_run n t).
Proof.
  intros [(c & d & r & -> & Hd & H1 & H2) H]. split; [discriminate|]. split; [intros X; injection X; auto|]. split.
  - rewrite (last_opt_last (c :: r) c) by discriminate. intros X. apply Some_inj in X. apply H2. rewrite <- Hd. destruct r as [|x r]; [exact X|exact X].
  - intros Hn a b E. destruct (H a b E) as [X|X].
    + left. destruct a as [|y a]; [discriminate X|]. rewrite (last_opt_last (y :: a) 0%N) by discriminate. rewrite X. reflexivity.
    + right. destruct b as [|y b]; [discriminate X|]. cbn in X |- *. congruence.
Qed.
Lemma strip_id l : (forall c, hd_error l = Some c -> is_space c = false) -> (forall c, last_opt l = Some c -> is_space c = false) -> strip l = l.
Proof.
  intros H1 H2. unfold strip, strip_left, strip_right. destruct l as [|c l]; [reflexivity|]. cbn [drop_while]. rewrite (H1 c eq_refl). destruct (rev (c :: l)) as [|x r] eqn:E.
  - apply (f_equal (@rev N)) in E. rewrite rev_involutive in E. discriminate.
  - assert (El : last_opt (c :: l) = Some x) by (rewrite <- (rev_involutive (c :: l)), E; cbn [rev]; apply last_opt_snoc). cbn [drop_while]. rewrite (H2 x El), <- E. apply rev_involutive.
Qed.
Lemma code_loop rm smart n t : 0 < n -> no_ticks_run n t -> let l := repeat 96%N n ++ t ++ repeat 96%N n in 
  exists st' i, inline_loop (S (length l)) (IP l 0 rm smart [] [] [] 0) = Ok st' /\ ip_delims st' = [] /\ ip_kids st' = [(i, code_node (strip_lit (replace_char LF SP t)))].
Proof.
  intros Hn Ht l. apply ticks_cond in Ht as (T1 & T2 & T3 & T4). specialize (T4 Hn). set (s0 := IP l 0 rm smart [] [] [] 0).
  assert (E0 : skipn (ip_pos s0) (ip_subject s0) = repeat 96%N n ++ t ++ repeat 96%N n ++ []) by (rewrite app_nil_r; reflexivity).
  rewrite (loop_step _ _ _ (step_code s0 n t [] E0 Hn T1 T2 T3 T4 ltac:(discriminate))).
  assert (Ef : exists f, length l = S f) by (destruct n as [|n]; [lia|]; eexists; reflexivity). destruct Ef as (f & ->).
  rewrite loop_end. 2: { cbn [append_kid ip_adv set_ip_pos set_ip_next set_ip_kids ip_subject ip_pos]. apply skipn_all2. unfold s0, l. cbn [ip_subject ip_pos]. rewrite !app_length, !repeat_length. lia. }
  eexists _, _. split; [reflexivity|]. split; reflexivity.
Qed.
(** the inline level; line feeds included *)
Lemma ticks_ends n t : 0 < n -> hd_error (repeat 96%N n ++ t ++ repeat 96%N n) = Some 96%N /\ last_opt (repeat 96%N n ++ t ++ repeat 96%N n) = Some 96%N.
Proof.
  intros Hn. split; [destruct n as [|n]; [lia|reflexivity]|]. rewrite app_assoc, RegexFacts.last_opt_app. rewrite (last_opt_last (repeat 96%N n) 0%N) by (destruct n; [lia|discriminate]).
  destruct n as [|n]; [lia|]. cbn [repeat]. rewrite repeat_cons, last_last. reflexivity.
Qed.
Theorem code_span_inlines s n t : 0 < n -> no_ticks_run n t -> exists s' l, parseInlines (repeat 96%N n ++ t ++ repeat 96%N n) s = Ok ([code_node l], s') /\ code_span_text t l.
Proof.
  intros Hn Ht. unfold parseInlines. destruct (ticks_ends n t Hn) as [N1 N2].
  rewrite strip_id by (intros c X; rewrite ?N1, ?N2 in X; apply Some_inj in X as <-; reflexivity).
  destruct (code_loop (ip_refmap s) (ip_smart s) n t Hn Ht) as (st' & i & -> & E1 & E2). cbn [bind]. rewrite E1, E2, emphasis_none. cbn [bind map snd]. eexists _, _. split; [reflexivity|]. apply strip_lit_spec.
Qed.
Definition fence_tilde : regex := ltac:(let v := eval vm_compute in (match reCodeFence with RAlt _ (RSeq _ r) => r | r => r end) in exact v).
Lemma reCodeFence_shape : reCodeFence = RAlt (RSeq RBol (RSeq (RRep true 3 None (RChr tick_cs)) (RLook true (RSeq (RRep true 0 None (RChr (CS true false [CRange 10 10]))) (RChr tick_cs))))) (RSeq RBol fence_tilde).
Proof. vm_compute. reflexivity. Qed.
Lemma fence_none n t : 0 < n -> t <> [] -> hd_error t <> Some 96%N -> no_eol t -> re_search reCodeFence (repeat 96%N n ++ t ++ repeat 96%N n) = None.
Proof.
  intros Hn Ht Hh He. pose proof reCodeFence_shape as Es. set (b := fence_tilde) in *. assert (B2 : RegexLang.nullable b = false) by (vm_compute; reflexivity). assert (B3 : begins b 96 = false) by (vm_compute; reflexivity). clearbody b.
  apply re_search_none. intros p q E. apply RegexLang.match_at_none_L; [vm_compute; reflexivity|]. intros g a E' H. rewrite Es in H. 
  destruct H as [(g1 & g2 & -> & [-> Hp] & g3 & g4 & -> & H1 & [-> H2])|(g1 & g2 & -> & [-> Hp] & H)]; (destruct p as [|x p]; [|destruct (prev_of_cons None x p) as (y & Ey); rewrite Ey in Hp; discriminate]); cbn [app] in E, E'; subst q.
  - cbn [app] in *. rewrite app_nil_r in E'. apply H2. clear H2.
    change (RegexLang.L (RRep true 3 None (RChr tick_cs)) (prev_of None []) g3 a) in H1. apply RegexLang.L_rep_chr in H1 as (_ & _ & H1).
    assert (Hg : exists a', a = a' ++ t ++ repeat 96%N n /\ Forall (eq 96%N) a').
    { assert (X : exists j, g3 = repeat 96%N j). { exists (length g3). apply Forall_eq_repeat. eapply Forall_impl; [|exact H1]. intros c Hc. change (cmatch tick_cs c = true) in Hc. rewrite tick_spec in Hc. apply N.eqb_eq in Hc. congruence. }
      destruct X as (j & ->). assert (Hj : j <= n).
      { destruct (Nat.le_gt_cases j n) as [|Hj]; [assumption|]. exfalso. replace j with (n + S (j - S n)) in E' by lia. rewrite repeat_app, <- app_assoc in E'. apply app_inv_head in E'. destruct t as [|y t]; [congruence|]. cbn [repeat app] in E'. injection E' as -> _. apply Hh. reflexivity. }
      exists (repeat 96%N (n - j)). split; [|apply Forall_forall; intros x Hx; apply repeat_spec in Hx; congruence]. replace n with (j + (n - j)) in E' at 1 by lia. rewrite repeat_app, <- app_assoc in E'. apply app_inv_head in E'. symmetry. exact E'. }
    destruct Hg as (a' & -> & Ha). destruct n as [|n]; [lia|]. exists ((a' ++ t) ++ [96%N]), (repeat 96%N n). split; [cbn [repeat]; rewrite <- !app_assoc; reflexivity|]. exists (a' ++ t), [96%N]. split; [reflexivity|]. split; [|exists 96%N; split; reflexivity].
    apply RegexLang.L_rep_chr. split; [lia|]. split; [exact I|]. apply Forall_app. split; [eapply Forall_impl; [|exact Ha]; intros c <-; reflexivity|].
    apply Forall_forall. intros x Hx. apply He in Hx as [Hx _]. cm_unfold. unfold LF in Hx. lia.
  - destruct n as [|n]; [lia|]. cbn [repeat app] in E'. assert (X : g2 = []) by (eapply (begins_L b _ g2 a 96%N); [exact H|symmetry; exact E'|exact B3]). subst g2. destruct (RegexLang.L_nonempty b B2 _ _ _ H eq_refl).
Qed.
Lemma ticks_no_start n t : 0 < n -> t <> [] -> hd_error t <> Some 96%N -> no_eol t -> no_start (repeat 96%N n ++ t ++ repeat 96%N n).
Proof.
  intros Hn Ht Hh He. pose proof (fence_none n t Hn Ht Hh He) as Hf. destruct n as [|n]; [lia|]. cbn [repeat app] in *. set (r := repeat 96%N n ++ t ++ 96%N :: repeat 96%N n) in *. clearbody r. clear Ht Hh He Hn.
  unfold no_start. split; [discriminate|]. split; [discriminate|]. split; [|split; [exact Hf|split]].
  - assert (E : reATXHeadingMarker = RSeq RBol (match reATXHeadingMarker with RSeq _ r => r | r => r end)) by (vm_compute; reflexivity). rewrite E. clear E. apply begins_search; vm_compute; reflexivity.
  - unfold re_test. assert (E : reThematicBreak = RSeq RBol (match reThematicBreak with RSeq _ r => r | r => r end)) by (vm_compute; reflexivity). rewrite E. clear E. rewrite begins_search; vm_compute; reflexivity.
  - intros i m dt. unfold list_marker. assert (E : reBulletListMarker = RSeq RBol (match reBulletListMarker with RSeq _ r => r | r => r end)) by (vm_compute; reflexivity). rewrite E. clear E.
    rewrite begins_search by (vm_compute; reflexivity). rewrite reOrdered_shape. rewrite begins_search by (vm_compute; reflexivity). discriminate.
Qed.
Theorem code_span_line smart n t : 0 < n -> no_ticks_run n t -> no_eol t -> ~ In 0%N t ->
  exists dd pd l, parse_doc smart (repeat 96%N n ++ t ++ repeat 96%N n) = Ok (T dd [T pd [code_node l]]) /\ n_t dd = document /\ n_t pd = paragraph /\ code_span_text t l.
Proof.
  intros Hn Ht He H0. pose proof (ticks_cond n t Ht) as (T1 & T2 & T3 & T4). destruct (ticks_ends n t Hn) as [N1 N2].
  assert (Hin : forall x, In x (repeat 96%N n ++ t ++ repeat 96%N n) -> x = 96%N \/ In x t). { intros x Hx. apply in_app_or in Hx as [Hx|Hx]; [left; eapply repeat_spec, Hx|]. apply in_app_or in Hx as [Hx|Hx]; [auto|left; eapply repeat_spec, Hx]. }
  destruct (line_para smart (repeat 96%N n ++ t ++ repeat 96%N n) (fun k => k = [code_node (strip_lit (replace_char LF SP t))])) as (dd & pd & k & E & D1 & D2 & _ & ->).
  - intros X. rewrite X in N1. discriminate.
  - intros x Hx. apply Hin in Hx as [->|Hx]; [split; discriminate|apply He, Hx].
  - intros Hx. apply Hin in Hx as [Hx|Hx]; [discriminate|auto].
  - intros c X. rewrite N1 in X. apply Some_inj in X as <-. split; [reflexivity|discriminate].
  - intros c X. rewrite N2 in X. apply Some_inj in X as <-. reflexivity.
  - apply ticks_no_start; assumption.
  - intros rm st. destruct (code_loop rm smart n t Hn Ht) as (st' & i & E & E1 & E2). exists st', [], (ip_kids st'), (ip_next st'). split; [exact E|]. split; [rewrite E1; apply emphasis_none|]. rewrite E2. reflexivity.
  - exists dd, pd. eexists. split; [exact E|]. split; [exact D1|]. split; [exact D2|]. apply strip_lit_spec.
Qed.
Lemma code_html o anc l st : h_dis st = 0%Z -> exists x, html_events o (flat_map (events anc) [code_node l]) st = Ok (HS (h_buf st ++ u "<code>" ++ html_text l ++ u "</code>") x (h_dis st)).
Proof.
  intros Hd. cbn [flat_map]. rewrite app_nil_r. change (events anc (code_node l)) with [EV (code_node l) true anc]. unfold code_node. cbn [html_events].
  match goal with |- context [html_node o ?d anc true st] => change (html_node o d anc true st) with (h_code d st) end. unfold h_code, h_tag0, h_tag, h_out, h_lit. rewrite Hd. change (Z.ltb 0 0) with false. cbv iota. cbn [bind h_dis h_buf h_last flat_map set_n_literal n_literal escape_xml_opt]. 
  rewrite <- escape_xml_html. eexists. repeat rewrite <- app_assoc. reflexivity.
Qed.

(** ** Statements as used *)
Lemma text_para_spec t s : text_para t s -> paragraph_of_text t s.
Proof.
  intros (dd & pd & ls & -> & D1 & D2 & <-). exists dd, pd, (map text_node ls). split; [reflexivity|]. split; [exact D1|]. split; [exact D2|]. split.
  - intros k Hk. apply in_map_iff in Hk as (l & <- & _). split; reflexivity.
  - induction ls as [|l ls IH]; [reflexivity|]. cbn [map flat_map concat]. rewrite IH. reflexivity.
Qed.
Lemma text_para_md smart o s l : ho_sourcepos o = false -> (exists t, parse_doc smart s = Ok t /\ text_para t l) ->
  (exists t, parse_doc smart s = Ok t /\ paragraph_of_text t l) /\ md_to_html smart o s = Ok (one_paragraph (html_text l)).
Proof.
  intros Ho (t & E & H). split; [exists t; split; [exact E|apply text_para_spec, H]|]. unfold md_to_html. rewrite E. cbn [bind]. rewrite (text_para_html o t l Ho H), escape_xml_html. reflexivity.
Qed.
Theorem escaped_text_md smart o s : ho_sourcepos o = false -> s <> [] -> no_eol s -> ~ In 0%N s -> (forall c, hd_error s = Some c \/ last_opt s = Some c -> is_space c = false) ->
  (exists t, parse_doc smart (backslash_escape s) = Ok t /\ paragraph_of_text t s) /\ md_to_html smart o (backslash_escape s) = Ok (one_paragraph (html_text s)).
Proof. intros Ho H1 H2 H3 H4. apply text_para_md; [exact Ho|]. apply escaped_text; assumption. Qed.
Theorem plain_line_md o s : ho_sourcepos o = false -> s <> [] -> Forall ordinary_char s -> (forall c, hd_error s = Some c -> is_space c = false /\ ~ block_char c) -> (forall c, last_opt s = Some c -> is_space c = false) -> ~ list_number s ->
  (exists t, parse_doc false s = Ok t /\ paragraph_of_text t s) /\ md_to_html false o s = Ok (one_paragraph (html_text s)).
Proof. intros Ho H1 H2 H3 H4 H5. apply text_para_md; [exact Ho|]. apply plain_line; assumption. Qed.
Theorem word_line_md smart o s : ho_sourcepos o = false -> Forall (fun c => letter_or_digit c \/ c = 95%N) s -> (exists c, hd_error s = Some c /\ letter_or_digit c) -> (exists c, last_opt s = Some c /\ letter_or_digit c) ->
  (exists t, parse_doc smart s = Ok t /\ paragraph_of_text t s) /\ md_to_html smart o s = Ok (one_paragraph (html_text s)).
Proof. intros Ho H1 H2 H3. apply text_para_md; [exact Ho|]. apply word_line; assumption. Qed.
Theorem code_span_md smart o n t : ho_sourcepos o = false -> 0 < n -> no_ticks_run n t -> no_eol t -> ~ In 0%N t ->
  exists l, code_span_text t l /\ md_to_html smart o (repeat 96%N n ++ t ++ repeat 96%N n) = Ok (one_paragraph (u "<code>" ++ html_text l ++ u "</code>")).
Proof.
  intros Ho Hn Ht He H0. destruct (code_span_line smart n t Hn Ht He H0) as (dd & pd & l & E & D1 & D2 & D3). exists l. split; [exact D3|]. unfold md_to_html. rewrite E. cbn [bind].
  rewrite (para_html o dd pd _ (u "<code>" ++ html_text l ++ u "</code>") Ho D1 D2); [reflexivity|]. intros st Hs. apply code_html, Hs.
Qed.
