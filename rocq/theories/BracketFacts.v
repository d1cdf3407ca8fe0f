(** * Brackets that make no link: C44 *)
From Verif Require Import Base Regex Common NormRef Node Inlines Blocks Html Main RegexFacts StrFacts Spec SpecTree SpecSame
  TreeFacts CommonFacts StrProp EmphFacts InlineFacts InlineInv HtmlFacts RenderFacts BlockFacts LineFacts ParseFacts Sim SimFacts SameHtml DocFacts TextFacts WordFacts.
From Verif Require RegexLang.
From Coq Require Import ZifyBool ZifyNat ZifyN.

(** a character the link destination encoder accepts *)
Definition encodable (c : N) : Prop := code_point c /\ ~ surrogate c.
Lemma plain_encodable c : plain_char c -> encodable c.
Proof. unfold plain_char, encodable, code_point, surrogate. lia. Qed.
Lemma encodable_no_raise : ~ raises_unicode encodable.
Proof. intros (c & [_ H] & H'). auto. Qed.
Lemma peek_in c s : peek_is c s = true -> In c (ip_subject s).
Proof. intros H. apply peek_is_true in H. unfold peek in H. apply nth_error_In in H. exact H. Qed.
Lemma set_pos_subject s s' p : s' = set_ip_pos p s -> ip_subject s' = ip_subject s.
Proof. intros ->. reflexivity. Qed.

(** without a closing parenthesis there is no inline link tail *)
Lemma inline_tail_none s : Forall encodable (ip_subject s) -> pos_ok s -> 1 <= ip_pos s -> ~ In 41%N (ip_subject s) ->
  exists p, inline_tail s = Ok (None, set_ip_pos p s) /\ at_pos s p.
Proof.
  intros Hs Hp H1 H41. pose proof (inline_tail_spec encodable plain_encodable (fun c H => proj1 H) s Hs Hp H1) as H.
  destruct (inline_tail s) as [[t s']|e] eqn:E; [|destruct H as [_ H]; destruct (encodable_no_raise H)].
  cbn [unicode_or fst snd] in H. destruct H as (p & -> & Ha & _). exists p. split; [|exact Ha]. destruct t as [[d ti]|]; [|reflexivity]. exfalso.
  unfold inline_tail in E. destruct (peek_is 40 s) eqn:E40; [|discriminate E].
  destruct (spnl_pos (ip_adv 1 s)) as (p1 & E1 & Hp1); [apply peek_is_true, peek_some in E40; unfold pos_ok; cbn; lia|]. rewrite E1 in E. change (set_ip_pos p1 (ip_adv 1 s)) with (set_ip_pos p1 s) in E.
  destruct (parseLinkDestination (set_ip_pos p1 s)) as [[d' s2]|e] eqn:E2; [|discriminate E]. cbn [bind] in E.
  destruct d' as [d'|]; [|discriminate E].
  destruct (nth_error _ _) as [pc|]; [|discriminate E]. cbn [of_option bind] in E.
  destruct (if re_test reWhitespaceChar [pc] then _ else _) as [ti' s4]. destruct (peek_is 41 (spnl s4)) eqn:E5; [|discriminate E].
  apply Ok_inj in E. assert (Es : ip_subject (ip_adv 1 (spnl s4)) = ip_subject s) by (apply (f_equal snd) in E; cbn [snd] in E; rewrite E; reflexivity).
  apply H41. rewrite <- Es. apply (peek_in 41 _ E5).
Qed.
Lemma reference_tail_none o start save s p0 : ip_refmap s = [] -> at_pos s p0 -> at_pos s save ->
  exists p, reference_tail o start save (set_ip_pos p0 s) = (None, set_ip_pos p s).
Proof.
  intros Hr Ha Hb. unfold reference_tail. destruct (parseLinkLabel_spec (set_ip_pos p0 s) (at_pos_ok s p0 Ha)) as (p1 & E1 & _).
  destruct (parseLinkLabel (set_ip_pos p0 s)) as [n s1]. cbn [snd] in E1. subst s1. change (set_ip_pos p1 (set_ip_pos p0 s)) with (set_ip_pos p1 s).
  exists (if Nat.eqb n 0 then save else p1). destruct (Nat.eqb n 0); change (set_ip_pos save (set_ip_pos p1 s)) with (set_ip_pos save s); cbn [ip_refmap set_ip_pos]; rewrite Hr; destruct (is_nil _); reflexivity.
Qed.
Definition same_but_brackets (s s' : ip) (ls : list str) : Prop :=
  ip_subject s' = ip_subject s /\ ip_refmap s' = ip_refmap s /\ ip_smart s' = ip_smart s /\ ip_delims s' = ip_delims s /\ map snd (ip_kids s') = map snd (ip_kids s) ++ map text_node ls.
Lemma same_nil s : same_but_brackets s s [].
Proof. unfold same_but_brackets. cbn [map]. rewrite app_nil_r. auto 10. Qed.
Lemma same_trans a b c l l' : same_but_brackets a b l -> same_but_brackets b c l' -> same_but_brackets a c (l ++ l').
Proof. intros (A1 & A2 & A3 & A4 & A6) (B1 & B2 & B3 & B4 & B6). unfold same_but_brackets. rewrite B6, A6, map_app, app_assoc. repeat split; congruence. Qed.

(** one step on the remaining text [w ++ q] adds [w] as text *)
Definition shows (s : ip) (w q : str) : Prop := exists s', parseInline s = Ok (true, s') /\ same_but_brackets s s' [w] /\ skipn (ip_pos s') (ip_subject s') = q.
Lemma shows_one s w q bs : skipn (ip_pos s) (ip_subject s) = w ++ q -> let s' := set_ip_brackets bs (append_kid (text_node w) (ip_adv (length w) s)) in
  same_but_brackets s s' [w] /\ skipn (ip_pos s') (ip_subject s') = q.
Proof.
  intros E s'. unfold s', same_but_brackets. cbn [append_kid ip_adv set_ip_brackets set_ip_pos set_ip_next set_ip_kids ip_subject ip_refmap ip_smart ip_delims ip_kids ip_pos].
  rewrite map_app. split; [auto 10|]. apply (skipn_adv s w); [exact E|reflexivity].
Qed.
Definition quiet (s : ip) : Prop := Forall encodable (ip_subject s) /\ ~ In 41%N (ip_subject s) /\ ip_refmap s = [] /\ ip_smart s = false.
Lemma step_close s q : quiet s -> skipn (ip_pos s) (ip_subject s) = 93%N :: q -> shows s [93%N] q.
Proof.
  intros (Q1 & Q2 & Q3 & Q4) E. unfold shows, parseInline. rewrite (peek_skipn s _ _ E). cbn [N.eqb Pos.eqb LF orb]. unfold parseCloseBracket.
  change (ip_brackets (ip_adv 1 s)) with (ip_brackets s).
  assert (Hl : ip_pos s < length (ip_subject s)). { destruct (Nat.lt_ge_cases (ip_pos s) (length (ip_subject s))); [assumption|]. rewrite skipn_all2 in E by lia. discriminate. }
  destruct (ip_brackets s) as [|o bs] eqn:Eb.
  - eexists. split; [reflexivity|]. apply (shows_one s [93%N] q (ip_brackets s) E).
  - destruct (b_active o); cbn [negb].
    2:{ eexists. split; [reflexivity|]. apply (shows_one s [93%N] q (tl (ip_brackets s)) E). }
    destruct (inline_tail_none (ip_adv 1 s)) as (p & -> & Hp); [exact Q1|unfold pos_ok; cbn; lia|cbn; lia|exact Q2|]. cbn [bind].
    destruct (reference_tail_none o (ip_pos (ip_adv 1 s)) (ip_pos (ip_adv 1 s)) (ip_adv 1 s) p Q3 Hp) as (p' & ->); [unfold at_pos; cbn; lia|].
    eexists. split; [reflexivity|]. apply (shows_one s [93%N] q (tl (ip_brackets s)) E).
Qed.
Lemma step_open s q : skipn (ip_pos s) (ip_subject s) = 91%N :: q -> shows s [91%N] q.
Proof.
  intros E. unfold shows, parseInline. rewrite (peek_skipn s _ _ E). cbn [N.eqb Pos.eqb LF orb]. eexists. split; [reflexivity|]. apply (shows_one s [91%N] q _ E).
Qed.
Lemma step_bang s q : skipn (ip_pos s) (ip_subject s) = 33%N :: 91%N :: q -> shows s [33; 91]%N q.
Proof.
  intros E. unfold shows, parseInline. rewrite (peek_skipn s _ _ E). cbn [N.eqb Pos.eqb LF orb]. unfold parseBang, peek_is.
  rewrite (peek_skipn (ip_adv 1 s) 91 q) by (cbn [ip_adv set_ip_pos ip_pos ip_subject]; apply (skipn_adv s [33%N]); [exact E|reflexivity]). cbn [N.eqb Pos.eqb].
  eexists. split; [reflexivity|]. destruct (shows_one s [33; 91]%N q (BK (ip_next s) (hd_id (ip_delims s)) (ip_pos s + 1) true true :: ip_brackets s) E) as [H1 H2]. split; [exact H1|].
  etransitivity; [|exact H2]. cbn [length append_kid ip_adv addBracket set_ip_brackets set_ip_pos set_ip_next set_ip_kids ip_subject ip_pos]. f_equal. lia.
Qed.
Lemma step_other s c q : skipn (ip_pos s) (ip_subject s) = c :: q -> In c [39; 34]%N -> ip_smart s = false -> shows s [c] q.
Proof.
  intros E Hc Hs. unfold shows, parseInline. rewrite (peek_skipn s _ _ E). destruct Hc as [<-|[<-|[]]]; cbn [N.eqb Pos.eqb LF orb]; rewrite Hs; cbn [andb]; (eexists; split; [reflexivity|]; apply (shows_one s [_] q (ip_brackets s) E)).
Qed.
Lemma step_bang_alone s q : skipn (ip_pos s) (ip_subject s) = 33%N :: q -> hd_error q <> Some 91%N -> shows s [33%N] q.
Proof.
  intros E Hq. unfold shows, parseInline. rewrite (peek_skipn s _ _ E). cbn [N.eqb Pos.eqb LF orb]. unfold parseBang.
  assert (Ep : peek_is 91 (ip_adv 1 s) = false).
    { unfold peek_is. destruct q as [|d q].
      - rewrite peek_end; [reflexivity|]. cbn [ip_adv set_ip_pos ip_pos ip_subject]. apply (skipn_adv s [33%N]); [exact E|reflexivity].
      - rewrite (peek_skipn _ d q); [apply N.eqb_neq; intros ->; apply Hq; reflexivity|]. cbn [ip_adv set_ip_pos ip_pos ip_subject]. apply (skipn_adv s [33%N]); [exact E|reflexivity]. }
  rewrite Ep. eexists. split; [reflexivity|]. apply (shows_one s [33%N] q (ip_brackets s) E).
Qed.
Definition calm (c : N) : bool := tame c || N.eqb c 91.
Lemma calm_main c : calm c = true -> main_special c = true -> In c [91; 33; 93; 39; 34]%N.
Proof. unfold calm, tame, main_special. cbn [existsb In]. lia. Qed.
Lemma step_calm s c q : quiet s -> skipn (ip_pos s) (ip_subject s) = c :: q -> calm c = true -> exists w q', c :: q = w ++ q' /\ w <> [] /\ shows s w q'.
Proof.
  intros Hq E Hc. destruct (main_special c) eqn:Ec.
  - destruct (calm_main c Hc Ec) as [<-|[<-|[<-|[<-|[<-|[]]]]]].
    + exists [91%N], q. split; [reflexivity|]. split; [discriminate|]. apply step_open, E.
    + destruct q as [|d q]; [exists [33%N], []; split; [reflexivity|]; split; [discriminate|]; apply step_bang_alone; [exact E|discriminate]|].
      destruct (N.eqb_spec d 91) as [->|Hd].
      * exists [33; 91]%N, q. split; [reflexivity|]. split; [discriminate|]. apply step_bang, E.
      * exists [33%N], (d :: q). split; [reflexivity|]. split; [discriminate|]. apply step_bang_alone; [exact E|cbn; congruence].
    + exists [93%N], q. split; [reflexivity|]. split; [discriminate|]. apply step_close; assumption.
    + exists [39%N], q. split; [reflexivity|]. split; [discriminate|]. apply step_other; [exact E|cbn; auto|apply Hq].
    + exists [34%N], q. split; [reflexivity|]. split; [discriminate|]. apply step_other; [exact E|cbn; auto|apply Hq].
  - set (f := fun c => negb (main_special c)). set (g := take_while f (c :: q)). set (r := drop_while f (c :: q)). assert (Es : c :: q = g ++ r) by (symmetry; apply take_drop_while).
    assert (Hg : g <> []) by (unfold g; cbn [take_while]; unfold f at 1; rewrite Ec; discriminate). assert (Hf' : forallb f g = true) by apply take_while_all.
    assert (Hr : forall x r', r = x :: r' -> main_special x = true) by (intros x r' Eq; unfold r in Eq; apply drop_while_head in Eq; unfold f in Eq; destruct (main_special x); [reflexivity|discriminate]).
    clearbody g r. rewrite Es in *. exists g, r. split; [reflexivity|]. split; [exact Hg|].
    eexists. split; [apply (step_run s g r E Hg Hf' Hr)|]; [destruct Hq as (_ & _ & _ & X); intros; congruence|]. destruct (shows_one s g r (ip_brackets s) E) as [A B]. split; [exact A|exact B].
Qed.
Lemma calm_loop : forall n s st fu, length s <= n -> skipn (ip_pos st) (ip_subject st) = s -> forallb calm s = true -> quiet st -> length s < fu ->
  exists st' ls, inline_loop fu st = Ok st' /\ same_but_brackets st st' ls /\ concat ls = s.
Proof.
  induction n as [|n IH]; intros s st fu Hn E Ht Hq Hf; (destruct fu as [|fu]; [lia|]).
  - destruct s; [|cbn in Hn; lia]. exists st, []. split; [apply loop_end; exact E|]. split; [apply same_nil|reflexivity].
  - destruct s as [|c s]; [exists st, []; split; [apply loop_end; exact E|]; split; [apply same_nil|reflexivity]|].
    assert (Hc : calm c = true) by (cbn [forallb] in Ht; lia). destruct (step_calm st c s Hq E Hc) as (w & q & Es & Hw & s' & E1 & A & E2). rewrite (loop_step _ _ _ E1). rewrite Es in *.
    assert (0 < length w) by (destruct w; [congruence|cbn; lia]). rewrite forallb_app in Ht. rewrite !app_length in *.
    destruct (IH q s' fu) as (st' & ls & G1 & G2 & G3); [lia|exact E2|lia| |lia|].
    { destruct A as (A1 & A2 & A3 & _), Hq as (Q1 & Q2 & Q3 & Q4). unfold quiet. rewrite A1, A2, A3. auto. }
    exists st', (w :: ls). split; [exact G1|]. split; [|cbn [concat]; rewrite G3; reflexivity]. apply (same_trans st s' st' [w] ls A G2).
Qed.
Theorem bracket_line l : l <> [] -> Forall encodable l -> ~ In 41%N l -> forallb calm l = true ->
  (forall c, hd_error l = Some c -> is_space c = false /\ ~ block_char c /\ c <> 91%N) -> (forall c, last_opt l = Some c -> is_space c = false) -> ~ list_number l ->
  exists t, parse_doc false l = Ok t /\ text_para t l.
Proof.
  intros Hne Hen H41 Hcalm Hh Hl Hn. destruct l as [|c r] eqn:El; [congruence|]. destruct (Hh c eq_refl) as (Hc & Hb & H91). rewrite <- El in *.
  assert (Hx : forall x, In x l -> calm x = true) by (apply forallb_forall, Hcalm).
  assert (He : no_eol l) by (intros x X; apply Hx in X; split; intros ->; discriminate X). assert (H0 : ~ In 0%N l) by (intros X; apply Hx in X; discriminate X).
  assert (Er : replace_char 0 65533 (c :: r) = c :: r). { rewrite <- El. unfold replace_char. rewrite <- (map_id l) at 2. apply map_ext_in. intros x X. destruct (N.eqb_spec x 0) as [->|]; [contradiction|reflexivity]. }
  assert (Hns : no_start (c :: r)). { apply no_start_text; [|rewrite <- El; exact Hn]. unfold start_char. destruct (existsb _ _) eqn:Es; [|reflexivity]. exfalso. apply Hb. apply existsb_exists in Es as (x & Hin & Ex). apply N.eqb_eq in Ex. subst x. exact Hin. }
  destruct (one_para false l 0 c r He ltac:(rewrite El; exact Er) ltac:(lia) Hc H91 Hns) as (dd & pd & s0 & D1 & D2 & D3 & D4 & D5 & E). rewrite E.
  change (c :: r ++ [LF]) with ((c :: r) ++ [LF]). rewrite <- El. unfold parseInlines. rewrite strip_line; [|rewrite El; discriminate|rewrite El; intros x X; injection X as <-; exact Hc|exact Hl]. rewrite D4, D5.
  destruct (calm_loop (length l) l (IP l 0 [] false [] [] [] 0) (S (length l))) as (st' & ls & G1 & (_ & _ & _ & A4 & A5) & G3); [lia|reflexivity|exact Hcalm|unfold quiet; auto|lia|].
  rewrite G1. cbn [bind]. rewrite A4. cbn [ip_delims]. rewrite emphasis_none. cbn [bind]. eexists. split; [reflexivity|]. exists dd, pd, ls. cbn [map ip_kids app] in A5. rewrite A5. auto.
Qed.
Lemma bracket_calm l : Forall (fun c => ordinary_char c \/ c = 91%N) l -> forallb calm l = true.
Proof.
  intros H. apply forallb_forall. intros x Hx. rewrite Forall_forall in H. unfold calm. destruct (H x Hx) as [Ho| ->]; [|apply orb_true_r].
  pose proof (plain_tame [x] ltac:(constructor; [exact Ho|constructor])) as Ht. cbn [forallb] in Ht. lia.
Qed.
Theorem bracket_line_md o s : ho_sourcepos o = false -> s <> [] -> Forall (fun c => code_point c /\ ~ surrogate c) s -> Forall (fun c => ordinary_char c \/ c = 91%N) s -> ~ In 41%N s ->
  (forall c, hd_error s = Some c -> is_space c = false /\ ~ block_char c /\ c <> 91%N) -> (forall c, last_opt s = Some c -> is_space c = false) -> ~ list_number s ->
  (exists t, parse_doc false s = Ok t /\ paragraph_of_text t s) /\ md_to_html false o s = Ok (one_paragraph (html_text s)).
Proof. intros Ho H1 H2 H3 H4 H5 H6 H7. apply text_para_md; [exact Ho|]. apply bracket_line; try assumption. apply bracket_calm, H3. Qed.
