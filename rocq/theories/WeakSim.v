(** * Lines that cannot interrupt a paragraph, beside the same lines indented otherwise (C62) *)
From Verif Require Import Base Regex Common NormRef Node Inlines Blocks Html Main RegexFacts RegexLang StrFacts StrProp Spec SpecTree SpecSame SpecLines SpecParas SpecLazy SpecWeak TreeFacts
  InlineFacts HtmlFacts RenderFacts BlockFacts BlockInv BlockSteps BlockRun LineFacts ParseFacts AfterFacts Sim SimFacts SameHtml LazyInv LazyFacts LazySim WeakFacts WeakStart.
From Coq Require Import ZifyBool ZifyNat ZifyN.

Lemma process_all_snoc : forall k x s ks s', process_all (k ++ [x]) s = Ok (ks, s') -> exists k' x' s1, ks = k' ++ [x'] /\ process_inlines x s1 = Ok (x', s').
Proof.
  induction k as [|y k IH]; intros x s ks s' H; cbn [app process_all] in H.
  - destruct (process_inlines x s) as [[x' s1]|e] eqn:E; [|discriminate]. cbn [bind] in H. apply Ok_inj in H. injection H as <- <-. exists [], x', s. auto.
  - destruct (process_inlines y s) as [[y' s1]|e] eqn:E; [|discriminate]. cbn [bind] in H. destruct (process_all (k ++ [x]) s1) as [[l s2]|e] eqn:E2; [|discriminate]. cbn [bind] in H. apply Ok_inj in H. injection H as <- <-.
    destruct (IH _ _ _ _ E2) as (k' & x' & s0 & -> & G). exists (y' :: k'), x', s0. auto.
Qed.
Lemma process_data d k s t s' : process_inlines (T d k) s = Ok (t, s') -> t_data t = d.
Proof.
  rewrite process_inlines_eq. destruct (is_container (n_t d)); [|intros X; apply Ok_inj in X; injection X as <- _; reflexivity].
  destruct (process_all k s) as [[ks s1]|e]; [|discriminate]. cbn [bind]. destruct (_ || _); [|intros X; apply Ok_inj in X; injection X as <- _; reflexivity].
  destruct (of_option _ _); [|discriminate]. cbn [bind]. destruct (parseInlines _ _) as [[inls s2]|e]; [|discriminate]. cbn [bind]. intros X; apply Ok_inj in X; injection X as <- _; reflexivity.
Qed.
Lemma process_last d k x s t s' : n_t d = document -> process_inlines (T d (k ++ [x])) s = Ok (t, s') -> exists k' x', t = T d (k' ++ [x']) /\ t_data x' = t_data x.
Proof.
  intros Hd. rewrite process_inlines_eq, Hd. change (is_container document) with true. cbv iota. destruct (process_all _ s) as [[ks s1]|e] eqn:E; [|discriminate]. cbn [bind ntype_eqb orb]. intros X. apply Ok_inj in X. injection X as <- _.
  destruct (process_all_snoc _ _ _ _ _ E) as (k' & x' & s0 & -> & G). exists k', x'. split; [reflexivity|]. destruct x as [dx kx]. apply process_data in G. exact G.
Qed.
Lemma stack_bottom Q A E : forall st b, stack_ok Q A E (st ++ [b]) -> f_type b = document.
Proof.
  induction st as [|x st IH]; intros b H; cbn [app] in H.
  - destruct H as [_ [H _]]. exact H.
  - destruct st as [|y st]; cbn [app] in *; destruct H as (_ & _ & _ & H); [apply (IH b H)|apply (IH b H)].
Qed.
Lemma stack_above Q A E : forall st fr, stack_ok Q A E (fr :: st) -> Forall (fun f => f_type f <> paragraph) st.
Proof.
  induction st as [|y st IH]; intros fr H; [constructor|]. destruct H as (_ & H1 & _ & H2). constructor; [intros X; rewrite X in H1; discriminate|]. apply (IH y H2).
Qed.
Lemma list_eq_nil {X} (l : list X) : l = [] \/ l <> [].
Proof. destruct l; [left; reflexivity|right; discriminate]. Qed.
Lemma text_top smart ls p : Forall (Forall code_point) ls -> Forall no_eol ls -> ls <> [] -> ends_top smart ls -> incorporate_lines ls (reset (new_parser smart)) = Ok p ->
  exists fr d, p_stack p = [fr; d] /\ f_type fr = paragraph.
Proof.
  intros Hc He Hne (d & k & pd & pk & Et & Hp & Hl) Ep.
  assert (Ho : ends_open smart ls). { exists (T d (k ++ [T pd pk])), pd. split; [exact Et|]. split; [|split; [exact Hp|exact Hl]]. cbn [nodes]. right. rewrite flat_map_app. apply in_or_app. right. cbn [flat_map nodes]. left. reflexivity. }
  destruct (text_open smart ls p Hc He Hne Ho Ep) as (fr & st & Es & Ht). pose proof (code_lines_edge smart ls p Hc Ep) as ((H1 & _) & _). rewrite Es in H1.
  destruct (stack_boxes _ _ _ _ _ H1 Ht) as (B1 & B2 & _). pose proof (stack_above _ _ _ _ _ H1) as Hab.
  destruct (exists_last B2) as (st1 & b & ->). pose proof (stack_bottom _ _ _ (fr :: st1) b H1) as Hbot.
  destruct (list_eq_nil st1) as [->|Hn1]; [exists fr, b; auto|]. exfalso. destruct (exists_last Hn1) as (up & f1 & ->). rewrite <- app_assoc in *. cbn [app] in *.
  assert (Hf1 : box f1 /\ f_type f1 <> paragraph).
  { inversion B1 as [|? ? _ B3]; subst. split; [rewrite Forall_forall in B3; apply B3|rewrite Forall_forall in Hab; apply Hab]; apply in_or_app; right; left; reflexivity. }
  destruct Hf1 as [Hb Hnp]. destruct b as [bd bk].
  assert (El : input_lines (lines_text ls) = ls) by (rewrite input_lines_text; apply text_lines_lines; assumption).
  change (parse_doc smart (lines_text ls)) with (result (parse (new_parser smart) (lines_text ls))) in Et. rewrite parse_finish, El, Ep in Et. cbn [bind] in Et. unfold finish in Et.
  destruct (finalize_all _ _ p) as [q|e] eqn:Ef; [|discriminate]. cbn [bind] in Et.
  destruct (finalize_last _ (fr :: up) f1 bd bk _ _ p q eq_refl Es Hbot Hb Hnp Ef) as (d' & d1 & k1 & Eq & Hd' & Hd1). rewrite Eq in Et. cbn [of_option bind] in Et.
  set (ip0 := IP _ _ _ _ _ _ _ _) in Et. destruct (process_inlines _ ip0) as [[t' s']|e] eqn:Epi; [|discriminate]. cbn [bind] in Et. apply Ok_inj in Et. subst t'.
  destruct (process_last _ _ _ _ _ _ Hd' Epi) as (k' & x' & E1 & E2). injection E1 as _ E1. apply app_inj_tail in E1 as [_ E1]. subst x'. cbn [t_data] in E2. congruence.
Qed.

(** ** The line in the document *)
Lemma repl_id : forall y z, replace_char 0 65533 y = z -> ~ In 65533%N z -> y = z.
Proof.
  unfold replace_char. induction y as [|c y IH]; intros [|d z] E H; cbn [map] in E; try discriminate; [reflexivity|]. injection E as E1 E2. destruct (N.eqb_spec c 0); [exfalso; apply H; left; congruence|].
  rewrite E1. f_equal. apply IH; [exact E2|]. intros X. apply H. right. exact X.
Qed.
Definition nul (c : N) : N := if N.eqb c 0 then 65533%N else c.
Lemma nul_ne c x : x <> 65533%N -> c <> x -> nul c <> x.
Proof. unfold nul. destruct (N.eqb_spec c 0); congruence. Qed.
Lemma repl_cons c r : replace_char 0 65533 (c :: r) = nul c :: replace_char 0 65533 r.
Proof. reflexivity. Qed.
Lemma repl_app a b : replace_char 0 65533 (a ++ b) = replace_char 0 65533 a ++ replace_char 0 65533 b.
Proof. unfold replace_char. apply map_app. Qed.
Lemma repl_same s : ~ In 0%N s -> replace_char 0 65533 s = s.
Proof. induction s as [|c s IH]; intros H; [reflexivity|]. rewrite repl_cons. unfold nul. destruct (N.eqb_spec c 0); [exfalso; apply H; left; assumption|]. rewrite IH; [reflexivity|]. intros X. apply H. right. exact X. Qed.
Lemma repl_repeat c n : c <> 0%N -> replace_char 0 65533 (repeat c n) = repeat c n.
Proof. intros H. apply repl_same. intros X. apply repeat_spec in X. congruence. Qed.
Lemma repl_in x s : In x s -> In (nul x) (replace_char 0 65533 s).
Proof. apply (in_map nul). Qed.
Lemma repl_hd s : hd_error (replace_char 0 65533 s) = option_map nul (hd_error s).
Proof. destruct s; reflexivity. Qed.
Lemma repl_back x s : In x (replace_char 0 65533 s) -> x <> 65533%N -> In x s.
Proof. intros H Hx. apply (in_map_iff nul) in H as (y & E & H). unfold nul in E. destruct (N.eqb_spec y 0); congruence. Qed.
Lemma weak_repl x : weak_start x -> weak_start (replace_char 0 65533 x).
Proof.
  intros H. destruct H as [c r Hc Hsp Hf Hu|c n Hc|c d r Hc Hd Hd'|c d r x Hc Hd Hx Hx1 Hx2|r x Hx Hx1 Hx2|c n r Hc Hn Hr|sl name r Hs Hn Ha Hr Hb|c r Hsp Hb Hu Ho].
  - rewrite repl_cons. apply weak_word.
    + unfold nul. destruct (N.eqb_spec c 0); [|exact Hc]. unfold block_char. cbn. intuition discriminate.
    + apply nul_ne; [discriminate|exact Hsp].
    + intros (a & b & t & E & Ha & Hb). rewrite <- repl_cons in E. apply Hf. destruct r as [|x [|y r]]; try discriminate. rewrite !repl_cons in E. injection E as E1 E2 E3 _. unfold nul in E1, E2, E3. exists a, b, r. split; [|auto].
      destruct (N.eqb_spec c 0), (N.eqb_spec x 0), (N.eqb_spec y 0); try lia. congruence.
    + intros X. apply Hu. rewrite <- repl_cons in X. destruct X as [(n & w & E & Hw)|(n & w & E & Hw)]; [left|right]; exists n, w; (split; [|exact Hw]); apply repl_id; try exact E; intros X; apply in_app_or in X as [X|X];
        try (apply repeat_spec in X; discriminate); unfold blanks in Hw; rewrite Forall_forall in Hw; destruct (Hw _ X); discriminate.
  - rewrite repl_same; [apply weak_empty, Hc|]. intros [X|X]; [lia|]. apply repeat_spec in X. discriminate.
  - rewrite !repl_cons. replace (nul c) with c by (unfold nul; destruct (N.eqb_spec c 0); lia). apply weak_joined; [exact Hc|apply nul_ne; [lia|exact Hd]|apply nul_ne; [lia|exact Hd']].
  - rewrite !repl_cons. replace (nul c) with c by (unfold nul; destruct (N.eqb_spec c 0); lia). apply (weak_rule c _ _ (nul x)); [exact Hc|apply nul_ne; [lia|exact Hd]|exact (repl_in x (d :: r) Hx)|apply nul_ne; [lia|exact Hx1]|apply nul_ne; [lia|exact Hx2]].
  - rewrite repl_cons. change (nul 95) with 95%N. apply (weak_line _ (nul x)); [exact (repl_in x r Hx)|apply nul_ne; [lia|exact Hx1]|apply nul_ne; [lia|exact Hx2]].
  - rewrite repl_cons, repl_app, repl_repeat by lia. replace (nul c) with c by (unfold nul; destruct (N.eqb_spec c 0); lia). apply weak_ticks; [exact Hc|exact Hn|]. rewrite repl_hd. destruct (hd_error r) as [y|]; [|discriminate]. cbn [option_map].
    intros X. injection X as X. assert (G : y <> c) by congruence. apply (nul_ne y c) in G; [contradiction|lia].
  - rewrite repl_cons, !repl_app. change (nul 60) with 60%N. rewrite (repl_same sl) by (destruct Hs as [-> | ->]; [intros []|intros [X|[]]; discriminate]).
    rewrite (repl_same name) by (intros X; rewrite Forall_forall in Ha; specialize (Ha _ X); unfold tag_char in Ha; lia). apply weak_tag; try assumption.
    intros c. rewrite repl_hd. destruct (hd_error r) as [y|]; [|discriminate]. cbn [option_map]. intros X. injection X as <-. destruct (Hr y eq_refl) as [Hy Hy']. unfold nul. destruct (N.eqb_spec y 0); [lia|]. auto.
  - rewrite repl_same; [apply weak_other; assumption|]. intros X. apply (Ho _ X). left. reflexivity.
Qed.
Lemma weak_first x : weak_start x -> no_eol x -> ~ In TAB x -> exists c r, replace_char 0 65533 x = c :: r /\ c <> SP /\ c <> TAB /\ c <> 10%N /\ c <> 13%N /\ no_stop (c :: r).
Proof.
  intros Hx He Ht. assert (Hw := weak_repl x Hx).
  assert (H10 : ~ In 10%N (replace_char 0 65533 x)) by (intros X; apply repl_back in X; [|discriminate]; destruct (He _ X) as [Y _]; apply Y; reflexivity).
  assert (H13 : ~ In 13%N (replace_char 0 65533 x)) by (intros X; apply repl_back in X; [|discriminate]; destruct (He _ X) as [_ Y]; apply Y; reflexivity).
  assert (H9 : ~ In 9%N (replace_char 0 65533 x)) by (intros X; apply repl_back in X; [|discriminate]; apply Ht, X).
  pose proof (weak_stop _ Hw H10 H9) as Hs. assert (G : exists c r, replace_char 0 65533 x = c :: r /\ c <> SP) by (destruct Hw; eexists; eexists; (split; [reflexivity|]); unfold SP; lia).
  destruct G as (c & r & E & Hc). rewrite E in *. exists c, r. split; [reflexivity|]. split; [exact Hc|]. split; [intros ->; apply H9; left; reflexivity|]. split; [intros ->; apply H10; left; reflexivity|]. split; [intros ->; apply H13; left; reflexivity|exact Hs].
Qed.
(** the line, after [m] spaces, cannot interrupt a paragraph *)
Definition held (m : nat) (x : str) : Prop := weak_start x \/ deep m x.
Lemma held_first x m n : weak_start x \/ deep m x /\ deep n x -> no_eol x -> ~ In TAB x -> exists c r, replace_char 0 65533 x = c :: r /\ c <> SP /\ c <> TAB /\ c <> 10%N /\ c <> 13%N /\ (m <= 3 -> no_stop (c :: r)) /\ (n <= 3 -> no_stop (c :: r)).
Proof.
  intros [Hx|[(H1 & H2 & H3) (H4 & _)]] He Ht.
  - destruct (weak_first x Hx He Ht) as (c & r & E & C1 & C2 & C3 & C4 & C5). exists c, r. auto 10.
  - destruct x as [|a x]; [contradiction|]. destruct (He a (or_introl eq_refl)) as [L1 L2]. cbn [replace_char map]. eexists. eexists. split; [reflexivity|].
    assert (G : forall y, y <> 65533%N -> a <> y -> (if N.eqb a 0 then 65533%N else a) <> y) by (intros y Y1 Y2; destruct (N.eqb a 0); [apply not_eq_sym, Y1|exact Y2]).
    split; [apply G; [discriminate|intros ->; apply H3; reflexivity]|]. split; [apply G; [discriminate|intros ->; apply Ht; left; reflexivity]|]. split; [apply G; [discriminate|exact L1]|]. split; [apply G; [discriminate|exact L2]|]. split; intros X; lia.
Qed.
Lemma top_ends smart ls : ends_top smart ls -> ends_open smart ls.
Proof.
  intros (d & k & pd & pk & Et & Hp & Hl). exists (T d (k ++ [T pd pk])), pd. split; [exact Et|]. split; [|split; [exact Hp|exact Hl]]. cbn [nodes]. right. rewrite flat_map_app. apply in_or_app. right. cbn [flat_map nodes]. left. reflexivity.
Qed.
Lemma none_top smart : ~ ends_top smart [].
Proof. intros H. apply (none_open smart), top_ends, H. Qed.
Lemma twins_top x m n i j p q fr d : weak_start x \/ deep m x /\ deep n x -> no_eol x -> ~ In TAB x -> twins 0 0 p q -> code_edge i p -> code_edge j q -> p_stack p = [fr; d] -> f_type fr = paragraph ->
  exists p1 q1, incorporate_line (repeat 32%N m ++ x) p = Ok p1 /\ incorporate_line (repeat 32%N n ++ x) q = Ok q1 /\ twins 0 0 p1 q1.
Proof.
  intros Hx He Ht H Hp Hq Es Hty. destruct (held_first x m n Hx He Ht) as (c & r & Er & C1 & C2 & C3 & C4 & C6 & C7).
  pose proof (twins_stack _ _ _ _ H) as Hs. rewrite Es in Hs. inversion Hs as [|f f' s s' Hf Hss E1 E2]; subst. symmetry in E2. inversion Hss as [b b' e Hb Hee E3 E4|f0 f0' s0 s0' _ Hx0]; subst; [|inversion Hx0].
  destruct Hee as [[-> _]|[(? & _ & _ & _ & X)|(? & ? & _ & _ & _ & _ & _ & X)]]; try discriminate.
  pose proof Hf as [Hd Hk]. assert (Hty' : f_type f' = paragraph) by (unfold f_type in *; rewrite (drel_type _ _ _ _ _ Hd); exact Hty).
  destruct (edge_boxes _ _ _ _ Hp Es Hty) as (B1 & B2 & B3 & sc & B4). destruct (edge_boxes _ _ _ _ Hq E2 Hty') as (D1 & D2 & D3 & sc' & D4).
  assert (Esc : sc' = sc). { pose proof (drel_field _ _ _ n_string_content _ _ ltac:(reflexivity) Hd) as G. congruence. } subst sc'.
  inversion D1 as [|? ? D0 D1']; subst.
  destruct (line_top m c r C1 C2 C3 C4 C6 (repeat 32%N m ++ x) p fr d sc) as (p1 & P1 & P2 & P3 & P4 & P5 & P6); try assumption. { rewrite replace_text, Er. reflexivity. }
  destruct (line_top n c r C1 C2 C3 C4 C7 (repeat 32%N n ++ x) q f' b' sc) as (q1 & Q1 & Q2 & Q3 & Q4 & Q5 & Q6); try assumption. { rewrite replace_text, Er. reflexivity. }
  exists p1, q1. split; [exact P1|]. split; [exact Q1|]. destruct H as (q' & H & _ & E). exists (marked (p_all_closed p1) (p_matched p1 + 0) q1).
  split; [|split; [|reflexivity]].
  - pose proof (f_equal p_line_number E) as F1. pose proof (f_equal p_refmap E) as F2. pose proof (f_equal p_smart E) as F3. cbn [at_end p_line_number p_refmap p_smart] in F1, F2, F3.
    pose proof (l_num _ _ _ _ _ _ _ _ _ _ _ H) as G1. pose proof (l_refmap _ _ _ _ _ _ _ _ _ _ _ H) as G2. pose proof (l_smart _ _ _ _ _ _ _ _ _ _ _ H) as G3. unfold same_smart in G3.
    constructor; cbn [marked p_stack p_line_number p_refmap p_smart p_all_closed p_matched p_last_line_length set_p_matched set_p_all_closed].
    + rewrite P2, Q2. constructor; [|exact Hss]. split; [|exact Hk]. apply (drel_set _ _ _ (set_n_string_content _)); [reflexivity|reflexivity|exact Hd].
    + lia.
    + reflexivity.
    + intros _. split; [reflexivity|exact P6].
    + congruence.
    + exact I.
    + unfold same_smart. congruence.
  - intros y. apply incorporate_marked. rewrite Q2. constructor; [unfold box; tauto|exact D1'].
Qed.
Lemma weak_empty_lines smart qs : weak_lines smart [] qs -> qs = [].
Proof. intros H. remember [] as ls eqn:E. destruct H; [reflexivity|destruct ls; discriminate..]. Qed.
Lemma weak_run smart ls qs : weak_lines smart ls qs -> Forall (Forall code_point) ls -> Forall (Forall code_point) qs -> Forall no_eol ls -> Forall (fun l => ~ In TAB l) ls -> ls <> [] ->
  rrel (twins 0 0) (incorporate_lines ls (reset (new_parser smart))) (incorporate_lines qs (reset (new_parser smart))).
Proof.
  assert (G : forall ls qs x m n, weak_lines smart ls qs -> (Forall (Forall code_point) ls -> Forall (Forall code_point) qs -> Forall no_eol ls -> Forall (fun l => ~ In TAB l) ls -> ls <> [] ->
      rrel (twins 0 0) (incorporate_lines ls (reset (new_parser smart))) (incorporate_lines qs (reset (new_parser smart)))) -> ends_top smart ls -> weak_start x \/ deep m x /\ deep n x ->
    Forall (Forall code_point) (ls ++ [repeat 32%N m ++ x]) -> Forall (Forall code_point) (qs ++ [repeat 32%N n ++ x]) -> Forall no_eol (ls ++ [repeat 32%N m ++ x]) -> Forall (fun l => ~ In TAB l) (ls ++ [repeat 32%N m ++ x]) ->
    rrel (twins 0 0) (incorporate_lines (ls ++ [repeat 32%N m ++ x]) (reset (new_parser smart))) (incorporate_lines (qs ++ [repeat 32%N n ++ x]) (reset (new_parser smart)))).
  { intros ls0 qs0 x m n H IH Ho Hx Hc Hq He Ht. apply Forall_app in Hc as [Hc Hc1], Hq as [Hq Hq1], He as [He He1], Ht as [Ht Ht1]; inversion Ht1 as [|? ? T1 _]; inversion He1 as [|? ? E1 _]; subst; clear Ht1 He1; rewrite !snoc_one. rename ls0 into ls1, qs0 into qs1.
    destruct ls1 as [|l0 ls0]; [destruct (none_top _ Ho)|]. specialize (IH Hc Hq He Ht ltac:(discriminate)).
    destruct (incorporate_lines (l0 :: ls0) _) as [p|e] eqn:Ep; [|destruct e; cbn [bind rrel] in IH |- *; try rewrite IH; auto]. destruct IH as (q & Eq & IH). rewrite Eq. cbn [bind].
    destruct (text_top smart (l0 :: ls0) p Hc He ltac:(discriminate) Ho Ep) as (fr & d & Es & Hty).
    destruct (twins_top x m n (length (l0 :: ls0)) (length qs1) p q fr d Hx (text_no_eol _ _ E1)) as (p1 & q1 & -> & -> & G); [intros X; apply T1, in_or_app; right; exact X|exact IH|eapply code_lines_edge; eassumption|eapply code_lines_edge; eassumption|exact Es|exact Hty|].
    apply rrel_ok, G. }
  induction 1 as [|ls qs l H IH|ls qs x m n H IH Ho Hx|ls qs x m n H IH Ho Hx Hy]; intros Hc Hq He Ht Hne; [congruence| |apply G; auto|apply G; auto]; clear G; apply Forall_app in Hc as [Hc Hc1], Hq as [Hq Hq1], He as [He He1], Ht as [Ht Ht1];
    inversion Ht1 as [|? ? T1 _]; inversion He1 as [|? ? E1 _]; subst; clear Ht1 He1 Hne; rewrite !snoc_one.
  - destruct ls as [|l0 ls].
    + apply weak_empty_lines in H as ->. cbn [incorporate_lines bind].
      apply first_same. reflexivity.
    + specialize (IH Hc Hq He Ht ltac:(discriminate)). eapply rrel_bind; [exact IH|]. intros p q (q' & H1 & H2 & H3). rewrite <- H2.
      pose proof (incorporate_same 0 0 0 None [] any_Rl False moved_hex same_smart no_pre no_pre_blank l p q' eq_refl eq_refl (fun n => I) H1) as G.
      destruct (incorporate_line l p) as [p1|e]; [|destruct e; exact G]. destruct G as (q1 & -> & G). apply rrel_ok, twins_sides, r1_rl, G.
Qed.
Lemma weak_length smart ls qs : weak_lines smart ls qs -> length qs = length ls.
Proof. induction 1; rewrite ?app_length; cbn [length]; lia. Qed.
Lemma weak_doc smart s s' : Forall code_point s -> Forall code_point s' -> ~ In TAB s -> weak_lines smart (text_lines s) (text_lines s') ->
  match parse_doc smart s with
  | Ok (T d k) => exists d' k', parse_doc smart s' = Ok (T d' k') /\ n_t d = document /\ n_t d' = document /\ Forall2 (same_blocks still_place) k k'
  | Err e => parse_doc smart s' = Err e
  end.
Proof.
  intros Hs Hs' Ht Hl. pose proof (result_total (new_parser smart) s Hs) as Hf. pose proof (fun t => doc_positions smart s t Hs) as Hpos. pose proof (parse_doc_facts smart s) as Hty. pose proof (parse_doc_facts smart s') as Hty'.
  change (parse_doc smart s) with (result (parse (new_parser smart) s)) in *. change (parse_doc smart s') with (result (parse (new_parser smart) s')) in *. rewrite (parse_finish (new_parser smart) s), (parse_finish (new_parser smart) s') in *.
  destruct (lines_of s Hs Ht) as (L1 & L2 & L3). pose proof (weak_run smart _ _ Hl L1 (lines_code s' Hs') L2 L3 (text_lines_ne s)) as H. pose proof (weak_length _ _ _ Hl) as El. rewrite <- !input_lines_text in *.
  assert (Hn : 1 <= length (input_lines s)) by (pose proof (input_lines_ne s); lia).
  destruct (incorporate_lines (input_lines s) _) as [p1|e] eqn:E1; cbn [bind] in *.
  - destruct H as (q1 & E2 & H). rewrite E2 in *. cbn [bind] in *. rewrite El in *.
    pose proof (code_lines_edge smart _ _ L1 E1) as Hed. apply edge_number in Hed. pose proof (twins_end 0 0 p1 q1 ltac:(lia) H) as G0.
    pose proof (finish_sim 0 0 0 None [] any_Rl False moved_hex same_smart no_pre no_pre_blank no_pre no_pre_inlines (length (input_lines s)) (at_end 0 p1) (at_end 0 q1) ltac:(lia) (fun _ _ X => X) G0) as G. rewrite Nat.add_0_r, !finish_end in G.
    assert (Hleaf : forall p2 t, finalize_all (length (p_stack (at_end 0 p1))) (length (input_lines s)) (at_end 0 p1) = Ok p2 -> p_doc p2 = Some t -> tree_every leaf_par t).
    { intros x t Ex Et. rewrite finalize_all_end in Ex. change (p_stack (at_end 0 p1)) with (p_stack p1) in Ex. destruct (finalize_all (length (p_stack p1)) _ p1) as [x0|e] eqn:E0; [|discriminate]. cbn [bind] in Ex. apply Ok_inj in Ex as <-. eapply (blocks_leaf _ s); eassumption. }
    specialize (G Hleaf). destruct (finish (length (input_lines s)) p1) as [t|e].
    + destruct G as (t' & Et & d & k & d' & k' & -> & G1 & G2 & G3 & G4 & G5 & [[_ ->]|[X _]]); [|discriminate]. rewrite Et in *. exists d', k'. split; [reflexivity|].
      pose proof (Hty _ Hs eq_refl) as (_ & Hdoc & _). split; [exact Hdoc|]. split; [apply (Hty' _ Hs' eq_refl)|].
      specialize (Hpos _ eq_refl). apply tree_every_unfold in Hpos as [_ Hpos].
      apply no_pkrel in G2. clear - G2 Hpos. induction G2 as [|x y l l' Hx _ IH]; [constructor|]. inversion Hpos as [|a b P1 P2]; subst. constructor; [|apply IH, P2].
      eapply prel_blocks; [|exact Hx|exact P1]. intros. cbn [still_place]. lia.
    + destruct e; cbn in G; try exact G. congruence.
  - destruct e; cbn [rrel] in H; try (rewrite H; reflexivity). congruence.
Qed.

Lemma weak_html smart o s s' : ho_sourcepos o = false -> Forall code_point s -> Forall code_point s' -> ~ In TAB s -> weak_lines smart (text_lines s) (text_lines s') ->
  md_to_html smart o s' = md_to_html smart o s.
Proof.
  intros Ho Hs Hs' Ht Hl. pose proof (weak_doc smart s s' Hs Hs' Ht Hl) as H. unfold md_to_html, render_html.
  destruct (parse_doc smart s) as [[d k]|e]; cbn [bind]; [|rewrite H; reflexivity]. destruct H as (d' & k' & -> & E & E' & Hk). cbn [bind]. rewrite !html_document by assumption.
  rewrite (html_kids_same o Ho k k' [d] [d']); [reflexivity| |apply arel_doc; assumption]. eapply Forall2_impl'; [|exact Hk]. intros x y. apply same_eqp.
Qed.

(** ** No block begins with the line *)
Lemma process_all_data : forall k s ks s', process_all k s = Ok (ks, s') -> map t_data ks = map t_data k.
Proof.
  induction k as [|y k IH]; intros s ks s' H; cbn [process_all] in H; [apply Ok_inj in H; injection H as <- _; reflexivity|].
  destruct (process_inlines y s) as [[y' s1]|e] eqn:E; [|discriminate]. cbn [bind] in H. destruct (process_all k s1) as [[l s2]|e] eqn:E2; [|discriminate]. cbn [bind] in H. apply Ok_inj in H. injection H as <- _.
  destruct y as [dy ky]. apply process_data in E. cbn [map t_data] in *. rewrite E, (IH _ _ _ E2). reflexivity.
Qed.
Lemma finish_two n p fr bd bk t : p_stack p = [fr; F bd bk] -> f_type fr = paragraph -> n_t bd = document -> finish n p = Ok t ->
  exists d k ks, t = T d k /\ map t_data k = map t_data bk ++ ks /\ (ks = [] \/ exists pd, ks = [pd] /\ n_t pd = paragraph /\ last_line pd = n).
Proof.
  intros Es Hty Hd. unfold finish. rewrite Es. cbn [length finalize_all]. rewrite Es. destruct (finalize_tip n p) as [p1|e] eqn:E1; [|discriminate]. cbn [bind].
  assert (G : exists ks, p_stack p1 = [F bd (bk ++ ks)] /\ (ks = [] \/ exists pd pk, ks = [T pd pk] /\ n_t pd = paragraph /\ last_line pd = n)).
  { unfold finalize_tip in E1. rewrite Es in E1. destruct (of_option TypeError _) as [[sp0 y]|e]; [|discriminate]. cbn [bind] in E1. set (dd := set_n_sourcepos _ _) in E1.
    assert (Ed : n_t dd = paragraph) by exact Hty. assert (Hl : last_line dd = n) by (unfold last_line, dd; cbn [n_sourcepos set_n_sourcepos]; destruct sp0; reflexivity). clearbody dd. rewrite Ed in E1.
    destruct (finalize_paragraph dd _) as [[[d' gone] p0]|e] eqn:Ep; [|discriminate]. cbn [bind] in E1. apply Ok_inj in E1 as <-. unfold finalize_paragraph in Ep. destruct (of_option _ _) as [sc|]; [|discriminate]. cbn [bind] in Ep.
    destruct (strip_refs sc _) as [[[c0 g0] p2]|e] eqn:E0; [|discriminate]. cbn [bind] in Ep. apply Ok_inj in Ep. injection Ep as <- <- <-. apply strip_refs_stack in E0 as [E0 _]. cbn [p_stack set_p_stack] in E0.
    destruct (g0 && is_blank c0); [exists []; rewrite app_nil_r; split; [exact E0|left; reflexivity]|]. unfold attach. rewrite E0. eexists. split; [reflexivity|]. right. eexists. eexists. split; [reflexivity|]. split; [exact Ed|exact Hl]. }
  destruct G as (ks & G1 & G2). rewrite G1. destruct (finalize_tip n p1) as [p2|e] eqn:E2; [|discriminate]. cbn [bind].
  unfold finalize_tip in E2. rewrite G1 in E2. destruct (of_option TypeError _) as [[sp0 y]|e]; [|discriminate]. cbn [bind] in E2. set (dd := set_n_sourcepos _ _) in E2. assert (Ed : n_t dd = document) by exact Hd. clearbody dd. rewrite Ed in E2. apply Ok_inj in E2 as <-.
  unfold attach. cbn [p_stack set_p_stack p_doc set_p_doc of_option bind f_kids]. set (ip0 := IP _ _ _ _ _ _ _ _). rewrite process_inlines_eq, Ed. change (is_container document) with true. cbv iota.
  destruct (process_all (bk ++ ks) ip0) as [[l s1]|e] eqn:E; [|discriminate]. cbn [bind ntype_eqb orb]. intros X. apply Ok_inj in X. subst t. apply process_all_data in E. rewrite map_app in E.
  exists dd, l, (map t_data ks). split; [reflexivity|]. split; [exact E|]. destruct G2 as [->|(pd & pk & -> & G2)]; [left; reflexivity|right; exists pd; split; [reflexivity|exact G2]].
Qed.
Lemma weak_blocks smart ls x m d k pd pk t : Forall (Forall code_point) ls -> Forall no_eol ls -> no_eol x -> ~ In TAB x -> held m x ->
  parse_doc smart (lines_text ls) = Ok (T d (k ++ [T pd pk])) -> n_t pd = paragraph -> last_line pd = length ls ->
  parse_doc smart (lines_text (ls ++ [repeat 32%N m ++ x])) = Ok t ->
  exists d' k', t = T d' k' /\ (map t_data k' = map t_data k \/ exists pd', map t_data k' = map t_data k ++ [pd'] /\ n_t pd' = paragraph /\ last_line pd' = S (length ls)).
Proof.
  intros Hc He Hx Ht Hw E1 Hp Hl E2. assert (Ho : ends_top smart ls) by (exists d, k, pd, pk; auto).
  assert (Hne : ls <> []) by (intros ->; destruct (none_top _ Ho)).
  assert (El : input_lines (lines_text ls) = ls) by (rewrite input_lines_text; apply text_lines_lines; assumption).
  assert (El2 : input_lines (lines_text (ls ++ [repeat 32%N m ++ x])) = ls ++ [repeat 32%N m ++ x]).
  { rewrite input_lines_text. apply text_lines_lines; [|destruct ls; discriminate]. apply Forall_app. split; [exact He|]. constructor; [|constructor]. intros c Hin. apply in_app_or in Hin as [Hin|Hin]; [apply repeat_spec in Hin; subst; split; discriminate|apply Hx, Hin]. }
  change (parse_doc smart (lines_text ls)) with (result (parse (new_parser smart) (lines_text ls))) in E1. change (parse_doc smart (lines_text (ls ++ [repeat 32%N m ++ x]))) with (result (parse (new_parser smart) (lines_text (ls ++ [repeat 32%N m ++ x])))) in E2.
  rewrite parse_finish, El in E1. rewrite parse_finish, El2, snoc_one in E2. destruct (incorporate_lines ls _) as [p|e] eqn:Ep; [|discriminate]. cbn [bind] in E1, E2.
  destruct (text_top smart ls p Hc He Hne Ho Ep) as (fr & b & Es & Hty). pose proof (code_lines_edge smart ls p Hc Ep) as Hed. destruct (edge_boxes _ _ _ _ Hed Es Hty) as (_ & _ & Hq & sc & Hsc).
  destruct Hed as ((Hok & _) & Hpar & _). rewrite Es in Hok, Hpar. pose proof (stack_bottom _ _ _ [fr] b Hok) as Hbot. destruct b as [bd bk].
  destruct (held_first x m m ltac:(unfold held in Hw; tauto) Hx Ht) as (c & r & Er & C1 & C2 & C3 & C4 & C6 & _).
  destruct (line_top m c r C1 C2 C3 C4 C6 (repeat 32%N m ++ x) p fr (F bd bk) sc) as (q & Q1 & Q2 & _); try assumption. { rewrite replace_text, Er. reflexivity. }
  rewrite Q1 in E2. cbn [bind] in E2. destruct (finish_two _ p fr bd bk _ Es Hty Hbot E1) as (d0 & k0 & ks & X0 & X1 & X2). injection X0 as <- <-.
  destruct (finish_two _ q _ bd bk _ Q2 Hty Hbot E2) as (d' & k' & ks' & -> & Y1 & Y2). rewrite map_app in X1. cbn [map t_data] in X1.
  assert (Ek : map t_data bk = map t_data k).
  { destruct X2 as [->|(pd0 & -> & _)]; [|apply app_inj_tail in X1 as [X1 _]; symmetry; exact X1]. exfalso. rewrite app_nil_r in X1.
    assert (Hin : In pd (map t_data bk)) by (rewrite <- X1; apply in_or_app; right; left; reflexivity). apply in_map_iff in Hin as ([d1 k1] & Ed1 & Hin). cbn [t_data] in Ed1. subst d1.
    inversion Hpar as [|? ? _ P2]; subst. inversion P2 as [|? ? P3 _]; subst. cbn [f_kids] in P3. rewrite Forall_forall in P3. specialize (P3 _ Hin).
    pose proof (paras_nodes _ _ pd P3 (or_introl eq_refl) Hp) as G. destruct ls as [|l0 ls]; [contradiction|]. cbn [length] in *. lia. }
  exists d', k'. split; [reflexivity|]. rewrite Y1, Ek. destruct Y2 as [->|(pd' & -> & Y3 & Y4)]; [left; apply app_nil_r|right]. exists pd'. split; [reflexivity|]. split; [exact Y3|]. rewrite Y4, app_length. cbn [length]. lia.
Qed.
Lemma top_check smart ls : match parse_doc smart (lines_text ls) with Ok (T _ ks) => match rev ks with T pd _ :: _ => ntype_eqb (n_t pd) paragraph && Nat.eqb (last_line pd) (length ls) | [] => false end | Err _ => false end = true -> ends_top smart ls.
Proof.
  unfold ends_top. destruct (parse_doc smart (lines_text ls)) as [[d ks]|e]; [|discriminate]. destruct (rev ks) as [|[pd pk] r] eqn:E; [discriminate|]. intros H. apply andb_prop in H as [H1 H2].
  apply (f_equal (@rev tree)) in E. rewrite rev_involutive in E. cbn [rev] in E. exists d, (rev r), pd, pk. rewrite E. split; [reflexivity|]. split; [destruct (n_t pd); try discriminate; reflexivity|apply Nat.eqb_eq, H2].
Qed.
