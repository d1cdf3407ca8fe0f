(** * The inline parsing of lines of words *)
From Verif Require Import Base Regex Common NormRef Node Inlines Blocks Html Main RegexFacts StrFacts Spec SpecTree SpecSame SpecLines SpecParas
  TreeFacts CommonFacts StrProp EmphFacts InlineFacts HtmlFacts RenderFacts BlockFacts LineFacts ParseFacts Sim SimFacts SameHtml DocFacts TextFacts RuleFacts WordFacts.
From Verif Require RegexLang.
From Coq Require Import ZifyBool ZifyNat ZifyN.

(** ** Spaces at the end of a text *)
Lemma final_shape : reFinalSpace = RSeq (RRep true 0 None (RChr (cs1 32))) REol.
Proof. vm_compute. reflexivity. Qed.
Lemma spaces_no_lf k : ~ In 10%N (repeat SP k).
Proof. intros H. apply repeat_spec in H. discriminate. Qed.
Lemma final_at_none prev x k c : ~ In 10%N x -> last_opt x = Some c -> c <> SP -> match_at reFinalSpace prev (x ++ repeat SP k) = None.
Proof.
  intros Hx Hl Hc. rewrite final_shape. apply RegexLang.match_at_none_L; [reflexivity|]. intros g a E H. cbn [RegexLang.L] in H. destruct H as (g1 & g2 & -> & H & -> & Ha). rewrite !app_nil_r in *.
  apply (no_lf_end (x ++ repeat SP k) a g1) in Ha; [|rewrite in_app_iff; intros [X|X]; [auto|apply (spaces_no_lf _ X)]|exact E]. subst a. rewrite app_nil_r in E.
  apply (L_run true 0) in H as [_ H]. rewrite <- E in H. assert (Hin : In c (x ++ repeat SP k)). { apply in_or_app. left. destruct x as [|y x _] using rev_ind; [discriminate|]. rewrite last_opt_snoc in Hl. injection Hl as ->. apply in_or_app. right. left. reflexivity. }
  rewrite H in Hin. apply repeat_spec in Hin. contradiction.
Qed.
Lemma final_at_spaces prev k : match_at reFinalSpace prev (repeat SP k) = Some (repeat SP k, [], []).
Proof.
  rewrite final_shape.
  assert (H : hd_error (results (RSeq (RRep true 0 None (RChr (cs1 32))) REol) (MS prev (repeat SP k) [])) = Some (MS (prev_of prev (repeat SP k)) [] [])).
  { rewrite results_seq_app. assert (T : take_while (cmatch (cs1 32)) (repeat SP k) = repeat SP k /\ drop_while (cmatch (cs1 32)) (repeat SP k) = []).
    { rewrite <- (app_nil_r (repeat SP k)) at 1 3. apply take_while_app_stop; [|discriminate]. apply forallb_forall. intros x Hx. apply repeat_spec in Hx as ->. reflexivity. }
    destruct T as [T1 T2]. eapply hd_flat_map; [rewrite results_star, star_res_hd, T1, T2; reflexivity|]. reflexivity. }
  rewrite (match_at_hd _ _ _ _ H). cbn [ms_rest ms_caps length]. rewrite Nat.sub_0_r, firstn_all. reflexivity.
Qed.
Lemma final_loop k : forall x fu prev, length x + k < fu -> ~ In 10%N x -> (forall c, last_opt x = Some c -> c <> SP) -> sub_loop fu reFinalSpace (fun _ => []) prev (x ++ repeat SP k) = x.
Proof.
  induction x as [|c x IH]; intros fu prev Hf Hn Hl; (destruct fu as [|fu]; [lia|]).
  - cbn [app sub_loop]. rewrite final_at_spaces. cbn [app]. destruct k as [|k]; [reflexivity|]. cbn [repeat is_nil]. destruct fu as [|fu]; [lia|]. cbn [sub_loop]. rewrite (final_at_spaces _ 0 : match_at _ _ [] = _). reflexivity.
  - destruct (last_opt (c :: x)) as [e|] eqn:Ee; [|destruct (exists_last (l := c :: x) ltac:(discriminate)) as (y & z & X); rewrite X, last_opt_snoc in Ee; discriminate].
    pose proof (final_at_none prev (c :: x) k e Hn Ee (Hl e eq_refl)) as N. cbn [sub_loop]. rewrite N. cbn [app]. f_equal. apply IH.
    + cbn [length] in Hf. lia.
    + intros X. apply Hn. right. exact X.
    + intros y Hy. apply Hl. rewrite <- Ee, last_opt_cons, Hy. reflexivity.
Qed.
Lemma final_space x k : ~ In 10%N x -> (forall c, last_opt x = Some c -> c <> SP) -> re_sub reFinalSpace (fun _ => []) (x ++ repeat SP k) = x.
Proof. intros Hn Hl. unfold re_sub. apply final_loop; [rewrite app_length, repeat_length; lia|exact Hn|exact Hl]. Qed.
Lemma initial_none s q : skipn (ip_pos s) (ip_subject s) = q -> hd_error q <> Some SP -> ip_skip reInitialSpace s = s.
Proof.
  intros E Hq. unfold ip_skip, ip_match. rewrite E. assert (Es : reInitialSpace = RSeq RBol (RRep true 0 None (RChr (cs1 32)))) by (vm_compute; reflexivity). rewrite Es, re_search_bol.
  assert (Hm : match_at (RRep true 0 None (RChr (cs1 32))) None q = Some ([], q, [])).
  { assert (H : hd_error (results (RRep true 0 None (RChr (cs1 32))) (MS None q [])) = Some (MS None q [])).
    { rewrite results_star, star_res_hd. destruct q as [|c q]; [reflexivity|]. cbn [take_while drop_while]. rewrite cs1_spec. destruct (N.eqb_spec c 32) as [->|]; [destruct Hq; reflexivity|reflexivity]. }
    rewrite (match_at_hd _ _ _ _ H). cbn [ms_rest ms_caps]. rewrite Nat.sub_diag. reflexivity. }
  rewrite Hm. unfold rm_end. cbn [rm_before rm_group length]. rewrite !Nat.add_0_r. destruct s; reflexivity.
Qed.

(** ** Words up to something else *)
Definition steps (n : nat) (st st' : ip) : Prop := forall fu, inline_loop (n + fu) st = inline_loop fu st'.
Lemma steps_trans n m a b c : steps n a b -> steps m b c -> steps (n + m) a c.
Proof. intros H1 H2 fu. rewrite <- Nat.add_assoc, H1, H2. reflexivity. Qed.
Lemma steps_one st st' : parseInline st = Ok (true, st') -> steps 1 st st'.
Proof. intros H fu. apply loop_step, H. Qed.
Definition stops (q : str) : Prop := hd_error q <> Some 91%N /\ forall c q', q = c :: q' -> main_special c = true.
Lemma tame_steps q : stops q -> forall n s st, length s <= n -> skipn (ip_pos st) (ip_subject st) = s ++ q -> s <> [] -> forallb tame s = true -> ip_brackets st = [] -> ip_smart st = false ->
  exists m st' ls, m <= length s /\ steps m st st' /\ adds st st' ls /\ concat ls = s /\ skipn (ip_pos st') (ip_subject st') = q /\
    (forall t k, s = t ++ repeat SP k -> exists x, last_opt ls = Some (x ++ repeat SP k) /\ x ++ repeat SP k <> []).
Proof.
  intros [Hq91 Hq]. induction n as [|n IH]; intros s st Hn E Hne Ht Hb Hs; [destruct s; [congruence|cbn in Hn; lia]|].
  destruct s as [|c s]; [congruence|]. clear Hne. pose proof Ht as Ht0. cbn [forallb] in Ht. apply andb_true_iff in Ht as [Hc Ht]. cbn [length] in Hn.
  destruct (main_special c) eqn:Ec.
  - assert (Hh : hd_error (s ++ q) <> Some 91%N). { intros X. destruct s as [|d s]; [exact (Hq91 X)|]. cbn [app hd_error] in X. injection X as ->. cbn [forallb] in Ht. discriminate Ht. }
    pose proof (steps_one _ _ (step_single st c (s ++ q) E (tame_main c Hc Ec) Hb Hs Hh)) as S1. set (st1 := append_kid (text_node [c]) (ip_adv 1 st)) in *.
    assert (E1 : skipn (ip_pos st1) (ip_subject st1) = s ++ q). { unfold st1. cbn [append_kid ip_adv set_ip_pos set_ip_next set_ip_kids ip_subject ip_pos]. apply (skipn_adv st [c]); [exact E|reflexivity]. }
    assert (Hsp : c <> SP) by (intros ->; discriminate Ec).
    destruct s as [|d s].
    + exists 1, st1, [[c]]. split; [cbn; lia|]. split; [exact S1|]. split; [apply adds_one|]. split; [reflexivity|]. split; [exact E1|]. intros t k Et. destruct k as [|k]; [exists [c]; rewrite app_nil_r; split; [reflexivity|discriminate]|].
      exfalso. assert (X : In SP [c]) by (rewrite Et; apply in_or_app; right; left; reflexivity). destruct X as [X|[]]; congruence.
    + destruct (IH (d :: s) st1 ltac:(cbn [length] in *; lia) E1 ltac:(discriminate) Ht Hb Hs) as (m & st' & ls & G1 & G2 & G3 & G4 & G5 & G6).
      exists (1 + m), st', ([c] :: ls). split; [cbn [length] in *; lia|]. split; [eapply steps_trans; eassumption|]. split; [apply (adds_trans st _ st' [[c]] ls (adds_one st 1 [c]) G3)|]. split; [cbn [concat app]; rewrite G4; reflexivity|]. split; [exact G5|].
      intros t k Et. destruct t as [|y t].
      * destruct k as [|k]; [discriminate|]. cbn [app repeat] in Et. congruence.
      * cbn [app] in Et. injection Et as <- Et. destruct (G6 t k Et) as (x & Hx & Hx'). exists x. rewrite last_opt_cons, Hx. split; [reflexivity|exact Hx'].
  - set (f := fun c => negb (main_special c)). set (g := take_while f (c :: s)). set (q1 := drop_while f (c :: s)). assert (Es : c :: s = g ++ q1) by (symmetry; apply take_drop_while).
    assert (Hg : g <> []) by (unfold g; cbn [take_while]; unfold f at 1; rewrite Ec; discriminate). assert (Hf' : forallb f g = true) by apply take_while_all.
    assert (Hq1 : forall x q', q1 = x :: q' -> main_special x = true) by (intros x q' Eq; unfold q1 in Eq; apply drop_while_head in Eq; unfold f in Eq; destruct (main_special x); [reflexivity|discriminate]).
    clearbody g q1. assert (Hlen : length (c :: s) <= S n) by (cbn; lia). rewrite Es in *. clear Es. rewrite <- app_assoc in E.
    assert (Hn1 : forall x q', q1 ++ q = x :: q' -> main_special x = true). { intros x q' X. destruct q1 as [|y q1]; [eapply Hq; exact X|]. cbn [app] in X. injection X as <- _. eapply Hq1; reflexivity. }
    pose proof (steps_one _ _ (step_run st g (q1 ++ q) E Hg Hf' Hn1 ltac:(intros X; congruence))) as S1. set (st1 := append_kid (text_node g) (ip_adv (length g) st)) in *.
    assert (E1 : skipn (ip_pos st1) (ip_subject st1) = q1 ++ q). { unfold st1. cbn [append_kid ip_adv set_ip_pos set_ip_next set_ip_kids ip_subject ip_pos]. apply (skipn_adv st g); [exact E|reflexivity]. }
    assert (Hg0 : 0 < length g) by (destruct g; [congruence|cbn; lia]). rewrite forallb_app in Ht0. apply andb_true_iff in Ht0 as [_ Ht0]. rewrite app_length in Hlen.
    destruct q1 as [|d q1].
    + exists 1, st1, [g]. rewrite app_nil_r in *. split; [lia|]. split; [exact S1|]. split; [apply adds_one|]. split; [cbn [concat]; apply app_nil_r|]. split; [exact E1|]. intros t k Et. exists t. rewrite <- Et. split; [reflexivity|exact Hg].
    + destruct (IH (d :: q1) st1 ltac:(lia) E1 ltac:(discriminate) Ht0 Hb Hs) as (m & st' & ls & G1 & G2 & G3 & G4 & G5 & G6).
      exists (1 + m), st', (g :: ls). split; [rewrite app_length; lia|]. split; [eapply steps_trans; eassumption|]. split; [apply (adds_trans st _ st' [g] ls (adds_one st _ g) G3)|]. split; [cbn [concat]; rewrite G4; reflexivity|]. split; [exact G5|].
      intros t k Et. assert (Hd : d <> SP) by (intros ->; specialize (Hq1 _ _ eq_refl); discriminate Hq1).
      apply app_split in Et as (z & [(Z1 & Z2)|(Z1 & Z2)]).
      * exfalso. apply Hd. apply (repeat_spec k SP). rewrite Z2. apply in_or_app. right. left. reflexivity.
      * destruct (G6 z k Z2) as (x & Hx & Hx'). exists x. rewrite last_opt_cons, Hx. split; [reflexivity|exact Hx'].
Qed.

(** ** HTML of children *)
Definition shows (soft : str) (K : list tree) (s : str) : Prop :=
  forall o anc st, ho_softbreak o = soft -> h_dis st = 0%Z -> exists l, html_events o (flat_map (events anc) K) st = Ok (HS (h_buf st ++ s) l 0%Z).
Lemma shows_nil soft : shows soft [] [].
Proof. intros o anc st _ Hd. exists (h_last st). cbn [flat_map html_events]. rewrite app_nil_r, <- Hd. destruct st; reflexivity. Qed.
Lemma shows_app soft a b s t : shows soft a s -> shows soft b t -> shows soft (a ++ b) (s ++ t).
Proof.
  intros H1 H2 o anc st Ho Hd. rewrite flat_map_app, html_events_app. destruct (H1 o anc st Ho Hd) as (l & ->). cbn [bind]. destruct (H2 o anc (HS (h_buf st ++ s) l 0%Z) Ho eq_refl) as (l' & ->).
  exists l'. cbn [h_buf]. rewrite <- app_assoc. reflexivity.
Qed.
Lemma shows_texts soft ls : shows soft (map text_node ls) (html_text (concat ls)).
Proof. intros o anc st _ Hd. destruct (texts_html o anc ls st) as (l & ->). rewrite escape_xml_html, Hd. exists l. reflexivity. Qed.
Lemma shows_soft soft : shows soft [T (new_node softbreak None) []] soft.
Proof. intros o anc [b l z] Ho Hd. cbn [h_dis] in Hd. subst z. rewrite <- Ho. exists (ho_softbreak o). reflexivity. Qed.
Lemma shows_hard soft : shows soft [T (new_node linebreak None) []] (u "<br />" ++ [10%N]).
Proof.
  intros o anc [b l z] _ Hd. cbn [h_dis] in Hd. subst z. exists [LF]. change (html_events o (flat_map (events anc) [T (new_node linebreak None) []]) (HS b l 0)) with (Ok (h_cr (h_tag (u "br") [] true (HS b l 0)))).
  cbn [h_buf]. rewrite app_assoc. reflexivity.
Qed.

(** ** One line *)
Definition goes (m : nat) (st st' : ip) (K : list tree) : Prop :=
  steps m st st' /\ ip_subject st' = ip_subject st /\ ip_refmap st' = ip_refmap st /\ ip_smart st' = ip_smart st /\ ip_delims st' = ip_delims st /\ ip_brackets st' = ip_brackets st /\
  map snd (ip_kids st') = map snd (ip_kids st) ++ K.
Lemma goes_trans n m a b c K K' : goes n a b K -> goes m b c K' -> goes (n + m) a c (K ++ K').
Proof. intros (A0 & A1 & A2 & A3 & A4 & A5 & A6) (B0 & B1 & B2 & B3 & B4 & B5 & B6). split; [eapply steps_trans; eassumption|]. rewrite B6, A6, app_assoc. repeat split; congruence. Qed.
Lemma goes_adds m st st' ls : steps m st st' -> adds st st' ls -> goes m st st' (map text_node ls).
Proof. intros S (A1 & A2 & A3 & A4 & A5 & A6). split; [exact S|]. auto 10. Qed.
Definition break_html (soft : str) (e : ending) : str := if hard e then u "<br />" ++ [10%N] else soft.
Lemma words_tame w : Forall ordinary_char w -> forallb tame w = true.
Proof. apply plain_tame. Qed.
Lemma spaces_tame k : forallb tame (repeat SP k) = true.
Proof. apply forallb_forall. intros x Hx. apply repeat_spec in Hx as ->. reflexivity. Qed.
Lemma step_break st q : skipn (ip_pos st) (ip_subject st) = 92%N :: 10%N :: q -> parseInline st = Ok (true, append_kid (T (new_node linebreak None) []) (ip_adv 2 st)).
Proof.
  intros E. unfold parseInline. rewrite (peek_skipn st _ _ E). cbn [N.eqb Pos.eqb LF]. unfold parseBackslash.
  assert (E1 : ip_peek (ip_adv 1 st) = Some 10%N). { apply (peek_skipn _ 10%N q). cbn [ip_adv set_ip_pos ip_pos ip_subject]. apply (skipn_adv st [92%N]); [exact E|reflexivity]. }
  unfold peek_is. rewrite E1. cbn [N.eqb Pos.eqb LF bind]. unfold ip_adv. cbn [ip_pos set_ip_pos]. rewrite <- Nat.add_assoc. reflexivity.
Qed.
Lemma last_snd (ks : list (nat * tree)) K t : map snd ks = K ++ [t] -> exists ks' id, ks = ks' ++ [(id, t)] /\ map snd ks' = K.
Proof.
  intros E. destruct ks as [|[id x] ks _] using rev_ind; [destruct K; discriminate|]. rewrite map_app in E. cbn [map snd] in E. apply app_inj_tail in E as [E ->]. exists ks, id. auto.
Qed.
Lemma step_newline st q K x k : skipn (ip_pos st) (ip_subject st) = 10%N :: q -> hd_error q <> Some SP -> map snd (ip_kids st) = K ++ [text_node (x ++ repeat SP k)] -> x ++ repeat SP k <> [] -> ~ In 10%N x -> (forall c, last_opt x = Some c -> c <> SP) ->
  exists st', parseInline st = Ok (true, st') /\ ip_subject st' = ip_subject st /\ ip_refmap st' = ip_refmap st /\ ip_smart st' = ip_smart st /\ ip_delims st' = ip_delims st /\ ip_brackets st' = ip_brackets st /\
    skipn (ip_pos st') (ip_subject st') = q /\ map snd (ip_kids st') = K ++ [text_node x; T (new_node (if Nat.leb 2 k then linebreak else softbreak) None) []].
Proof.
  intros E Hq Hk Hne Hx Hl. apply last_snd in Hk as (ks & id & Ek & EK). unfold parseInline. rewrite (peek_skipn st _ _ E). cbn [N.eqb Pos.eqb LF]. unfold parseNewline, newline_kids. change (ip_kids (ip_adv 1 st)) with (ip_kids st).
  rewrite Ek, last_opt_snoc. unfold text_node at 1. cbn [text_data n_t n_literal set_n_literal new_node]. change (ntype_eqb text text) with true. cbv iota. cbn [of_option bind].
  assert (Hfin : forall s1 t, ip_subject s1 = ip_subject st -> ip_pos s1 = ip_pos st + 1 -> ip_skip reInitialSpace (append_kid t s1) = append_kid t s1).
  { intros s1 t E1 E2. apply (initial_none _ q); [|exact Hq]. cbn [append_kid set_ip_next set_ip_kids ip_subject ip_pos]. rewrite E1, E2. apply (skipn_adv st [10%N]); [exact E|reflexivity]. }
  assert (Epos : skipn (ip_pos st + 1) (ip_subject st) = q) by (apply (skipn_adv st [10%N]); [exact E|reflexivity]).
  destruct k as [|k].
  - cbn [repeat] in *. rewrite app_nil_r in *. destruct (last_opt x) as [c|] eqn:Ec; [|destruct (exists_last Hne) as (y & z & X); rewrite X, last_opt_snoc in Ec; discriminate]. cbn [of_option bind]. rewrite (proj2 (N.eqb_neq c SP) (Hl c eq_refl)). cbn [bind].
    rewrite Hfin by reflexivity. eexists. split; [reflexivity|]. cbn [append_kid ip_adv set_ip_pos set_ip_next set_ip_kids ip_subject ip_refmap ip_smart ip_delims ip_brackets ip_pos ip_kids Nat.leb]. repeat (split; [reflexivity || exact Epos|]).
    rewrite Ek, !map_app, EK, <- app_assoc. reflexivity.
  - assert (Er : repeat SP (S k) = repeat SP k ++ [SP]) by (rewrite <- repeat_cons; reflexivity). rewrite final_space by assumption. rewrite Er, app_assoc, last_opt_snoc, removelast_last. cbn [of_option bind]. rewrite N.eqb_refl. cbn [bind].
    assert (Eh : match last_opt (x ++ repeat SP k) with Some c2 => N.eqb c2 SP | None => false end = Nat.leb 2 (S k)).
    { destruct k as [|k].
      - cbn [repeat]. rewrite app_nil_r. destruct (last_opt x) as [c|] eqn:Ec; [apply N.eqb_neq, Hl; reflexivity|reflexivity].
      - assert (Er' : repeat SP (S k) = repeat SP k ++ [SP]) by (rewrite <- repeat_cons; reflexivity). rewrite Er', app_assoc, last_opt_snoc. reflexivity. }
    rewrite Eh, removelast_last. rewrite Hfin by reflexivity. eexists. split; [reflexivity|]. cbn [append_kid ip_adv set_ip_pos set_ip_next set_ip_kids ip_subject ip_refmap ip_smart ip_delims ip_brackets ip_pos ip_kids]. repeat (split; [reflexivity || exact Epos|]).
    rewrite !map_app, EK, <- app_assoc. reflexivity.
Qed.
Lemma ordinary_lf w : Forall ordinary_char w -> ~ In 10%N w.
Proof. intros H X. rewrite Forall_forall in H. apply (H _ X). left. reflexivity. Qed.
Lemma line_step soft st w e q : words_ok w -> skipn (ip_pos st) (ip_subject st) = w ++ ending_text e ++ 10%N :: q -> hd_error q <> Some SP -> ip_brackets st = [] -> ip_smart st = false ->
  exists m st' K, m <= length (w ++ ending_text e) + 1 /\ goes m st st' K /\ skipn (ip_pos st') (ip_subject st') = q /\ shows soft K (html_text w ++ break_html soft e).
Proof.
  intros (Hne & Hw & Hsp) E Hq Hb Hs. destruct e as [k|]; cbn [ending_text] in *.
  - destruct (tame_steps (10%N :: q) ltac:(split; [discriminate|intros c q' X; injection X as <- _; reflexivity]) (length (w ++ repeat SP k)) (w ++ repeat SP k) st ltac:(lia)) as (m & st1 & ls & M & G1 & G2 & G3 & G4 & G5); [rewrite <- app_assoc; exact E|destruct w; [congruence|discriminate]|rewrite forallb_app, words_tame, spaces_tame by exact Hw; reflexivity|exact Hb|exact Hs|].
    destruct (G5 w k eq_refl) as (x & Hx & Hxne). destruct ls as [|l ls _] using rev_ind; [discriminate|]. rewrite last_opt_snoc in Hx. injection Hx as ->.
    rewrite concat_app in G3. cbn [concat] in G3. rewrite app_nil_r, app_assoc in G3. apply app_inv_tail in G3.
    destruct (step_newline st1 q (map snd (ip_kids st) ++ map text_node ls) x k G4 Hq) as (st2 & N0 & N1 & N2 & N3 & N4 & N5 & N6 & N7).
    { destruct G2 as (_ & _ & _ & _ & _ & A6). rewrite A6, map_app, app_assoc. reflexivity. }
    { exact Hxne. }
    { intros X. apply (ordinary_lf w Hw). rewrite <- G3. apply in_or_app. right. exact X. }
    { intros c Hc ->. assert (X : is_space SP = false); [|discriminate X]. apply Hsp. right. rewrite <- G3. rewrite last_opt_app by (intros ->; discriminate). exact Hc. }
    exists (m + 1), st2, (map text_node ls ++ [text_node x; T (new_node (if Nat.leb 2 k then linebreak else softbreak) None) []]). split; [apply Nat.add_le_mono_r; exact M|]. split; [|split; [exact N6|]].
    + destruct G2 as (A1 & A2 & A3 & A4 & A5 & A6). split; [eapply steps_trans; [exact G1|apply steps_one, N0]|]. rewrite N7, <- app_assoc. repeat split; congruence.
    + rewrite <- G3. replace (map text_node ls ++ [text_node x; T (new_node (if Nat.leb 2 k then linebreak else softbreak) None) []]) with (map text_node (ls ++ [x]) ++ [T (new_node (if Nat.leb 2 k then linebreak else softbreak) None) []]) by (rewrite map_app, <- app_assoc; reflexivity).
      apply shows_app; [replace (concat ls ++ x) with (concat (ls ++ [x])) by (rewrite concat_app; cbn [concat]; rewrite app_nil_r; reflexivity); apply shows_texts|]. unfold break_html. cbn [hard]. destruct (Nat.leb 2 k); [apply shows_hard|apply shows_soft].
  - destruct (tame_steps (92%N :: 10%N :: q) ltac:(split; [discriminate|intros c q' X; injection X as <- _; reflexivity]) (length w) w st ltac:(lia)) as (m & st1 & ls & M & G1 & G2 & G3 & G4 & _); [exact E|exact Hne|apply words_tame, Hw|exact Hb|exact Hs|].
    exists (m + 1), (append_kid (T (new_node linebreak None) []) (ip_adv 2 st1)), (map text_node ls ++ [T (new_node linebreak None) []]). split; [rewrite app_length; cbn [length]; lia|]. split; [|split].
    + eapply goes_trans; [apply goes_adds; eassumption|]. split; [apply steps_one, (step_break st1 q G4)|]. cbn [append_kid ip_adv set_ip_pos set_ip_next set_ip_kids ip_subject ip_refmap ip_smart ip_delims ip_brackets ip_kids]. rewrite map_app. auto 10.
    + cbn [append_kid ip_adv set_ip_pos set_ip_next set_ip_kids ip_subject ip_pos]. apply (skipn_adv st1 [92%N; 10%N]); [exact G4|reflexivity].
    + rewrite <- G3. apply shows_app; [apply shows_texts|apply shows_hard].
Qed.
