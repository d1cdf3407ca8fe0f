(** * Lines that continue a paragraph, beside the same lines marked or indented otherwise (C61) *)
From Verif Require Import Base Regex Common NormRef Node Inlines Blocks Html Main RegexFacts RegexLang StrFacts StrProp Spec SpecTree SpecSame SpecLazy TreeFacts
  InlineFacts HtmlFacts RenderFacts BlockFacts BlockInv BlockSteps BlockRun LineFacts ParseFacts AfterFacts Sim SimFacts SameHtml LazyInv LazyFacts.
From Coq Require Import ZifyBool ZifyNat ZifyN.

Lemma plain_special c r : ~ In c (u " #`~*+_=<>-0123456789") -> re_test reMaybeSpecial (c :: r) = false.
Proof.
  intros Hc. rewrite (re_test_bol (RChr (match reMaybeSpecial with RSeq _ (RChr cs) => cs | _ => CS false false [] end))), match_at_chr.
  match goal with |- context [cmatch ?a c] => destruct (cmatch a c) eqn:E end; [|reflexivity]. exfalso. apply Hc. clear - E.
  match type of E with cmatch ?a _ = _ => let v := eval vm_compute in a in change a with v in E end. cm_unfold_in E. unfold in_range in E. assert (H : (48 <= c <= 57 \/ In c (u "#`~*+_=<>-"))%N). { cbn. lia. }
  destruct H as [H|H]; [|cbn in H |- *; tauto]. assert (c = 48 \/ c = 49 \/ c = 50 \/ c = 51 \/ c = 52 \/ c = 53 \/ c = 54 \/ c = 55 \/ c = 56 \/ c = 57)%N by lia. cbn. intuition.
Qed.
Lemma replace_text m x : replace_char 0 65533 (repeat 32%N m ++ x) = repeat SP m ++ replace_char 0 65533 x.
Proof. unfold replace_char. rewrite map_app. f_equal. induction m as [|m IH]; [reflexivity|]. cbn [repeat map]. rewrite IH. reflexivity. Qed.
(** what is needed of the first character *)
Lemma plain_first x : plain_start x -> no_eol x -> ~ In TAB x -> exists c r, replace_char 0 65533 x = c :: r /\ c <> SP /\ c <> TAB /\ c <> 10%N /\ c <> 13%N /\ c <> 62%N /\ re_test reMaybeSpecial (c :: r) = false.
Proof.
  intros (c & r & -> & Hc) He Ht. unfold replace_char. cbn [map]. eexists. eexists. split; [reflexivity|].
  assert (Hc' : ~ In (if N.eqb c 0 then 65533%N else c) (u " #`~*+_=<>-0123456789")).
  { destruct (N.eqb_spec c 0); [|exact Hc]. cbn. intuition discriminate. }
  split; [|split; [|split; [|split; [|split; [|apply plain_special, Hc']]]]].
  - intros E. apply Hc'. rewrite E. left. reflexivity.
  - destruct (N.eqb_spec c 0); [discriminate|]. intros ->. apply Ht. left. reflexivity.
  - destruct (N.eqb_spec c 0); [discriminate|]. apply (He c). left. reflexivity.
  - destruct (N.eqb_spec c 0); [discriminate|]. apply (He c). left. reflexivity.
  - intros E. apply Hc'. rewrite E. cbn. tauto.
Qed.

Lemma text_open smart ls p : Forall (Forall code_point) ls -> Forall no_eol ls -> ls <> [] -> ends_open smart ls -> incorporate_lines ls (reset (new_parser smart)) = Ok p -> top_is paragraph p.
Proof.
  intros Hc He Hne (t & d & Et & Hd & Hp & Hl) Ep. assert (El : input_lines (lines_text ls) = ls) by (rewrite input_lines_text; apply text_lines_lines; assumption).
  assert (Hs : Forall code_point (lines_text ls)).
  { unfold lines_text. clear - Hc. induction Hc as [|l ls H _ IH]; [constructor|]. cbn [flat_map]. apply Forall_app. split; [|exact IH]. apply Forall_app. split; [exact H|]. constructor; [unfold code_point; lia|constructor]. }
  apply (open_top code_point plain_code (fun c H => H) any_A smart (lines_text ls) p t d (code_ok _ Hs)); rewrite ?El; assumption.
Qed.
Lemma none_open smart : ~ ends_open smart [].
Proof.
  intros (t & d & Et & Hd & Hp & Hl). change (lines_text []) with (@nil N) in Et. apply (doc_positions smart [] t) in Et; [|constructor]. apply nodes_subtrees in Hd as (k & Hd).
  rewrite tree_every_subtrees in Et. destruct (Et _ Hd) as [_ G]; [unfold t_type; cbn [t_data]; rewrite Hp; reflexivity|]. cbn [t_data length] in *. lia.
Qed.

Section Sides.
  Variables (dc dd : nat).
  Definition sides : parser -> parser -> Prop := RL 0 dc dd None [] any_Rl False same_smart no_pre.
  Definition twins (p q : parser) : Prop := exists q', sides p q' /\ (forall x, incorporate_line x q' = incorporate_line x q) /\ at_end dc q' = at_end dc q.
  Lemma twins_sides p q : sides p q -> twins p q.
  Proof. intros H. exists q. auto. Qed.
  Lemma twins_stack p q : twins p q -> srel 0 dc dd None [] any_Rl False no_pre (p_stack p) (p_stack q).
  Proof. intros (q' & H & _ & E). apply (f_equal p_stack) in E. cbn [at_end p_stack] in E. rewrite <- E. apply (l_stack _ _ _ _ _ _ _ _ _ _ _ H). Qed.
  Lemma twins_text x m n i j p q : plain_start x -> no_eol x -> ~ In TAB x -> twins p q -> code_edge i p -> code_edge j q -> top_is paragraph p ->
    exists p1 q1, incorporate_line (repeat 32%N m ++ x) p = Ok p1 /\ incorporate_line (repeat 32%N n ++ x) q = Ok q1 /\ twins p1 q1.
  Proof.
    intros Hx He Ht H Hp Hq (fr & st & Es & Hty). destruct (plain_first x Hx He Ht) as (c & r & Er & C1 & C2 & C3 & C4 & C5 & C6).
    pose proof (twins_stack _ _ H) as Hs. rewrite Es in Hs. inversion Hs as [b b' e Hb _ E1 E2|f f' s s' Hf Hss E1 E2]; subst.
    { destruct Hb as ([[B|B] _] & _); unfold f_type in Hty; congruence. }
    symmetry in E2. pose proof Hf as [Hd Hk]. assert (Hty' : f_type f' = paragraph) by (unfold f_type in *; rewrite (drel_type _ _ _ _ _ Hd); exact Hty).
    destruct (edge_boxes _ _ _ _ Hp Es Hty) as (B1 & B2 & B3 & sc & B4). destruct (edge_boxes _ _ _ _ Hq E2 Hty') as (D1 & D2 & D3 & sc' & D4).
    assert (Esc : sc' = sc). { pose proof (drel_field _ _ _ n_string_content _ _ ltac:(reflexivity) Hd) as G. congruence. } subst sc'.
    inversion B1 as [|? ? _ B1']; subst. inversion D1 as [|? ? D0 D1']; subst.
    destruct (line_ws m c r C1 C2 C3 C4 C5 C6 (repeat 32%N m ++ x) p fr st sc) as (p1 & P1 & P2 & P3 & P4 & P5 & P6); try assumption. { rewrite replace_text, Er. reflexivity. }
    destruct (line_ws n c r C1 C2 C3 C4 C5 C6 (repeat 32%N n ++ x) q f' s' sc) as (q1 & Q1 & Q2 & Q3 & Q4 & Q5 & Q6); try assumption. { rewrite replace_text, Er. reflexivity. }
    exists p1, q1. split; [exact P1|]. split; [exact Q1|]. destruct H as (q' & H & _ & E). exists (marked (p_all_closed p1) (p_matched p1 + dd) q1).
    split; [|split; [|reflexivity]].
    - pose proof (f_equal p_line_number E) as F1. pose proof (f_equal p_refmap E) as F2. pose proof (f_equal p_smart E) as F3. cbn [at_end p_line_number p_refmap p_smart] in F1, F2, F3.
      pose proof (l_num _ _ _ _ _ _ _ _ _ _ _ H) as G1. pose proof (l_refmap _ _ _ _ _ _ _ _ _ _ _ H) as G2. pose proof (l_smart _ _ _ _ _ _ _ _ _ _ _ H) as G3. unfold same_smart in G3.
      constructor; cbn [marked p_stack p_line_number p_refmap p_smart p_all_closed p_matched p_last_line_length set_p_matched set_p_all_closed].
      + rewrite P2, Q2. constructor; [|exact Hss]. split; [|exact Hk]. apply (drel_set _ _ _ (set_n_string_content _)); [reflexivity|reflexivity|exact Hd].
      + lia.
      + reflexivity.
      + intros _. split; [reflexivity|exact P6].
      + congruence.
      + exact I.
      + unfold same_smart. congruence.
    - intros y. apply incorporate_marked. rewrite Q2. constructor; [unfold box; tauto|exact D1'].
  Qed.
  Lemma twins_end p q : 1 <= p_line_number p -> twins p q -> R1 0 dc dd None [] any_Rl False same_smart no_pre (at_end 0 p) (at_end dc q).
  Proof.
    intros Hn (q' & H & _ & <-). destruct H. constructor; [constructor|..]; cbn [at_end p_stack p_line p_line_number p_offset p_column p_pct p_all_closed p_matched p_refmap p_last_line_length p_smart p_blank p_next_nonspace p_next_nonspace_column p_indent p_indented]; auto.
    - exists (repeat SP dc). split; [apply repeat_length|]. cbn [repeat]. rewrite app_nil_r. reflexivity.
    - discriminate.
  Qed.
End Sides.

Lemma lazy_empty smart qs : lazy_lines smart [] qs -> qs = [].
Proof. intros H. remember [] as ls eqn:E. destruct H; [reflexivity|destruct ls; discriminate..]. Qed.
Lemma moved_empty smart qs : moved_lines smart [] qs -> qs = [].
Proof. intros H. remember [] as ls eqn:E. destruct H; [reflexivity|destruct ls; discriminate..]. Qed.
Definition lazy_hex (x : False) : 0 = 0 /\ 2 = 0 /\ 1 = 0 /\ (forall a b, any_Rl a b -> b = a) := match x with end.
Definition moved_hex (x : False) : 0 = 0 /\ 0 = 0 /\ 0 = 0 /\ (forall a b, any_Rl a b -> b = a) := match x with end.
Lemma snoc_one ls l p : incorporate_lines (ls ++ [l]) p = let* q := incorporate_lines ls p in incorporate_line l q.
Proof. rewrite incorporate_app. destruct (incorporate_lines ls p) as [q|e]; [|reflexivity]. cbn [bind incorporate_lines]. destruct (incorporate_line l q); reflexivity. Qed.
Lemma text_no_eol m x : no_eol (repeat 32%N m ++ x) -> no_eol x.
Proof. intros H c Hc. apply H, in_or_app. right. exact Hc. Qed.

Lemma lazy_run smart ls qs : lazy_lines smart ls qs -> Forall (Forall code_point) ls -> Forall (Forall code_point) qs -> Forall no_eol ls -> Forall (fun l => ~ In TAB l) ls -> ls <> [] ->
  rrel (twins 2 1) (incorporate_lines ls (reset (new_parser smart))) (incorporate_lines qs (reset (new_parser smart))).
Proof.
  induction 1 as [|ls qs l H IH|ls qs x m n H IH Ho Hx]; intros Hc Hq He Ht Hne; [congruence| |]; apply Forall_app in Hc as [Hc Hc1], Hq as [Hq Hq1], He as [He He1], Ht as [Ht Ht1];
    inversion Ht1 as [|? ? T1 _]; inversion He1 as [|? ? E1 _]; subst; clear Ht1 He1 Hne; rewrite !snoc_one.
  - destruct ls as [|l0 ls].
    + apply lazy_empty in H as ->. cbn [incorporate_lines bind].
      pose proof (incorporate_quoted_first 0 2 1 None [] any_Rl False lazy_hex same_smart no_pre no_pre_blank l (reset (new_parser smart)) (reset (new_parser smart)) _ eq_refl eq_refl eq_refl eq_refl (fun n => I) T1 eq_refl eq_refl eq_refl ltac:(discriminate) eq_refl eq_refl I eq_refl) as G.
      destruct (incorporate_line l _) as [p1|e]; [|destruct e; exact G]. destruct G as (q1 & -> & G). apply rrel_ok, twins_sides, r1_rl, G.
    + specialize (IH Hc Hq He Ht ltac:(discriminate)). eapply rrel_bind; [exact IH|]. intros p q (q' & H1 & H2 & H3). rewrite <- H2.
      pose proof (incorporate_quoted 0 2 1 None [] any_Rl False lazy_hex same_smart no_pre no_pre_blank l p q' eq_refl eq_refl (fun n => I) T1 H1) as G.
      destruct (incorporate_line l p) as [p1|e]; [|destruct e; exact G]. destruct G as (q1 & -> & G). apply rrel_ok, twins_sides, r1_rl, G.
  - destruct ls as [|l0 ls]; [destruct (none_open _ Ho)|]. specialize (IH Hc Hq He Ht ltac:(discriminate)).
    destruct (incorporate_lines (l0 :: ls) _) as [p|e] eqn:Ep; [|destruct e; cbn [bind rrel] in IH |- *; try rewrite IH; auto]. destruct IH as (q & Eq & IH). rewrite Eq. cbn [bind].
    destruct (twins_text 2 1 x m n (length (l0 :: ls)) (length qs) p q Hx (text_no_eol _ _ E1)) as (p1 & q1 & -> & -> & G); [intros X; apply T1, in_or_app; right; exact X|exact IH|eapply code_lines_edge; eassumption|eapply code_lines_edge; eassumption|eapply text_open; [..|exact Ep]; assumption || discriminate|].
    apply rrel_ok, G.
Qed.
Lemma first_same l r : p_stack r = [doc_frame] -> rrel (twins 0 0) (incorporate_line l r) (incorporate_line l r).
Proof.
  intros Es. assert (Hsr : srel 0 0 0 None [] any_Rl False no_pre [doc_frame] (p_stack r)) by (rewrite Es; apply srel_doc).
  pose proof (lines_sim 0 any_Rl False moved_hex same_smart no_pre no_pre_blank [l] r r (fun n => I) ltac:(discriminate) Es Hsr (eq_sym (Nat.add_0_r _)) eq_refl I eq_refl) as G.
  assert (E : incorporate_lines [l] r = incorporate_line l r) by (cbn [incorporate_lines]; destruct (incorporate_line l r); reflexivity). rewrite E in G.
  destruct (incorporate_line l r) as [p1|e]; [|exact G]. destruct G as (q1 & E1 & G). exists q1. split; [exact E1|]. apply twins_sides, r1_rl, G.
Qed.
Lemma moved_run smart ls qs : moved_lines smart ls qs -> Forall (Forall code_point) ls -> Forall (Forall code_point) qs -> Forall no_eol ls -> Forall (fun l => ~ In TAB l) ls -> ls <> [] ->
  rrel (twins 0 0) (incorporate_lines ls (reset (new_parser smart))) (incorporate_lines qs (reset (new_parser smart))).
Proof.
  induction 1 as [|ls qs l H IH|ls qs x m n H IH Ho Hx]; intros Hc Hq He Ht Hne; [congruence| |]; apply Forall_app in Hc as [Hc Hc1], Hq as [Hq Hq1], He as [He He1], Ht as [Ht Ht1];
    inversion Ht1 as [|? ? T1 _]; inversion He1 as [|? ? E1 _]; subst; clear Ht1 He1 Hne; rewrite !snoc_one.
  - destruct ls as [|l0 ls].
    + apply moved_empty in H as ->. cbn [incorporate_lines bind].
      apply first_same. reflexivity.
    + specialize (IH Hc Hq He Ht ltac:(discriminate)). eapply rrel_bind; [exact IH|]. intros p q (q' & H1 & H2 & H3). rewrite <- H2.
      pose proof (incorporate_same 0 0 0 None [] any_Rl False moved_hex same_smart no_pre no_pre_blank l p q' eq_refl eq_refl (fun n => I) H1) as G.
      destruct (incorporate_line l p) as [p1|e]; [|destruct e; exact G]. destruct G as (q1 & -> & G). apply rrel_ok, twins_sides, r1_rl, G.
  - destruct ls as [|l0 ls]; [destruct (none_open _ Ho)|]. specialize (IH Hc Hq He Ht ltac:(discriminate)).
    destruct (incorporate_lines (l0 :: ls) _) as [p|e] eqn:Ep; [|destruct e; cbn [bind rrel] in IH |- *; try rewrite IH; auto]. destruct IH as (q & Eq & IH). rewrite Eq. cbn [bind].
    destruct (twins_text 0 0 x m n (length (l0 :: ls)) (length qs) p q Hx (text_no_eol _ _ E1)) as (p1 & q1 & -> & -> & G); [intros X; apply T1, in_or_app; right; exact X|exact IH|eapply code_lines_edge; eassumption|eapply code_lines_edge; eassumption|eapply text_open; [..|exact Ep]; assumption || discriminate|].
    apply rrel_ok, G.
Qed.

Lemma lines_of s : Forall code_point s -> ~ In TAB s -> Forall (Forall code_point) (text_lines s) /\ Forall no_eol (text_lines s) /\ Forall (fun l => ~ In TAB l) (text_lines s).
Proof.
  intros Hs Ht. split; [|split; [apply text_lines_no_eol|]].
  - apply Forall_forall. intros l Hl. apply Forall_forall. intros c Hc. rewrite Forall_forall in Hs. apply Hs. eapply text_lines_incl; eassumption.
  - apply Forall_forall. intros l Hl G. apply Ht. eapply text_lines_incl; eassumption.
Qed.
Lemma lines_code s : Forall code_point s -> Forall (Forall code_point) (text_lines s).
Proof. intros Hs. apply Forall_forall. intros l Hl. apply Forall_forall. intros c Hc. rewrite Forall_forall in Hs. apply Hs. eapply text_lines_incl; eassumption. Qed.
Lemma lazy_length smart ls qs : lazy_lines smart ls qs -> length qs = length ls.
Proof. induction 1; rewrite ?app_length; cbn [length]; lia. Qed.
Lemma moved_length smart ls qs : moved_lines smart ls qs -> length qs = length ls.
Proof. induction 1; rewrite ?app_length; cbn [length]; lia. Qed.
Lemma edge_number n p : code_edge n p -> p_line_number p = n.
Proof. intros ((_ & _ & _ & _ & H) & _). exact H. Qed.

Lemma lazy_doc smart s s' : Forall code_point s -> Forall code_point s' -> ~ In TAB s -> lazy_lines smart (text_lines s) (text_lines s') ->
  match parse_doc smart s with
  | Ok (T d k) => exists e b k', parse_doc smart s' = Ok (T e [T b k']) /\ n_t d = document /\ n_t e = document /\ n_t b = block_quote /\ Forall2 (same_blocks lazy_right) k k'
  | Err e => parse_doc smart s' = Err e
  end.
Proof.
  intros Hs Hs' Ht Hl. pose proof (result_total (new_parser smart) s Hs) as Hf. pose proof (fun t => doc_positions smart s t Hs) as Hpos. pose proof (parse_doc_facts smart s) as Hty.
  change (parse_doc smart s) with (result (parse (new_parser smart) s)) in *. change (parse_doc smart s') with (result (parse (new_parser smart) s')) in *. rewrite (parse_finish (new_parser smart) s), (parse_finish (new_parser smart) s') in *.
  destruct (lines_of s Hs Ht) as (L1 & L2 & L3). pose proof (lazy_run smart _ _ Hl L1 (lines_code s' Hs') L2 L3 (text_lines_ne s)) as H. pose proof (lazy_length _ _ _ Hl) as El. rewrite <- !input_lines_text in *.
  assert (Hn : 1 <= length (input_lines s)) by (pose proof (input_lines_ne s); lia).
  destruct (incorporate_lines (input_lines s) _) as [p1|e] eqn:E1; cbn [bind] in *.
  - destruct H as (q1 & E2 & H). rewrite E2. cbn [bind]. rewrite El.
    pose proof (code_lines_edge smart _ _ L1 E1) as Hed. apply edge_number in Hed. pose proof (twins_end 2 1 p1 q1 ltac:(lia) H) as G0.
    pose proof (finish_sim 0 2 1 None [] any_Rl False lazy_hex same_smart no_pre no_pre_blank no_pre no_pre_inlines (length (input_lines s)) (at_end 0 p1) (at_end 2 q1) ltac:(lia) (fun _ _ X => X) G0) as G. rewrite Nat.add_0_r, !finish_end in G.
    assert (Hleaf : forall p2 t, finalize_all (length (p_stack (at_end 0 p1))) (length (input_lines s)) (at_end 0 p1) = Ok p2 -> p_doc p2 = Some t -> tree_every leaf_par t).
    { intros x t Ex Et. rewrite finalize_all_end in Ex. change (p_stack (at_end 0 p1)) with (p_stack p1) in Ex. destruct (finalize_all (length (p_stack p1)) _ p1) as [x0|e] eqn:E0; [|discriminate]. cbn [bind] in Ex. apply Ok_inj in Ex as <-. eapply (blocks_leaf _ s); eassumption. }
    specialize (G Hleaf). destruct (finish (length (input_lines s)) p1) as [t|e].
    + destruct G as (t' & -> & d & k & d' & k' & -> & G1 & G2 & G3 & G4 & G5 & [[X _]|(_ & e & Hee & ->)]); [discriminate|]. exists e, d', k'. split; [reflexivity|].
      pose proof (Hty _ Hs eq_refl) as (_ & Hdoc & _). split; [exact Hdoc|]. split; [exact Hee|]. split; [exact (G5 eq_refl)|].
      specialize (Hpos _ eq_refl). apply tree_every_unfold in Hpos as [_ Hpos].
      apply no_pkrel in G2. clear - G2 Hpos. induction G2 as [|x y l l' Hx _ IH]; [constructor|]. inversion Hpos as [|a b P1 P2]; subst. constructor; [|apply IH, P2].
      eapply prel_blocks; [|exact Hx|exact P1]. intros. cbn [lazy_right]. lia.
    + destruct e; cbn in G; try exact G. congruence.
  - destruct e; cbn [rrel] in H; try (rewrite H; reflexivity). congruence.
Qed.
Lemma moved_doc smart s s' : Forall code_point s -> Forall code_point s' -> ~ In TAB s -> moved_lines smart (text_lines s) (text_lines s') ->
  match parse_doc smart s with
  | Ok (T d k) => exists d' k', parse_doc smart s' = Ok (T d' k') /\ n_t d = document /\ n_t d' = document /\ Forall2 (same_blocks still_place) k k'
  | Err e => parse_doc smart s' = Err e
  end.
Proof.
  intros Hs Hs' Ht Hl. pose proof (result_total (new_parser smart) s Hs) as Hf. pose proof (fun t => doc_positions smart s t Hs) as Hpos. pose proof (parse_doc_facts smart s) as Hty. pose proof (parse_doc_facts smart s') as Hty'.
  change (parse_doc smart s) with (result (parse (new_parser smart) s)) in *. change (parse_doc smart s') with (result (parse (new_parser smart) s')) in *. rewrite (parse_finish (new_parser smart) s), (parse_finish (new_parser smart) s') in *.
  destruct (lines_of s Hs Ht) as (L1 & L2 & L3). pose proof (moved_run smart _ _ Hl L1 (lines_code s' Hs') L2 L3 (text_lines_ne s)) as H. pose proof (moved_length _ _ _ Hl) as El. rewrite <- !input_lines_text in *.
  assert (Hn : 1 <= length (input_lines s)) by (pose proof (input_lines_ne s); lia).
  destruct (incorporate_lines (input_lines s) _) as [p1|e] eqn:E1; cbn [bind] in *.
  - destruct H as (q1 & E2 & H). rewrite E2 in *. cbn [bind] in *. rewrite El in *.
    pose proof (code_lines_edge smart _ _ L1 E1) as Hed. apply edge_number in Hed. pose proof (twins_end 0 0 p1 q1 ltac:(lia) H) as G0.
    pose proof (finish_sim 0 0 0 None [] any_Rl False moved_hex same_smart no_pre no_pre_blank no_pre no_pre_inlines (length (input_lines s)) (at_end 0 p1) (at_end 0 q1) ltac:(lia) (fun _ _ X => X) G0) as G. rewrite Nat.add_0_r, !finish_end in G.
    assert (Hleaf : forall p2 t, finalize_all (length (p_stack (at_end 0 p1))) (length (input_lines s)) (at_end 0 p1) = Ok p2 -> p_doc p2 = Some t -> tree_every leaf_par t).
    { intros x t Ex Et. rewrite finalize_all_end in Ex. change (p_stack (at_end 0 p1)) with (p_stack p1) in Ex. destruct (finalize_all (length (p_stack p1)) _ p1) as [x0|e] eqn:E0; [|discriminate]. cbn [bind] in Ex. apply Ok_inj in Ex as <-. eapply (blocks_leaf _ s); eassumption. }
    specialize (G Hleaf). destruct (finish (length (input_lines s)) p1) as [t|e].
    + destruct G as (t' & Et & d & k & d' & k' & -> & G1 & G2 & G3 & G4 & G5 & [[_ ->]|[X _]]); [|discriminate]. rewrite Et in *. exists d', k'. split; [reflexivity|].
      pose proof (Hty _ Hs eq_refl) as (_ & Hdoc & _). split; [exact Hdoc|]. split; [apply (Hty' _ Hs' eq_refl)|].
      specialize (Hpos _ eq_refl). apply tree_every_unfold in Hpos as [_ Hpos].
      apply no_pkrel in G2. clear - G2 Hpos. induction G2 as [|x y l l' Hx _ IH]; [constructor|]. inversion Hpos as [|a b P1 P2]; subst. constructor; [|apply IH, P2].
      eapply prel_blocks; [|exact Hx|exact P1]. intros. cbn [still_place]. lia.
    + destruct e; cbn in G; try exact G. congruence.
  - destruct e; cbn [rrel] in H; try (rewrite H; reflexivity). congruence.
Qed.

(** ** HTML *)
Lemma quote_html P smart o s s' : ho_sourcepos o = false -> Forall code_point s ->
  match parse_doc smart s with
  | Ok (T d k) => exists e b k', parse_doc smart s' = Ok (T e [T b k']) /\ n_t d = document /\ n_t e = document /\ n_t b = block_quote /\ Forall2 (same_blocks P) k k'
  | Err e => parse_doc smart s' = Err e
  end ->
  md_to_html smart o s' = let* h := md_to_html smart o s in Ok (u "<blockquote>" ++ [LF] ++ h ++ u "</blockquote>" ++ [LF]).
Proof.
  intros Ho Hs H. pose proof (parse_doc_facts smart s) as F. unfold md_to_html, render_html.
  destruct (parse_doc smart s) as [[d k]|e]; cbn [bind]; [|rewrite H; reflexivity]. destruct H as (e & b & k' & -> & Ed & Ee & Eb & Hk). cbn [bind]. rewrite !html_document by assumption.
  cbn [flat_map]. rewrite app_nil_r. cbn [events]. rewrite Eb. change (is_container block_quote) with true. cbv iota. cbn [html_events]. unfold html_node at 1. rewrite Eb.
  unfold h_block_quote. assert (Ea : attrs_of o b = []) by (unfold attrs_of; rewrite Ho; reflexivity). rewrite Ea. cbn [bind]. unfold new_html. cbn [h_dis].
  change (h_cr (h_tag (u "blockquote") [] false (h_cr (HS [] [LF] 0)))) with (hp (u "<blockquote>" ++ [LF]) (HS [] [LF] 0)). rewrite html_events_app, hp_events.
  assert (Ek : html_events o (flat_map (events [b; e]) k') (HS [] [LF] 0) = html_events o (flat_map (events [d]) k) (HS [] [LF] 0)).
  { apply (html_kids_same o Ho).
    - eapply Forall2_impl'; [|exact Hk]. intros x y. apply same_eqp.
    - split; [reflexivity|]. cbn [hd_error tl gkey]. rewrite Ed, Eb, Ee. split; reflexivity. }
  rewrite Ek. destruct (html_events o (flat_map (events [d]) k) (HS [] [LF] 0)) as [st|] eqn:E; cbn [bind]; [|reflexivity].
  assert (Hl : h_last st = [LF]).
  { eapply (blocks_last o d Ed); [| |exact E]; [|reflexivity]. destruct (F (T d k) Hs eq_refl) as (F1 & F2 & _).
    apply Forall_forall. intros x Hx. destruct (F1 (T d k)) as (_ & G & _); [left; reflexivity|].
    rewrite Ed in G. rewrite Forall_forall in G. apply G, Hx. }
  pose proof (kids_dis _ _ _ _ _ E) as Hz. cbn [h_dis] in Hz. cbn [html_events]. unfold html_node. rewrite Eb. unfold h_block_quote. cbn [bind].
  destruct st as [bf la z]. cbn [h_last h_dis] in Hl, Hz. subst la z. unfold hp. cbn [h_buf h_last h_dis].
  unfold h_cr at 2. cbn [h_last]. change (str_eqb [LF] [LF]) with true. cbv iota. unfold h_tag0, h_tag. cbn [h_dis]. change (Z.ltb 0 0) with false. cbv iota.
  unfold h_cr. cbn [h_last]. change (str_eqb (u ">") [LF]) with false. cbv iota. unfold h_lit. cbn [h_buf]. f_equal. rewrite <- !app_assoc. reflexivity.
Qed.
Lemma lazy_html smart o s s' : ho_sourcepos o = false -> Forall code_point s -> Forall code_point s' -> ~ In TAB s -> lazy_lines smart (text_lines s) (text_lines s') ->
  md_to_html smart o s' = let* h := md_to_html smart o s in Ok (u "<blockquote>" ++ [10%N] ++ h ++ u "</blockquote>" ++ [10%N]).
Proof. intros Ho Hs Hs' Ht Hl. apply (quote_html lazy_right smart o s s' Ho Hs). apply lazy_doc; assumption. Qed.
Lemma moved_html smart o s s' : ho_sourcepos o = false -> Forall code_point s -> Forall code_point s' -> ~ In TAB s -> moved_lines smart (text_lines s) (text_lines s') ->
  md_to_html smart o s' = md_to_html smart o s.
Proof.
  intros Ho Hs Hs' Ht Hl. pose proof (moved_doc smart s s' Hs Hs' Ht Hl) as H. unfold md_to_html, render_html.
  destruct (parse_doc smart s) as [[d k]|e]; cbn [bind]; [|rewrite H; reflexivity]. destruct H as (d' & k' & -> & E & E' & Hk). cbn [bind]. rewrite !html_document by assumption.
  rewrite (html_kids_same o Ho k k' [d] [d']); [reflexivity| |apply arel_doc; assumption]. eapply Forall2_impl'; [|exact Hk]. intros x y. apply same_eqp.
Qed.
(** to show that a paragraph is open *)
Lemma open_check smart ls : match parse_doc smart (lines_text ls) with Ok t => existsb (fun d => ntype_eqb (n_t d) paragraph && Nat.eqb (last_line d) (length ls)) (nodes t) | Err _ => false end = true -> ends_open smart ls.
Proof.
  unfold ends_open. destruct (parse_doc smart (lines_text ls)) as [t|e]; [|discriminate]. intros H. apply existsb_exists in H as (d & Hd & H). apply andb_prop in H as [H1 H2]. exists t, d. split; [reflexivity|]. split; [exact Hd|].
  split; [|apply Nat.eqb_eq, H2]. destruct (n_t d); try discriminate; reflexivity.
Qed.
