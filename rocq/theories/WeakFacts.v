(** * A line that cannot interrupt a paragraph, and the document's last paragraph (C62) *)
From Verif Require Import Base Regex Common NormRef Node Inlines Blocks Html Main RegexFacts StrFacts StrProp Spec SpecTree TreeFacts
  BlockFacts BlockInv BlockSteps BlockRun LineFacts ParseFacts Sim SimFacts DocFacts LazyInv LazyFacts.
From Coq Require Import ZifyBool ZifyNat ZifyN.

Definition no_stop (l : str) : Prop :=
  hd_error l <> Some 62%N /\ (hd_error l = Some 60%N -> html_type l true = None) /\ re_search reATXHeadingMarker l = None /\ re_search reCodeFence l = None /\
  re_search reSetextHeadingLine l = None /\ re_test reThematicBreak l = false /\
  (forall i m dt, list_marker l true i = Some (m, dt) -> (exists c, nth_error l (length m) = Some c /\ c <> SP /\ c <> TAB) \/ re_test reNonSpace (skipn (length m) l) = false).
Lemma try_stop z c r f st : rest_nonspace z = c :: r -> peek (p_line z) (p_next_nonspace z) = Some c -> p_indented z = Nat.leb 4 (p_indent z) -> p_stack z = f :: st -> f_type f = paragraph ->
  (p_indented z = false -> no_stop (c :: r)) -> try_starts block_starts paragraph z = Ok (SNone, z).
Proof.
  intros Er Ep Ei Es Ef Hno. unfold block_starts. cbn [try_starts]. destruct (p_indented z) eqn:Ez.
  - unfold start_block_quote at 1. rewrite Ez. cbn [negb andb bind]. unfold start_atx_heading at 1. rewrite Ez. cbn [bind].
    unfold start_fenced_code at 1. rewrite Ez. cbn [bind]. unfold start_html_block at 1. rewrite Ez. cbn [negb andb bind]. unfold start_setext_heading at 1. rewrite Ez. cbn [negb andb bind].
    unfold start_thematic_break at 1. rewrite Ez. cbn [negb andb bind]. unfold start_list_item at 1. rewrite Ez. change (ntype_eqb paragraph list_) with false. cbn [negb orb bind].
    unfold start_indented_code, tip. rewrite Es, Ez. cbn [hd_error of_option bind]. rewrite Ef. change (ntype_eqb paragraph paragraph) with true. cbn [negb andb]. reflexivity.
  - destruct (Hno eq_refl) as (N1 & N2 & N3 & N4 & N5 & N6 & N7). symmetry in Ei. apply Nat.leb_gt in Ei.
    assert (C1 : opt_is 62 (Some c) = false) by (cbn [opt_is]; apply N.eqb_neq; intros ->; apply N1; reflexivity).
    assert (C2 : start_html_block paragraph z = Ok (SNone, z)).
    { unfold start_html_block. rewrite Ez, Ep, Er. cbn [negb andb opt_is]. destruct (N.eqb_spec c 60) as [->|]; [|reflexivity]. change (ntype_eqb paragraph paragraph) with true. rewrite N2 by reflexivity. reflexivity. }
    unfold start_block_quote at 1. rewrite Ez, Ep, C1. cbn [negb andb bind]. unfold start_atx_heading at 1. rewrite Ez, Er, N3. cbn [bind].
    unfold start_fenced_code at 1. rewrite Ez, Er, N4. cbn [bind]. rewrite C2. cbn [bind].
    unfold start_setext_heading at 1. rewrite Ez, Er, N5. change (ntype_eqb paragraph paragraph) with true. cbn [negb andb bind].
    unfold start_thematic_break at 1. rewrite Er, N6, andb_false_r. cbn [bind].
    unfold start_list_item at 1. rewrite Ez. cbn [negb orb]. unfold parse_list_marker. rewrite (proj2 (Nat.leb_gt 4 (p_indent z))) by lia.
    change (ntype_eqb paragraph paragraph) with true. rewrite Er.
    assert (El : forall m, nth_error (p_line z) (p_next_nonspace z + m) = nth_error (c :: r) m).
    { intros m. rewrite <- Er. unfold rest_nonspace. rewrite nth_error_skipn. reflexivity. }
    assert (Es' : forall m, skipn (p_next_nonspace z + m) (p_line z) = skipn m (c :: r)).
    { intros m. rewrite <- Er. unfold rest_nonspace. rewrite skipn_skipn. f_equal. lia. }
    assert (Elast : start_indented_code z = Ok (SNone, z)) by (unfold start_indented_code, tip; rewrite Es, Ez; reflexivity).
    destruct (list_marker (c :: r) true (p_indent z)) as [[m dt]|] eqn:Em; cbn [bind].
    + unfold peek. rewrite El, Es'. destruct (N7 _ _ _ Em) as [(x & -> & X1 & X2)| ->].
      * rewrite (proj2 (N.eqb_neq x SP) X1), (proj2 (N.eqb_neq x TAB) X2). cbn [orb negb bind]. rewrite Elast. reflexivity.
      * cbn [negb andb]. destruct (negb _); cbn [bind]; rewrite Elast; reflexivity.
    + rewrite Elast. reflexivity.
Qed.

(** ** The line, after a paragraph of the document *)
Section Line.
  Variables (k : nat) (c : N) (r : str).
  Hypothesis (Hsp : c <> SP) (Htb : c <> TAB) (Hlf : c <> 10%N) (Hcr : c <> 13%N) (Hst : k <= 3 -> no_stop (c :: r)).
  Lemma starts_top f p fr st : p_stack p = [fr; st] -> f_type fr = paragraph -> at_ws k c r p -> p_offset p = 0 ->
    exists q, starts_loop (S f) 2 p = Ok (2, q) /\ still p q /\ p_offset q = k /\ p_pct q = false /\ p_blank q = false /\ p_all_closed q = p_all_closed p /\ p_matched q = p_matched p.
  Proof.
    intros Es Hty Hp Ho. cbn [starts_loop]. destruct (find_ws k c r Hsp Htb Hlf Hcr p Hp) as (q & -> & Hq & Hs & N1 & N2 & N3 & N4 & N5 & N6 & N7 & N8).
    assert (Hrest : rest_nonspace q = c :: r). { unfold rest_nonspace. destruct Hq as (-> & _). rewrite N1, (skip_ws k c r) by lia. rewrite Nat.sub_diag. reflexivity. }
    assert (Hpk : peek (p_line q) (p_next_nonspace q) = Some c). { destruct Hq as (-> & _). rewrite N1. unfold peek. rewrite nth_error_app2 by (rewrite repeat_length; lia). rewrite repeat_length, Nat.sub_diag. reflexivity. }
    assert (Hfin : exists q', Ok (2, advance_next_nonspace q) = Ok (2, q') /\ still p q' /\ p_offset q' = k /\ p_pct q' = false /\ p_blank q' = false /\ p_all_closed q' = p_all_closed p /\ p_matched q' = p_matched p).
    { eexists. split; [reflexivity|]. split; [eapply still_trans; [exact Hs|repeat split]|]. repeat split; assumption. }
    destruct (negb (p_indented q) && negb (re_test reMaybeSpecial (rest_nonspace q))); [exact Hfin|].
    destruct Hs as (S1 & _). assert (Eq : p_stack q = [fr; st]) by congruence. unfold block_at. rewrite Eq. cbn [length Nat.sub nth_error of_option bind]. rewrite Hty.
    rewrite (try_stop q c r fr [st] Hrest Hpk); [cbn [bind]; exact Hfin|rewrite N6, N5; reflexivity|exact Eq|exact Hty|intros X; apply Hst; rewrite N6, Ho in X; apply Nat.leb_gt in X; lia].
  Qed.
  Lemma line_top l p fr d sc : replace_char 0 65533 l = repeat SP k ++ c :: r -> p_stack p = [fr; d] -> f_type fr = paragraph -> quiet p -> n_string_content (f_data fr) = Some sc ->
    exists q, incorporate_line l p = Ok q /\ p_stack q = [F (set_n_string_content (Some (sc ++ c :: r ++ [LF])) (f_data fr)) (f_kids fr); d] /\
      p_line_number q = S (p_line_number p) /\ p_refmap q = p_refmap p /\ p_smart q = p_smart p /\ 1 <= p_matched q.
  Proof.
    intros El Es Hty Hqt Hcs. rewrite incorporate_line_eq. cbn zeta. rewrite El. set (ln := repeat SP k ++ c :: r). set (p1 := line_start ln p).
    assert (H1 : at_ws k c r p1) by (split; [reflexivity|]; split; [cbn; lia|]; split; reflexivity).
    assert (Es1 : p_stack p1 = [fr; d]) by exact Es. rewrite Es1. cbn [rev app tl descend].
    destruct (find_ws k c r Hsp Htb Hlf Hcr p1 H1) as (p2 & -> & H2 & (S1 & S2 & S3 & S4 & S5) & _ & _ & N3 & N4 & _).
    unfold continue_. unfold f_type in Hty. rewrite Hty, N3. cbn [bind]. unfold line_rest.
    remember (set_p_matched 2 (set_p_all_closed (Nat.eqb 2 (length (p_stack p2))) p2)) as p3 eqn:E3.
    assert (Es3 : p_stack p3 = [fr; d]) by (rewrite E3; cbn [p_stack set_p_matched set_p_all_closed]; congruence).
    assert (H3 : at_ws k c r p3) by (rewrite E3; exact H2). assert (O3' : p_offset p3 = 0) by (rewrite E3; exact N4).
    assert (S3' : p_line_number p3 = S (p_line_number p) /\ p_refmap p3 = p_refmap p /\ p_smart p3 = p_smart p /\ p_matched p3 = 2 /\ p_all_closed p3 = true).
    { rewrite E3. cbn [p_line_number p_refmap p_smart p_matched p_all_closed set_p_matched set_p_all_closed]. rewrite S3, S4, S5, S1, Es1. repeat split. }
    destruct S3' as (T1 & T2 & T3 & T4 & T5). clear E3 S1 S2 S3 S4 S5 H2 N3. unfold block_at. rewrite Es3. cbn [length Nat.sub nth_error of_option bind]. unfold f_type at 1. rewrite Hty. cbn [accepts_lines bind].
    unfold f_type at 1. rewrite Hty. cbn [ntype_eqb negb andb]. unfold line_tail.
    destruct (starts_top (length ln) p3 fr d Es3 Hty H3 O3') as (p4 & -> & (S1 & S2 & S3 & S4 & S5) & O1 & O2 & O3 & O4 & O5).
    cbn [bind]. unfold line_end, tip. rewrite S1, Es3. cbn [hd_error of_option bind]. rewrite O3, O4, T5. cbn [negb andb].
    assert (Hline : forall x, p_stack x = [fr; d] -> p_pct x = false -> p_offset x = k -> p_line x = ln -> add_line x = Ok (set_p_stack [F (set_n_string_content (Some (sc ++ c :: r ++ [LF])) (f_data fr)) (f_kids fr); d] x)).
    { intros x X1 X2 X3 X4. unfold add_line, tip. rewrite X1. cbn [hd_error of_option bind]. rewrite Hcs. cbn [of_option bind]. rewrite X2. unfold on_tip, rest_offset. rewrite X1, X3, X4. unfold ln. rewrite (skip_ws k c r) by apply Nat.le_refl. rewrite Nat.sub_diag. reflexivity. }
    assert (L4 : p_line p4 = ln) by (destruct H3 as (-> & _) || rewrite S2; apply H3).
    unfold add_text, close_unmatched_blocks. rewrite O4, T5. cbn [bind]. unfold tip. rewrite S1, Es3. cbn [hd_error of_option bind]. rewrite O3. cbn [andb].
    assert (G : forall (A : Type) (o : option (nat * nat * (nat * nat))) (f : nat -> res A), (forall l, f l = f 0) -> bind (match o with Some (l, _, _) => Ok l | None => Ok 0 end) f = f 0).
    { intros A0 o f Hf. destruct o as [[[a0 b0] c0]|]; cbn [bind]; [apply Hf|reflexivity]. }
    rewrite G by reflexivity. clear G. unfold f_type at 1. rewrite Hty. cbn [accepts_lines bind]. cbn [map tl].
    assert (Eq : forall fr', n_last_line_blank (f_data fr') = false -> set_f_data (set_n_last_line_blank false (f_data fr')) fr' = fr').
    { intros [d0 k0]. cbn [f_data]. intros E. unfold set_f_data. cbn [f_kids]. f_equal. destruct d0. cbn in E. subst. reflexivity. }
    unfold quiet in Hqt. rewrite Es in Hqt. inversion Hqt as [|x y Q1 Q2]; subst x y. inversion Q2 as [|x y Q3 _]; subst x y.
    rewrite !Eq by assumption. replace (F (f_data fr) (f_kids fr)) with fr by (destruct fr; reflexivity).
    rewrite Hline by (first [reflexivity|assumption]). cbn [bind]. unfold f_type. rewrite Hty. change (ntype_eqb paragraph html_block) with false. cbv iota. cbn [bind].
    eexists. split; [reflexivity|]. cbn [p_stack p_line_number p_refmap p_smart p_matched set_p_stack set_p_last_line_length]. split; [reflexivity|]. rewrite S3, S4, S5, O5, T4. repeat split; try assumption. apply le_S, le_n.
  Qed.
End Line.

(** ** The last block of the document, when something is open *)
Lemma finalize_par a p q fr par st : p_stack p = fr :: par :: st -> finalize_tip a p = Ok q -> exists ks, p_stack q = F (f_data par) (f_kids par ++ ks) :: st.
Proof.
  intros Es. unfold finalize_tip. rewrite Es. destruct (of_option TypeError _) as [[sp0 x]|e]; [|discriminate]. cbn [bind]. set (d := set_n_sourcepos _ _). clearbody d.
  assert (G : forall t p', p_stack p' = par :: st -> exists ks, p_stack (attach t p') = F (f_data par) (f_kids par ++ ks) :: st).
  { intros t p' E. exists [t]. unfold attach. rewrite E. reflexivity. }
  destruct (n_t d) eqn:Et; try discriminate; try (intros X; apply Ok_inj in X as <-; apply G; reflexivity).
  - destruct (finalize_list d (f_kids fr)) as [d' items]. intros X; apply Ok_inj in X as <-; apply G; reflexivity.
  - destruct (finalize_paragraph d (set_p_stack (par :: st) p)) as [[[d' gone] p1]|e] eqn:Ep; [|discriminate]. cbn [bind]. intros X. apply Ok_inj in X as <-.
    assert (E1 : p_stack p1 = par :: st).
    { unfold finalize_paragraph in Ep. destruct (of_option _ _) as [sc|]; [|discriminate]. cbn [bind] in Ep. destruct (strip_refs sc _) as [[[c0 g0] p0]|e] eqn:E0; [|discriminate]. cbn [bind] in Ep. apply Ok_inj in Ep. injection Ep as _ _ <-. apply strip_refs_stack in E0 as [E0 _]. exact E0. }
    destruct gone; [|apply G, E1]. exists []. rewrite app_nil_r, E1. destruct par; reflexivity.
  - destruct (finalize_code d) as [d'|e]; [|discriminate]. cbn [bind]. intros X; apply Ok_inj in X as <-; apply G; reflexivity.
  - destruct (finalize_html d) as [d'|e]; [|discriminate]. cbn [bind]. intros X; apply Ok_inj in X as <-; apply G; reflexivity.
Qed.
Lemma finalize_last : forall n up f1 d k a f p q, length up = n -> p_stack p = up ++ [f1; F d k] -> n_t d = document -> box f1 -> f_type f1 <> paragraph -> finalize_all f a p = Ok q ->
  exists d' d1 k1, p_doc q = Some (T d' (k ++ [T d1 k1])) /\ n_t d' = document /\ n_t d1 = f_type f1.
Proof.
  induction n as [|n IH]; intros [|x up] f1 d k a f p q Hn Es Hd Hb Ht Ef; try discriminate Hn.
  - cbn [app] in Es. destruct f as [|f]; cbn [finalize_all] in Ef; rewrite Es in Ef; [discriminate|]. destruct (finalize_tip a p) as [p1|e] eqn:E1; [|discriminate]. cbn [bind] in Ef.
    assert (G : exists d1 k1, p_stack p1 = [F d (k ++ [T d1 k1])] /\ n_t d1 = f_type f1).
    { unfold finalize_tip in E1. rewrite Es in E1. destruct (of_option TypeError _) as [[sp0 y]|e]; [|discriminate]. cbn [bind] in E1. set (dd := set_n_sourcepos _ _) in E1. assert (Ed : n_t dd = f_type f1) by reflexivity. clearbody dd.
      destruct Hb as [B|[B|[B|[B|[B _]]]]]; rewrite B in Ed; rewrite ?Ed in E1; try congruence.
      - apply Ok_inj in E1 as <-. exists dd, (f_kids f1). rewrite Ed, B. split; reflexivity.
      - apply Ok_inj in E1 as <-. exists dd, (f_kids f1). rewrite Ed, B. split; reflexivity.
      - destruct (finalize_list dd (f_kids f1)) as [d' items] eqn:El. apply finalize_list_flg in El as [D1 _]. apply dsim_fields in D1 as [D1 _]. apply Ok_inj in E1 as <-. exists d', items. split; [reflexivity|]. congruence.
      - apply Ok_inj in E1 as <-. exists dd, (f_kids f1). rewrite Ed, B. split; reflexivity. }
    destruct G as (d1 & k1 & G1 & G2). destruct f as [|f]; cbn [finalize_all] in Ef; rewrite G1 in Ef; [discriminate|]. destruct (finalize_tip a p1) as [p2|e] eqn:E2; [|discriminate]. cbn [bind] in Ef.
    unfold finalize_tip in E2. rewrite G1 in E2. destruct (of_option TypeError _) as [[sp0 y]|e]; [|discriminate]. cbn [bind] in E2. set (dd := set_n_sourcepos _ _) in E2. assert (Ed : n_t dd = document) by exact Hd. clearbody dd. rewrite Ed in E2. apply Ok_inj in E2 as <-.
    assert (Eq : finalize_all f a (attach (T dd (f_kids (F d (k ++ [T d1 k1])))) (set_p_stack [] p1)) = Ok (attach (T dd (f_kids (F d (k ++ [T d1 k1])))) (set_p_stack [] p1))) by (destruct f; reflexivity).
    rewrite Eq in Ef. apply Ok_inj in Ef as <-. exists dd, d1, k1. split; [reflexivity|]. auto.
  - destruct f as [|f]; cbn [finalize_all] in Ef; rewrite Es in Ef; cbn [app] in Ef; [discriminate|]. destruct (finalize_tip a p) as [p1|e] eqn:E1; [|discriminate]. cbn [bind] in Ef.
    destruct up as [|y up].
    + cbn [app] in Es. destruct (finalize_par _ _ _ _ _ _ Es E1) as (ks & G). apply (IH [] (F (f_data f1) (f_kids f1 ++ ks)) d k a f p1 q); [cbn in Hn |- *; lia|exact G|exact Hd|exact Hb|exact Ht|exact Ef].
    + cbn [app] in Es. destruct (finalize_par _ _ _ _ _ _ Es E1) as (ks & G).
      apply (IH (F (f_data y) (f_kids y ++ ks) :: up) f1 d k a f p1 q); [cbn in Hn |- *; lia|exact G|exact Hd|exact Hb|exact Ht|exact Ef].
Qed.
