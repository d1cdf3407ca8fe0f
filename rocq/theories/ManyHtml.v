(** * Lists of several items with texts under each item, in HTML: C59 *)
From Verif Require Import Base Regex Common NormRef Node Inlines Blocks Html Main RegexFacts StrFacts Spec SpecTree SpecSame SpecLines SpecParas SpecLists SpecItems SpecJoin SpecMany
  TreeFacts CommonFacts StrProp InlineFacts InlineInv HtmlFacts RenderFacts BlockFacts BlockInv BlockRun LineFacts ParseFacts RefMapFacts Sim SimFacts SmartFacts SameHtml DocFacts TextFacts RuleFacts WordFacts BlankFacts AfterFacts ParaFacts ParaInline ParaDoc ListLine ListDoc ListHtml EmptyLine ItemDoc ItemHtml JoinClose JoinBlocks JoinDoc JoinBlank ManyItems.
From Coq Require Import ZifyBool ZifyNat ZifyN.

(** ** Inlines *)
Definition final_entry (x : entry) (t : tree) : Prop :=
  exists it pd K kb k1 da ka, t = T it (T pd K :: kb) /\ n_t it = item /\ n_t pd = paragraph /\ (forall soft, shows soft K (html_text (li_words (en_item x)))) /\
    parse_doc false (en_text x) = Ok (T da ka) /\ Forall2 eqp ka k1 /\ Forall2 same_unflagged k1 kb.
Lemma process_entry x t s : entry_ok x -> closed_entry x t -> ip_smart s = false -> ip_refmap s = [] ->
  exists t' s', process_inlines t s = Ok (t', s') /\ final_entry x t' /\ ip_smart s' = false /\ ip_refmap s' = [].
Proof.
  intros (X1 & X2 & X3 & X4 & X5 & X6 & X7 & X8) (dl & it & pd & kb & kb' & k & s0 & s1 & da & ka & -> & H1 & H2 & H3 & H4 & H5 & H6 & H7 & H8 & H9 & H10 & H11) Hs Hr.
  rewrite process_inlines_eq, H1. change (is_container item) with true. cbv iota. cbn [ntype_eqb orb]. change (T pd [] :: kb') with ([T pd []] ++ kb'). rewrite process_all_app, (process_para pd _ s (or_introl H2) H3).
  destruct (words_code (li_words (en_item x)) s ltac:(apply X1) X3 Hs ltac:(rewrite Hr; constructor)) as (K & s3 & -> & HK & Hs3). cbn [bind].
  assert (Hip : same_ip s0 s3) by (destruct Hs3; split; congruence).
  pose proof (process_all_sim _ _ _ k kb s0 s3 H4 H6 Hip) as Gk. rewrite H9 in Gk. destruct Gk as ([bf sb] & Eb & Gb & Gs). cbn [fst snd] in Gb, Gs.
  pose proof (process_sus kb kb' H5 s3) as Gu. rewrite Eb in Gu. destruct Gu as (kbf & -> & Hkbf). cbn [bind app]. eexists. exists sb. split; [reflexivity|].
  split; [|destruct Gs, H10; split; congruence]. exists it, pd, K, kbf, bf, da, ka. split; [reflexivity|]. split; [exact H1|]. split; [exact H2|]. split; [exact HK|]. split; [exact H11|]. split; [|exact Hkbf].
  pose proof (doc_positions false (en_text x) _ X4 H11) as Hpos. apply tree_every_unfold in Hpos as [_ Hpos].
  clear - Gb Hpos. induction Gb as [|a b l l' Hx _ IH]; [constructor|]. inversion Hpos as [|a' b' P1 P2]; subst. constructor; [|apply IH, P2].
  eapply (same_eqp (fun _ _ => True)). eapply prel_blocks; [|exact Hx|exact P1]. intros; exact I.
Qed.
Lemma process_entries : forall l ts, Forall2 closed_entry l ts -> Forall entry_ok l -> forall s, ip_smart s = false -> ip_refmap s = [] ->
  exists ts' s', process_all ts s = Ok (ts', s') /\ Forall2 final_entry l ts'.
Proof.
  intros l ts H. induction H as [|x t l ts Hx _ IH]; intros Hok s Hs Hr; cbn [process_all]; [exists [], s; split; [reflexivity|constructor]|]. inversion Hok as [|? ? O1 O2]; subst.
  destruct (process_entry x t s O1 Hx Hs Hr) as (t' & s1 & -> & Ht & S1 & S2). cbn [bind]. destruct (IH O2 s1 S1 S2) as (ts' & s2 & -> & Hts). cbn [bind]. eexists. exists s2. split; [reflexivity|]. constructor; assumption.
Qed.

(** ** HTML *)
Lemma entry_events o e l data x t h b : ho_sourcepos o = false -> n_t l = list_ -> n_list_data l = Some data -> ld_tight data = false -> Forall code_point (en_text x) -> final_entry x t -> md_to_html false o (en_text x) = Ok h ->
  html_events o (events [l; e] t) (HS b [LF] 0) = Ok (HS (b ++ entry_html x h) [LF] 0).
Proof.
  intros Ho El Hld Ht Hs (it & pd & K & kb & k1 & d & k & -> & Ei & Ep & Sh & Ex & Hk1 & Hk2) Eh. unfold md_to_html in Eh. rewrite Ex in Eh. cbn [bind] in Eh. destruct (doc_blocks false _ d k Hs Ex) as (Hd & Hk).
  pose proof (html_of_blocks o d k h Ho Hd Hk Eh d Hd) as Ek.
  assert (Ek2 : html_events o (flat_map (events [it; l; e]) kb) (HS [] [LF] 0) = Ok (HS h [LF] 0)).
  { rewrite <- Ek. rewrite (html_kids_same o Ho k1 kb [it; l; e] [it; l; e]); [|eapply Forall2_impl'; [|exact Hk2]; exact su_eqp|split; [reflexivity|split; reflexivity]].
    apply (html_kids_same o Ho); [exact Hk1|]. split; [reflexivity|]. cbn [hd_error tl gkey]. rewrite Hd, Ei, El. cbn [ntype_eqb]. rewrite Hld. cbn [option_map]. rewrite Ht. split; reflexivity. }
  cbn [events]. rewrite Ei. change (is_container item) with true. cbv iota. cbn [flat_map]. cbn [events]. rewrite Ep. change (is_container paragraph) with true. cbv iota. cbn [html_events app].
  assert (E1 : html_node o it [l; e] true (HS b [LF] 0) = Ok (HS (b ++ u "<li>") (u ">") 0)).
  { unfold html_node. rewrite Ei. unfold h_item. rewrite (attrs_none o it Ho). unfold h_tag. cbn [h_dis]. change (Z.ltb 0 0) with false. cbv iota. cbn [h_buf flat_map app h_dis]. reflexivity. }
  rewrite E1. cbn [bind].
  assert (E2 : forall st, html_node o pd [it; l; e] true st = Ok (h_tag (u "p") [] false (h_cr st))).
  { intros st. unfold html_node. rewrite Ep. unfold h_paragraph. rewrite El. cbn [ntype_eqb]. rewrite Hld. cbn [of_option bind]. rewrite Ht, (attrs_none o pd Ho). reflexivity. }
  assert (E3 : forall st, html_node o pd [it; l; e] false st = Ok (h_cr (h_tag0 (u "/p") st))).
  { intros st. unfold html_node. rewrite Ep. unfold h_paragraph. rewrite El. cbn [ntype_eqb]. rewrite Hld. cbn [of_option bind]. rewrite Ht. reflexivity. }
  assert (E4 : forall st, html_node o it [l; e] false st = Ok (h_cr (h_tag0 (u "/li") st))). { intros st. unfold html_node. rewrite Ei. reflexivity. }
  rewrite E2. cbn [bind]. change (h_tag (u "p") [] false (h_cr (HS (b ++ u "<li>") (u ">") 0))) with (HS (((b ++ u "<li>") ++ [LF]) ++ u "<p>") (u ">") 0).
  set (b1 := ((b ++ u "<li>") ++ [LF]) ++ u "<p>"). rewrite <- !app_assoc, html_events_app.
  destruct (Sh (ho_softbreak o) o [pd; it; l; e] (HS b1 (u ">") 0) eq_refl eq_refl) as (la & E). cbn [h_buf] in E. rewrite E. cbn [bind app html_events]. rewrite E3. cbn [bind].
  set (w := html_text (li_words (en_item x))) in *.
  change (h_cr (h_tag0 (u "/p") (HS (b1 ++ w) la 0))) with (HS (((b1 ++ w) ++ u "</p>") ++ [LF]) [LF] 0).
  set (b2 := ((b1 ++ w) ++ u "</p>") ++ [LF]). rewrite html_events_app.
  pose proof (hp_events b2 o (flat_map (events [it; l; e]) kb) (HS [] [LF] 0)) as G. unfold hp at 1 in G. cbn [h_buf h_last h_dis] in G. rewrite app_nil_r, Ek2 in G. rewrite G. clear G. cbn [bind].
  unfold hp. cbn [h_buf h_last h_dis html_events]. rewrite E4. cbn [bind].
  change (h_cr (h_tag0 (u "/li") (HS (b2 ++ h) [LF] 0))) with (HS (((b2 ++ h) ++ u "</li>") ++ [LF]) [LF] 0).
  f_equal. f_equal. unfold entry_html, b2, b1. fold w. rewrite <- !app_assoc. reflexivity.
Qed.
Lemma entries_events o e l data : ho_sourcepos o = false -> n_t l = list_ -> n_list_data l = Some data -> ld_tight data = false -> forall es ts, Forall2 final_entry es ts -> Forall entry_ok es ->
  forall hs b, Forall2 (fun x h => md_to_html false o (en_text x) = Ok h) es hs -> html_events o (flat_map (events [l; e]) ts) (HS b [LF] 0) = Ok (HS (b ++ entries_html es hs) [LF] 0).
Proof.
  intros Ho El Hld Ht es ts H. induction H as [|x t es ts Hx _ IH]; intros Hok hs b Hh; inversion Hh as [|? h ? hs' H1 H2]; subst; cbn [flat_map html_events entries_html]; [rewrite app_nil_r; reflexivity|]. inversion Hok as [|? ? O1 O2]; subst.
  rewrite html_events_app, (entry_events o e l data x t h b Ho El Hld Ht ltac:(apply O1) Hx H1). cbn [bind]. rewrite (IH O2 hs' _ H2), <- app_assoc. reflexivity.
Qed.
Lemma list_events o e l data m items body : ho_sourcepos o = false -> mark_ok m -> n_t l = list_ -> n_list_data l = Some data -> list_head m data ->
  (forall b, html_events o (flat_map (events [l; e]) items) (HS b [LF] 0) = Ok (HS (b ++ body) [LF] 0)) ->
  html_events o (events [e] (T l items)) (HS [] [LF] 0) = Ok (HS (open_tag m ++ [LF] ++ body ++ close_tag m ++ [LF]) [LF] 0).
Proof.
  intros Ho Hm El Hld Hhd Hb. cbn [events]. rewrite El. change (is_container list_) with true. cbv iota. cbn [html_events].
  assert (Eo : html_node o l [e] true (HS [] [LF] 0) = Ok (HS (open_tag m ++ [LF]) [LF] 0)).
  { unfold html_node. rewrite El. unfold h_list. rewrite Hld. cbn [of_option bind]. rewrite (attrs_none o l Ho). cbn [app]. change (h_cr (HS [] [LF] 0)) with (HS [] [LF] 0).
    destruct m as [c|ds dl]; cbn [list_head mark_ok open_tag] in *; destruct Hhd as [-> ->].
    - unfold h_tag, h_cr, h_lit. cbn [h_dis]. change (Z.ltb 0 0) with false. cbv iota. cbn [h_last h_buf h_dis flat_map app]. change (str_eqb (u ">") [LF]) with false. cbv iota. reflexivity.
    - destruct Hm as (Hl & Hd & _). assert (Hn : ds <> []) by (destruct ds; [cbn in Hl; lia|discriminate]). rewrite (number_one ds Hd Hn), (number_str ds Hd Hn).
      unfold h_tag, h_cr, h_lit. cbn [h_dis]. change (Z.ltb 0 0) with false. cbv iota. cbn [h_last h_buf h_dis]. change (str_eqb (u ">") [LF]) with false. cbv iota. destruct (str_eqb (no_zeros ds) (u "1")); cbn [flat_map]; unfold attr_text; cbn [fst snd]; rewrite <- ?app_assoc; cbn [app]; rewrite ?app_nil_r; reflexivity. }
  rewrite Eo. cbn [bind]. rewrite html_events_app, Hb. cbn [bind html_events].
  unfold html_node. rewrite El. unfold h_list. rewrite Hld. cbn [of_option bind]. change (h_cr (HS ?x [LF] 0)) with (HS x [LF] 0). unfold h_tag0, h_tag, h_cr, h_lit. cbn [h_dis h_last]. change (str_eqb [LF] [LF]) with true. cbv iota. change (Z.ltb 0 0) with false. cbv iota. cbn [h_last h_buf h_dis flat_map app]. change (str_eqb (u ">") [LF]) with false. cbv iota.
  rewrite <- !app_assoc. destruct m as [c|ds dl]; cbn [list_head close_tag] in *; destruct Hhd as [-> _]; reflexivity.
Qed.

(** ** C59 *)
Lemma entry_source_ne x : entry_ok x -> en_under x <> [].
Proof. intros (_ & _ & _ & _ & _ & _ & _ & H) E. rewrite E in H. discriminate. Qed.
Lemma entry_source_lf x : entry_ok x -> last_opt (entry_source x) = Some LF.
Proof. intros H. unfold entry_source. rewrite last_opt_app by (apply entry_source_ne, H). apply H. Qed.
Lemma entries_lines : forall es, es <> [] -> Forall entry_ok es -> text_lines (flat_map entry_source es) = flat_map entry_lines es.
Proof.
  induction es as [|x es IH]; intros Hne H; [congruence|]. inversion H as [|? ? H1 H2]; subst. cbn [flat_map].
  assert (Ex : text_lines (entry_source x) = entry_lines x) by (apply item_text_lines; [apply H1|apply entry_source_ne, H1]).
  destruct es as [|y es]; [cbn [flat_map]; rewrite !app_nil_r; exact Ex|]. rewrite text_lines_join; [|apply entry_source_lf, H1|].
  - rewrite Ex, IH; [reflexivity|discriminate|exact H2].
  - inversion H2 as [|? ? H3 H4]; subst. cbn [flat_map]. intros E. apply app_eq_nil in E as [E _]. unfold entry_source in E. apply app_eq_nil in E as [_ E]. exact (entry_source_ne y H3 E).
Qed.
Theorem many_both o x es hs : ho_sourcepos o = false -> es <> [] -> Forall entry_ok (x :: es) -> Forall (fun y => same_kind (li_mark (en_item x)) (li_mark (en_item y)) = true) es ->
  Forall2 (fun y h => md_to_html false o (en_text y) = Ok h) (x :: es) hs ->
  (exists e l ts, parse_doc false (flat_map entry_source (x :: es)) = Ok (T e [T l ts]) /\ n_t l = list_) /\ md_to_html false o (flat_map entry_source (x :: es)) = Ok (open_tag (li_mark (en_item x)) ++ [10%N] ++ entries_html (x :: es) hs ++ close_tag (li_mark (en_item x)) ++ [10%N]).
Proof.
  intros Ho Hne Hok Hkind Hh. pose proof (Forall_inv Hok) as Hx. pose proof (Forall_inv_tail Hok) as Hes.
  assert (Hps : Forall parses (x :: es)). { clear -Hh. induction Hh as [|y h l hs H _ IH]; constructor; [|exact IH]. unfold md_to_html in H. destruct (parse_doc false (en_text y)) as [[da ka]|e] eqn:E; [|discriminate]. exists da, ka. exact E. }
  pose proof (Forall_inv Hps) as Hpx. pose proof (Forall_inv_tail Hps) as Hpes. set (i := en_item x) in *.
  unfold md_to_html. change (parse_doc false (flat_map entry_source (x :: es))) with (result (parse (new_parser false) (flat_map entry_source (x :: es)))). rewrite parse_finish, input_lines_text, entries_lines by (discriminate || assumption).
  assert (El : flat_map entry_lines (x :: es) = li_line i :: (li_blanks i ++ text_lines (en_under x) ++ flat_map entry_lines es)) by (cbn [flat_map]; unfold entry_lines at 1, li_lines; rewrite <- app_assoc; reflexivity).
  rewrite El. set (ls := li_blanks i ++ text_lines (en_under x) ++ flat_map entry_lines es) in *.
  destruct (reset_fresh false) as ((d & Es & Ed & Ep & Ec) & _). destruct (first_item i (reset (new_parser false)) d ltac:(apply Hx) Es Ed Ep eq_refl eq_refl) as (q0 & E0 & H0 & L0).
  assert (Ern : p_line_number (reset (new_parser false)) = 0) by reflexivity. rewrite Ern in L0. clear Ern.
  apply gen_of_open in H0. assert (H0' : exists off pad, open_more [] (Some (mark_data (li_mark i) off pad)) i false q0).
  { destruct H0 as (top & ld & kl & dd & kd & id & w & S1 & S2 & S3 & S5 & S6 & (i0 & l0 & off & pad & S4 & S7 & S8 & S9 & S10) & S11). cbn [app] in S7. injection S7 as <- <-. inversion S4; subst kd. inversion S9; subst kl.
    exists off, pad, top, ld, [], dd, [], id, w. repeat (split; [assumption|]). split; [split; [reflexivity|split; [reflexivity|exact S8]]|exact S11]. }
  destruct H0' as (off & pad & Hop).
  destruct (entries_run (li_mark i) off pad es x [] q0 [] Hx Hpx Hes Hpes Hkind ltac:(constructor) ltac:(constructor) Hop) as (q1 & y & p1 & dl & LK & done & G1 & G2 & (da & ka & G3) & G4 & G5 & G6 & G7 & G8 & G9). fold i in G1, G9. fold ls in G1, G9. cbn [app] in G4.
  cbn [incorporate_lines]. rewrite E0. cbn [bind]. rewrite G1. cbn [bind length].
  destruct (entry_facts y da ka G2 G3) as (p1' & p2 & d1 & k & s & s1 & F1 & Fn & F2 & F3 & F4 & F5 & F6 & F7 & F8 & F9 & F10). rewrite G7 in F1. apply Ok_inj in F1 as <-.
  assert (En : S (length ls) = p_line_number p1 + dl) by (rewrite <- (l_num _ _ _ _ _ _ _ _ _ _ _ (proj1 G8)), G9, L0; reflexivity).
  unfold finish. pose proof (srel_len _ _ _ _ _ _ _ (item_hex (en_item y) dl) _ _ _ (l_stack _ _ _ _ _ _ _ _ _ _ _ (proj1 G8))) as [Eln _].
  pose proof (item_finalize (en_item y) dl _ LK (p_line_number p1) p1 q1 (length (p_stack p1)) (length (p_stack q1)) ltac:(clear -Eln; lia) G8) as G. rewrite F2 in G.
  rewrite En. destruct G as (q2 & -> & A1 & A2 & d2 & k2 & d' & k' & A3 & A4 & A5 & _ & _ & _ & [[X _]|[[X _]|(_ & l & e & I1 & (L1 & L2) & De & A9)]]); [discriminate|discriminate|].
  rewrite F3 in A3. injection A3 as <- <-. cbn [bind]. rewrite A9. cbn [of_option bind]. destruct A5 as (a & kb & -> & (pd & -> & P1 & P2 & P3 & P4) & Hkb). cbn [app].
  assert (Hy : closed_entry y (T d' (T pd [] :: kb))). { exists dl, d', pd, kb, kb, k, s, s1, da, ka. repeat (split; [solve [reflexivity|assumption|apply sus_refl]|]). exact G3. }
  assert (Hall : Forall2 closed_entry (x :: es) (LK ++ [T d' (T pd [] :: kb)])) by (rewrite G4; apply Forall2_app; [exact G5|constructor; [exact Hy|constructor]]).
  assert (Hfst : exists t t' r, LK ++ [T d' (T pd [] :: kb)] = t :: t' :: r /\ noted_item t).
  { destruct LK as [|t LK]. - exfalso. inversion G5; subst done. cbn [app] in G4. injection G4 as _ G4. congruence.
    - inversion G6 as [|? ? N1 N2]; subst. destruct LK as [|t' LK]; cbn [app]; eexists; eexists; eexists; split; try reflexivity; exact N1. }
  destruct (finalize_entries (x :: es) l _ (li_mark i) off pad Hall Hfst L2) as (l' & ts & data & Efl & T1 & T2 & T3 & T4 & T5). cbn [app] in Efl. rewrite Efl. cbn [fst snd].
  set (st := IP _ _ (p_refmap q2) _ _ _ _ _). assert (Hst1 : ip_smart st = false) by exact (proj2 A2). assert (Hst2 : ip_refmap st = []) by (cbn [ip_refmap st]; congruence). clearbody st.
  rewrite (process_bt e) by (left; exact De). cbn [process_all]. rewrite process_inlines_eq, T1, L1. change (is_container list_) with true. cbv iota. cbn [ntype_eqb orb].
  destruct (process_entries _ _ T5 Hok st Hst1 Hst2) as (ts' & st' & -> & Hts). cbn [bind]. split; [eexists; eexists; eexists; split; [reflexivity|congruence]|]. unfold render_html. rewrite html_document by exact De. change (h_dis new_html) with 0%Z. cbn [flat_map]. rewrite app_nil_r.
  rewrite (list_events o e l' data (li_mark i) ts' (entries_html (x :: es) hs) Ho ltac:(apply Hx) ltac:(congruence) T2 T4); [reflexivity|].
  intros b. apply (entries_events o e l' data Ho ltac:(congruence) T2 T3 (x :: es) ts' Hts Hok hs b Hh).
Qed.

Theorem many_html o x es hs : ho_sourcepos o = false -> es <> [] -> Forall entry_ok (x :: es) -> Forall (fun y => same_kind (li_mark (en_item x)) (li_mark (en_item y)) = true) es ->
  Forall2 (fun y h => md_to_html false o (en_text y) = Ok h) (x :: es) hs ->
  md_to_html false o (flat_map entry_source (x :: es)) = Ok (open_tag (li_mark (en_item x)) ++ [10%N] ++ entries_html (x :: es) hs ++ close_tag (li_mark (en_item x)) ++ [10%N]).
Proof. intros. apply many_both; assumption. Qed.

(** A decider for the hypotheses *)
Lemma entry_okb x : li_okb (en_item x) && negb (is_nil (li_blanks (en_item x))) && forallb (fun c => N.ltb c 1114112) (li_words (en_item x)) && forallb (fun c => N.ltb c 1114112) (en_text x) && plain_spaces_b (en_text x) &&
  negb (infixb [93; 58]%N (en_text x)) && all2 (indented_b (li_width (en_item x))) (text_lines (en_text x)) (text_lines (en_under x)) && match last_opt (en_under x) with Some c => N.eqb c 10 | None => false end = true -> entry_ok x.
Proof.
  intros H. do 7 (apply andb_true_iff in H as [H ?]). split; [apply li_okb_ok; assumption|]. split; [intros E; rewrite E in *; discriminate|]. split; [apply code_pointsb; assumption|]. split; [apply code_pointsb; assumption|].
  split; [apply plain_spacesb; assumption|]. split; [apply infixb_not, negb_true_iff; assumption|]. split; [apply indented_textb; assumption|]. destruct (last_opt (en_under x)) as [c|]; [|discriminate]. f_equal. apply N.eqb_eq. assumption.
Qed.
