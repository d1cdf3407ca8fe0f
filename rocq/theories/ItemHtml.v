(** * Blocks under a list item, in HTML: C55 *)
From Verif Require Import Base Regex Common NormRef Node Inlines Blocks Html Main RegexFacts StrFacts Spec SpecTree SpecSame SpecLines SpecParas SpecLists SpecItems
  TreeFacts CommonFacts StrProp InlineFacts HtmlFacts RenderFacts BlockFacts LineFacts ParseFacts Sim SimFacts SameHtml DocFacts TextFacts RuleFacts WordFacts ParaFacts ParaInline ParaDoc ListLine ListDoc ListHtml ItemDoc.
From Coq Require Import ZifyBool ZifyNat ZifyN.

(** ** Every block writes something *)
Lemma cr_writes st : h_last st <> [LF] -> h_buf (h_cr st) <> [].
Proof. intros H. unfold h_cr. destruct (str_eqb (h_last st) [LF]) eqn:E; [apply str_eqb_eq in E; congruence|]. unfold h_lit. cbn [h_buf]. destruct (h_buf st); discriminate. Qed.
Lemma cr_keeps st : h_buf st <> [] -> h_buf (h_cr st) <> [].
Proof. intros H. unfold h_cr. destruct (str_eqb _ _); [exact H|]. unfold h_lit. cbn [h_buf]. destruct (h_buf st); [congruence|discriminate]. Qed.
Lemma tag_writes n a sc st : h_dis st = 0%Z -> h_buf (h_tag n a sc st) <> [].
Proof. intros H. unfold h_tag. rewrite H. change (Z.ltb 0 0) with false. cbv iota. cbn [h_buf]. destruct (h_buf st); [|discriminate]. change (u "<") with [60%N]. discriminate. Qed.
Lemma cr_dis st : h_dis (h_cr st) = h_dis st.
Proof. unfold h_cr. destruct (str_eqb _ _); reflexivity. Qed.
Lemma tag_dis n a sc st : h_dis (h_tag n a sc st) = h_dis st.
Proof. unfold h_tag. destruct (Z.ltb _ _); reflexivity. Qed.
Lemma out_dis s st : h_dis (h_out s st) = h_dis st.
Proof. reflexivity. Qed.
Lemma block_writes o d k st st' x : n_t d = document -> may_hold document (n_t x) = true -> h_dis st = 0%Z ->
  html_events o (events [d] (T x k)) st = Ok st' -> h_buf st' <> [].
Proof.
  intros Ed Hi Hz H.
  assert (G : exists st1, html_node o x [d] (negb (is_container (n_t x))) st1 = Ok st' /\ h_dis st1 = 0%Z).
  { pose proof H as H0. cbn [events] in H. destruct (is_container (n_t x)) eqn:Ec; cbn [negb]; cbn [html_events] in H.
    - destruct (html_node o x [d] true st) as [s1|] eqn:E1; cbn [bind] in H; [|discriminate]. rewrite html_events_app in H. destruct (html_events o (flat_map _ k) s1) as [s2|] eqn:E2; cbn [bind] in H; [|discriminate].
      cbn [html_events] in H. exists s2. destruct (html_node o x [d] false s2) eqn:E3; cbn [bind] in H; [|discriminate]. split; [exact H|]. rewrite (kids_dis _ _ _ _ _ E2).
      clear - E1 Hz Hi. unfold html_node in E1. destruct (n_t x); try discriminate Hi.
      + unfold h_block_quote in E1. apply Ok_inj in E1 as <-. rewrite cr_dis, tag_dis, cr_dis. exact Hz.
      + unfold h_list in E1. destruct (n_list_data x); cbn [of_option bind] in E1; [|discriminate]. apply Ok_inj in E1 as <-. rewrite cr_dis, tag_dis, cr_dis. exact Hz.
      + unfold h_paragraph in E1. cbn [bind] in E1. apply Ok_inj in E1 as <-. rewrite tag_dis, cr_dis. exact Hz.
      + unfold h_heading in E1. apply Ok_inj in E1 as <-. rewrite tag_dis, cr_dis. exact Hz.
      + unfold h_thematic_break in E1. apply Ok_inj in E1 as <-. rewrite cr_dis, tag_dis, cr_dis. exact Hz.
      + unfold h_code_block, h_tag0 in E1. apply Ok_inj in E1 as <-. rewrite cr_dis, !tag_dis, out_dis, !tag_dis, cr_dis. exact Hz.
      + unfold h_html_block, h_html_inline in E1. destruct (ho_safe o); [|destruct (n_literal x)]; cbn [of_option bind] in E1; try discriminate; apply Ok_inj in E1 as <-; rewrite cr_dis; unfold h_lit; cbn [h_dis]; rewrite cr_dis; exact Hz.
    - exists st. split; [|exact Hz]. destruct (html_node o x [d] true st); cbn [bind] in H; [exact H|discriminate]. }
  destruct G as (s1 & G & Hz1). unfold html_node in G. destruct (n_t x); try discriminate Hi.
  - change (is_container block_quote) with true in G. cbn [negb] in G. unfold h_block_quote in G. apply Ok_inj in G as <-. apply cr_keeps, tag_writes. rewrite cr_dis. exact Hz1.
  - change (is_container list_) with true in G. cbn [negb] in G. unfold h_list in G. destruct (n_list_data x); cbn [of_option bind] in G; [|discriminate]. apply Ok_inj in G as <-. apply cr_keeps, tag_writes. rewrite cr_dis. exact Hz1.
  - change (is_container paragraph) with true in G. cbn [negb] in G. unfold h_paragraph in G. cbn [bind] in G. apply Ok_inj in G as <-. apply cr_keeps, tag_writes. exact Hz1.
  - change (is_container heading) with true in G. cbn [negb] in G. unfold h_heading in G. apply Ok_inj in G as <-. apply cr_keeps, tag_writes. exact Hz1.
  - unfold h_thematic_break in G. apply Ok_inj in G as <-. apply cr_keeps, tag_writes. rewrite cr_dis. exact Hz1.
  - unfold h_code_block, h_tag0 in G. apply Ok_inj in G as <-. apply cr_keeps, tag_writes. rewrite !tag_dis, out_dis, !tag_dis, cr_dis. exact Hz1.
  - unfold h_html_block, h_html_inline in G. destruct (ho_safe o); [|destruct (n_literal x) as [[|c r]|]]; cbn [of_option bind] in G; try discriminate; apply Ok_inj in G as <-.
    + apply cr_writes. discriminate.
    + apply cr_writes. discriminate.
    + apply cr_keeps. unfold h_lit. cbn [h_buf]. destruct (h_buf (h_cr s1)); discriminate.
Qed.
Lemma blocks_write o d k st st' : n_t d = document -> k <> [] -> Forall (fun t => may_hold document (t_type t) = true) k -> h_dis st = 0%Z ->
  html_events o (flat_map (events [d]) k) st = Ok st' -> h_buf st' <> [].
Proof.
  intros Ed Hne Hk Hz H. destruct k as [|[x kx] k]; [congruence|]. cbn [flat_map] in H. rewrite html_events_app in H. inversion Hk as [|a b H2 H3]; subst.
  destruct (html_events o (events [d] (T x kx)) st) as [s1|] eqn:E; cbn [bind] in H; [|discriminate]. pose proof (block_writes o d kx st s1 x Ed H2 Hz E) as Hw.
  pose proof (hp_events (h_buf s1) o (flat_map (events [d]) k) (HS [] (h_last s1) (h_dis s1))) as G. unfold hp at 1 in G. cbn [h_buf h_last h_dis] in G. rewrite app_nil_r in G.
  replace (HS (h_buf s1) (h_last s1) (h_dis s1)) with s1 in G by (destruct s1; reflexivity). rewrite H in G. destruct (html_events o _ (HS [] _ _)) as [s2|]; [|discriminate]. apply Ok_inj in G as ->. unfold hp. cbn [h_buf]. destruct (h_buf s1); [congruence|discriminate].
Qed.

(** ** C55 *)
Theorem item_html_doc o i s s2 : ho_sourcepos o = false -> li_ok i -> li_blanks i <> [] -> Forall code_point (li_words i) -> Forall code_point s -> plain_spaces s -> indented_text (li_width i) s s2 -> s2 <> [] ->
  md_to_html false o (li_text i ++ s2) = let* h := md_to_html false o s in Ok (item_html i h).
Proof.
  intros Ho Hi Hb Hw Hs Hp Hin Hne. pose proof (item_doc i s s2 Hi Hb Hw Hs Hp Hin Hne) as H. pose proof (parse_doc_facts false s) as Fa. unfold md_to_html, render_html.
  destruct (parse_doc false s) as [[d k]|x]; cbn [bind]; [|rewrite H; reflexivity].
  destruct H as (e & l & it & pd & K & kb & data & -> & Ed & Ee & El & Ei & Ep & Sh & Hld & Hhd & Ht & (k1 & Hk1 & Hk2)). cbn [bind]. rewrite !html_document by assumption. change (h_dis new_html) with 0%Z.
  destruct (Fa (T d k) Hs eq_refl) as (F1 & _). assert (Hk : Forall (fun t => may_hold document (t_type t) = true) k).
  { apply Forall_forall. intros x Hx. destruct (F1 (T d k)) as (_ & G & _); [left; reflexivity|]. rewrite Ed in G. rewrite Forall_forall in G. apply G, Hx. }
  assert (Hm : mark_ok (li_mark i)) by apply Hi. clear F1 Fa.
  destruct k as [|t0 k].
  - inversion Hk1; subst k1. inversion Hk2; subst kb. cbn [flat_map html_events bind h_buf]. rewrite app_nil_r.
    rewrite (run_events o e [i] (T l [T it [T pd K]]) [] Ho ltac:(constructor; [exact Hm|constructor])).
    + cbn [bind h_buf]. f_equal. cbn [app]. unfold run_html, item_html. cbn [is_nil flat_map loose existsb removelast]. unfold li_html. rewrite <- !app_assoc. reflexivity.
    + exists l, [T it [T pd K]], data, i, []. split; [reflexivity|]. split; [exact El|]. split; [exact Hld|]. split; [exact Ht|]. split; [reflexivity|]. split; [exact Hhd|]. constructor; [|constructor]. exists it, pd, K. auto.
  - cbn [is_nil] in Ht. cbn [flat_map]. rewrite app_nil_r.
    set (k0 := t0 :: k) in *. change (events [d] t0 ++ flat_map (events [d]) k) with (flat_map (events [d]) k0).
    assert (Ek : html_events o (flat_map (events [it; l; e]) kb) (HS [] [LF] 0) = html_events o (flat_map (events [d]) k0) (HS [] [LF] 0)).
    { rewrite (html_kids_same o Ho k1 kb [it; l; e] [it; l; e]); [|eapply Forall2_impl'; [|exact Hk2]; exact su_eqp|split; [reflexivity|split; reflexivity]].
      apply (html_kids_same o Ho).
      - eapply Forall2_impl'; [|exact Hk1]. intros x y. apply same_eqp.
      - split; [reflexivity|]. cbn [hd_error tl gkey]. rewrite Ed, Ei, El. cbn [ntype_eqb]. rewrite Hld. cbn [option_map]. rewrite Ht. split; reflexivity. }
    (* the list and its item *)
    cbn [events]. rewrite El. change (is_container list_) with true. cbv iota. cbn [flat_map]. rewrite app_nil_r. cbn [events]. rewrite Ei. change (is_container item) with true. cbv iota. cbn [flat_map]. cbn [events]. rewrite Ep. change (is_container paragraph) with true. cbv iota.
    cbn [html_events app].
    assert (Eo : html_node o l [e] true (HS [] [LF] 0) = Ok (HS (open_tag (li_mark i) ++ [LF]) [LF] 0)).
    { unfold html_node. rewrite El. unfold h_list. rewrite Hld. cbn [of_option bind]. rewrite (attrs_none o l Ho). cbn [app]. change (h_cr (HS [] [LF] 0)) with (HS [] [LF] 0).
      destruct (li_mark i) as [c|ds dl]; cbn [list_head mark_ok open_tag] in *; destruct Hhd as [-> ->].
      - unfold h_tag, h_cr, h_lit. cbn [h_dis]. change (Z.ltb 0 0) with false. cbv iota. cbn [h_last h_buf h_dis flat_map app]. change (str_eqb (u ">") [LF]) with false. cbv iota. reflexivity.
      - destruct Hm as (Hl & Hd & _). assert (Hn : ds <> []) by (destruct ds; [cbn in Hl; lia|discriminate]). rewrite (number_one ds Hd Hn), (number_str ds Hd Hn).
        unfold h_tag, h_cr, h_lit. cbn [h_dis]. change (Z.ltb 0 0) with false. cbv iota. cbn [h_last h_buf h_dis]. change (str_eqb (u ">") [LF]) with false. cbv iota. destruct (str_eqb (no_zeros ds) (u "1")); cbn [flat_map]; unfold attr_text; cbn [fst snd]; rewrite <- ?app_assoc; cbn [app]; rewrite ?app_nil_r; reflexivity. }
    rewrite Eo. cbn [bind].
    set (b0 := open_tag (li_mark i) ++ [LF]).
    assert (E1 : html_node o it [l; e] true (HS b0 [LF] 0) = Ok (HS (b0 ++ u "<li>") (u ">") 0)).
    { unfold html_node. rewrite Ei. unfold h_item. rewrite (attrs_none o it Ho). unfold h_tag. cbn [h_dis]. change (Z.ltb 0 0) with false. cbv iota. cbn [h_buf flat_map app h_dis]. reflexivity. }
    rewrite E1. cbn [bind].
    assert (E2 : forall st, html_node o pd [it; l; e] true st = Ok (h_tag (u "p") [] false (h_cr st))).
    { intros st. unfold html_node. rewrite Ep. unfold h_paragraph. rewrite El. cbn [ntype_eqb]. rewrite Hld. cbn [of_option bind]. rewrite Ht, (attrs_none o pd Ho). reflexivity. }
    assert (E3 : forall st, html_node o pd [it; l; e] false st = Ok (h_cr (h_tag0 (u "/p") st))).
    { intros st. unfold html_node. rewrite Ep. unfold h_paragraph. rewrite El. cbn [ntype_eqb]. rewrite Hld. cbn [of_option bind]. rewrite Ht. reflexivity. }
    assert (E4 : forall st, html_node o it [l; e] false st = Ok (h_cr (h_tag0 (u "/li") st))). { intros st. unfold html_node. rewrite Ei. reflexivity. }
    rewrite E2. cbn [bind]. change (h_tag (u "p") [] false (h_cr (HS (b0 ++ u "<li>") (u ">") 0))) with (HS (((b0 ++ u "<li>") ++ [LF]) ++ u "<p>") (u ">") 0).
    set (b1 := ((b0 ++ u "<li>") ++ [LF]) ++ u "<p>"). rewrite <- !app_assoc, html_events_app.
    destruct (Sh (ho_softbreak o) o [pd; it; l; e] (HS b1 (u ">") 0) eq_refl eq_refl) as (la & E). cbn [h_buf] in E. rewrite E. cbn [bind app html_events]. rewrite E3. cbn [bind].
    change (h_cr (h_tag0 (u "/p") (HS (b1 ++ html_text (li_words i)) la 0))) with (HS (((b1 ++ html_text (li_words i)) ++ u "</p>") ++ [LF]) [LF] 0).
    set (b2 := ((b1 ++ html_text (li_words i)) ++ u "</p>") ++ [LF]). rewrite html_events_app.
    pose proof (hp_events b2 o (flat_map (events [it; l; e]) kb) (HS [] [LF] 0)) as G. unfold hp at 1 in G. cbn [h_buf h_last h_dis] in G. rewrite app_nil_r, Ek in G. rewrite G. clear G.
    destruct (html_events o (flat_map (events [d]) k0) (HS [] [LF] 0)) as [st|] eqn:Est; cbn [bind]; [|reflexivity].
    assert (Hla : h_last st = [LF]) by (eapply (blocks_last o d Ed); [exact Hk| |exact Est]; reflexivity).
    pose proof (kids_dis _ _ _ _ _ Est) as Hz. cbn [h_dis] in Hz. pose proof (blocks_write o d k0 (HS [] [LF] 0) st Ed ltac:(discriminate) Hk eq_refl Est) as Hbuf.
    destruct st as [bf sl z]. cbn [h_last h_dis h_buf] in *. subst sl z. unfold hp. cbn [h_buf h_last h_dis]. cbn [html_events]. rewrite E4. cbn [bind].
    change (h_cr (h_tag0 (u "/li") (HS (b2 ++ bf) [LF] 0))) with (HS (((b2 ++ bf) ++ u "</li>") ++ [LF]) [LF] 0).
    assert (E5 : forall b, html_node o l [e] false (HS b [LF] 0) = Ok (HS (b ++ close_tag (li_mark i) ++ [LF]) [LF] 0)).
    { intros b. unfold html_node. rewrite El. unfold h_list. rewrite Hld. cbn [of_option bind]. change (h_cr (HS b [LF] 0)) with (HS b [LF] 0). unfold h_tag0, h_tag, h_cr, h_lit. cbn [h_dis h_last]. change (str_eqb [LF] [LF]) with true. cbv iota. change (Z.ltb 0 0) with false. cbv iota. cbn [h_last h_buf h_dis flat_map app]. change (str_eqb (u ">") [LF]) with false. cbv iota.
      rewrite <- !app_assoc. destruct (li_mark i) as [c|ds dl]; cbn [list_head close_tag] in *; destruct Hhd as [-> _]; reflexivity. }
    rewrite E5. cbn [bind h_buf]. f_equal. unfold item_html. destruct bf as [|c0 bf]; [congruence|]. cbn [is_nil]. unfold b2, b1, b0. rewrite <- !app_assoc. reflexivity.
Qed.

Theorem item_tree i s t : li_ok i -> li_blanks i <> [] -> Forall code_point (li_words i) ->
  Forall code_point s -> plain_spaces s -> indented_text (li_width i) s t -> t <> [] ->
  match parse_doc false s with
  | Ok (T d k) => exists e l it pd words kb,
      parse_doc false (li_text i ++ t) = Ok (T e [T l [T it (T pd words :: kb)]]) /\
      n_t d = document /\ n_t e = document /\ n_t l = list_ /\ n_t it = item /\ n_t pd = paragraph /\
      (exists data, n_list_data l = Some data /\ ld_tight data = is_nil k) /\
      moved_blocks (1 + length (li_blanks i)) (li_width i) k kb
  | Err x => parse_doc false (li_text i ++ t) = Err x
  end.
Proof.
  intros H1 H2 H3 H4 H5 H6 H7. pose proof (item_doc i s t H1 H2 H3 H4 H5 H6 H7) as H. destruct (parse_doc false s) as [[d k]|x]; [|exact H].
  destruct H as (e & l & it & pd & K & kb & data & E & E1 & E2 & E3 & E4 & E5 & _ & E6 & _ & E7 & E8). exists e, l, it, pd, K, kb. split; [exact E|]. repeat (split; [assumption|]). split; [exists data; auto|exact E8].
Qed.

(** Deciders for the hypotheses *)
Lemma code_pointsb s : forallb (fun c => N.ltb c 1114112) s = true -> Forall code_point s.
Proof. intros H. apply Forall_forall. intros c Hc. rewrite forallb_forall in H. specialize (H c Hc). unfold code_point. lia. Qed.
Definition plain_spaces_b (s : str) : bool := forallb (fun c => negb (N.eqb c 9)) s && forallb (fun l => is_nil l || negb (forallb (N.eqb 32) l)) (text_lines s).
Lemma plain_spacesb s : plain_spaces_b s = true -> plain_spaces s.
Proof.
  intros H. apply andb_true_iff in H as [H1 H2]. rewrite forallb_forall in H1, H2. split; [intros X; specialize (H1 _ X); discriminate|]. intros l Hl Hc. specialize (H2 l Hl). destruct l as [|c l]; [reflexivity|]. cbn [is_nil orb] in H2.
  assert (X : forallb (N.eqb 32) (c :: l) = true) by (apply forallb_forall; intros x Hx; rewrite (Hc x Hx); reflexivity). rewrite X in H2. discriminate.
Qed.
Definition indented_b (n : nat) (l l' : str) : bool := str_eqb l' (repeat 32%N n ++ l) || (is_nil l && forallb (N.eqb 32) l').
Fixpoint all2 {A} (f : A -> A -> bool) (l l' : list A) : bool := match l, l' with [], [] => true | a :: l, b :: l' => f a b && all2 f l l' | _, _ => false end.
Lemma indented_textb n s t : all2 (indented_b n) (text_lines s) (text_lines t) = true -> indented_text n s t.
Proof.
  unfold indented_text. generalize (text_lines s) (text_lines t). induction l as [|a l IH]; intros [|b l']; cbn [all2]; try discriminate; [constructor|]. intros H. apply andb_true_iff in H as [H1 H2]. constructor; [|apply IH, H2].
  apply orb_true_iff in H1 as [H1|H1]; [left; apply str_eqb_eq, H1|right]. apply andb_true_iff in H1 as [H1 H3]. destruct a; [|discriminate]. split; [reflexivity|]. exists (length b). clear -H3. induction b as [|c b IH]; [reflexivity|]. cbn [forallb] in H3. apply andb_true_iff in H3 as [H3 H4]. apply N.eqb_eq in H3. subst c. cbn [length repeat]. f_equal. apply IH, H4.
Qed.
