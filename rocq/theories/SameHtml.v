(** * HTML of documents that differ only in positions (C41, C45) *)
From Verif Require Import Base Regex Common NormRef Node Inlines Blocks Html Main RegexFacts StrFacts Spec SpecTree SpecSame
  TreeFacts StrProp InlineFacts HtmlFacts RenderFacts BlockFacts LineFacts ParseFacts SimFacts.
From Coq Require Import ZifyBool ZifyNat ZifyN.

Inductive eqp : tree -> tree -> Prop :=
| eqp_node d k sp b k' : Forall2 eqp k k' -> eqp (T d k) (T (set_n_last_line_checked b (set_n_sourcepos sp d)) k').
Lemma set_own_pos d : set_n_sourcepos (n_sourcepos d) d = d.
Proof. destruct d; reflexivity. Qed.
Lemma set_own_checked d sp : set_n_last_line_checked (n_last_line_checked d) (set_n_sourcepos sp d) = set_n_sourcepos sp d.
Proof. destruct d; reflexivity. Qed.
Lemma eqp_pos d k sp k' : Forall2 eqp k k' -> eqp (T d k) (T (set_n_sourcepos sp d) k').
Proof. intros H. rewrite <- (set_own_checked d sp). constructor. exact H. Qed.
Lemma eqp_refl t : eqp t t.
Proof.
  induction t as [d k IH] using tree_ind'. rewrite <- (set_own_pos d) at 2. apply eqp_pos. induction IH; constructor; assumption.
Qed.
Lemma same_eqp P : forall t t', same_blocks P t t' -> eqp t t'.
Proof.
  induction t as [d k IH] using tree_ind'. intros t' H. inversion H as [d1 k1 sp sp' H1 H2 H3|d1 k1 k' sp sp' H1 H2 H3]; subst; apply eqp_pos.
  - clear. induction k; constructor; [apply eqp_refl|assumption].
  - clear - IH H3. revert k' H3. induction IH as [|x l Hx _ IHl]; intros k' H; inversion H; subst; constructor; auto.
Qed.

(** what the renderer looks at among the ancestors: is it a tight list? *)
Definition gkey (o : option ndata) : option bool :=
  match o with Some d => if ntype_eqb (n_t d) list_ then option_map ld_tight (n_list_data d) else Some false | None => Some false end.
Definition arel (a a' : list ndata) : Prop :=
  is_nil a = is_nil a' /\ gkey (hd_error a) = gkey (hd_error a') /\ gkey (hd_error (tl a)) = gkey (hd_error (tl a')).
Lemma html_node_same o d sp b a a' e st : ho_sourcepos o = false -> arel a a' -> html_node o (set_n_last_line_checked b (set_n_sourcepos sp d)) a' e st = html_node o d a e st.
Proof.
  intros Ho (A1 & A2 & A3). unfold html_node. cbn [n_t set_n_sourcepos set_n_last_line_checked].
  assert (Ea : attrs_of o (set_n_last_line_checked b (set_n_sourcepos sp d)) = attrs_of o d) by (unfold attrs_of; rewrite Ho; reflexivity).
  destruct (n_t d); try reflexivity.
  - unfold h_block_quote. rewrite Ea. reflexivity.
  - unfold h_list. cbn [n_list_data set_n_sourcepos set_n_last_line_checked]. rewrite Ea. reflexivity.
  - unfold h_item. rewrite Ea. reflexivity.
  - unfold h_paragraph. rewrite Ea. destruct a as [|x [|y a]], a' as [|x' [|y' a']]; try discriminate A1; try reflexivity; cbn [tl hd_error gkey] in A3.
    + destruct (ntype_eqb (n_t y') list_); [|reflexivity]. destruct (n_list_data y') as [ld|]; [|discriminate]. cbn [option_map of_option bind] in *. injection A3 as <-. reflexivity.
    + destruct (ntype_eqb (n_t y) list_); [|reflexivity]. destruct (n_list_data y) as [ld|]; [|discriminate]. cbn [option_map of_option bind] in *. injection A3 as ->. reflexivity.
    + destruct (ntype_eqb (n_t y) list_), (ntype_eqb (n_t y') list_); try reflexivity;
        repeat match goal with |- context [of_option _ ?x] => destruct x; cbn [option_map of_option bind] in * end; try discriminate A3; try reflexivity; injection A3 as A3; rewrite ?A3, <- ?A3; reflexivity.
  - unfold h_heading. rewrite Ea. reflexivity.
  - unfold h_thematic_break. rewrite Ea. reflexivity.
  - unfold h_code_block. rewrite Ea. reflexivity.
  - unfold h_link. rewrite Ea. reflexivity.
Qed.
Lemma arel_cons d sp b a a' : arel a a' -> arel (d :: a) (set_n_last_line_checked b (set_n_sourcepos sp d) :: a').
Proof. intros (A1 & A2 & A3). split; [reflexivity|]. split; [reflexivity|]. exact A2. Qed.
Lemma html_events_same o : ho_sourcepos o = false -> forall t t' a a' st, eqp t t' -> arel a a' ->
  html_events o (events a' t') st = html_events o (events a t) st.
Proof.
  intros Ho. induction t as [d k IH] using tree_ind'. intros t' a a' st H Ha. inversion H as [d1 k1 sp b k' Hk]; subst. cbn [events n_t set_n_sourcepos set_n_last_line_checked].
  destruct (is_container (n_t d)); cbn [html_events]; rewrite (html_node_same o d sp b a a' true st Ho Ha); [|reflexivity].
  destruct (html_node o d a true st) as [s1|]; cbn [bind]; [|reflexivity]. rewrite !html_events_app.
  assert (E : html_events o (flat_map (events (set_n_last_line_checked b (set_n_sourcepos sp d) :: a')) k') s1 = html_events o (flat_map (events (d :: a)) k) s1).
  { pose proof (arel_cons d sp b a a' Ha) as Hc. clear H Ha st. revert k' Hk s1. induction IH as [|x l Hx _ IHl]; intros k' Hk s1; inversion Hk; subst; cbn [flat_map]; [reflexivity|].
    rewrite !html_events_app, (Hx _ _ _ s1 H1 Hc). destruct (html_events o (events (d :: a) x) s1); cbn [bind]; [apply IHl; assumption|reflexivity]. }
  rewrite E. destruct (html_events o (flat_map (events (d :: a)) k) s1) as [s2|]; cbn [bind html_events]; [|reflexivity].
  rewrite (html_node_same o d sp b a a' false s2 Ho Ha). reflexivity.
Qed.
Lemma html_kids_same o : ho_sourcepos o = false -> forall k k' a a' st, Forall2 eqp k k' -> arel a a' ->
  html_events o (flat_map (events a') k') st = html_events o (flat_map (events a) k) st.
Proof.
  intros Ho k k' a a' st Hk Ha. revert st. induction Hk as [|x y l l' Hx _ IH]; intros st; cbn [flat_map]; [reflexivity|].
  rewrite !html_events_app, (html_events_same o Ho _ _ _ _ st Hx Ha). destruct (html_events o (events a x) st); cbn [bind]; [apply IH|reflexivity].
Qed.

(** ** Documents *)
Lemma html_document o d k r : n_t d = document -> html_render o r (T d k) = let* st := html_events o (flat_map (events [d]) k) (HS [] [LF] (h_dis r)) in Ok (h_buf st, st).
Proof.
  intros Ed. unfold html_render, walker. cbn [events]. rewrite Ed. change (is_container document) with true. cbv iota. cbn [html_events]. unfold html_node at 1. rewrite Ed. cbn [bind].
  rewrite html_events_app. destruct (html_events o (flat_map (events [d]) k) _) as [st|]; cbn [bind html_events]; [|reflexivity]. unfold html_node. rewrite Ed. reflexivity.
Qed.
Lemma arel_doc d d' : n_t d = document -> n_t d' = document -> arel [d] [d'].
Proof. intros E E'. split; [reflexivity|]. cbn [hd_error tl gkey]. rewrite E, E'. split; reflexivity. Qed.
Lemma blank_html smart o s : Forall blank_line (text_lines s) -> md_to_html smart o s = Ok [].
Proof.
  intros H. destruct (blank_text smart s H) as (d & E & Ed). unfold md_to_html, render_html. rewrite E. cbn [bind]. rewrite html_document by exact Ed. reflexivity.
Qed.
Lemma Forall2_impl' {A B} (P Q : A -> B -> Prop) l l' : (forall x y, P x y -> Q x y) -> Forall2 P l l' -> Forall2 Q l l'.
Proof. intros H. induction 1; constructor; auto. Qed.
Lemma leading_blank_html smart o s bs s' : ho_sourcepos o = false -> Forall code_point s -> Forall code_point s' -> Forall blank_line bs -> text_lines s' = bs ++ text_lines s ->
  md_to_html smart o s' = md_to_html smart o s.
Proof.
  intros Ho Hs Hs' Hb El. pose proof (leading_blank smart s bs s' Hs Hs' Hb El) as H. unfold md_to_html, render_html.
  destruct (parse_doc smart s) as [[d k]|e]; cbn [bind]; [|rewrite H; reflexivity]. destruct H as (d' & k' & -> & E & E' & Hk). cbn [bind]. rewrite !html_document by assumption.
  rewrite (html_kids_same o Ho k k' [d] [d']); [reflexivity| |apply arel_doc; assumption]. eapply Forall2_impl'; [|exact Hk]. intros x y. apply same_eqp.
Qed.

(** ** Text already in the buffer *)
Definition hp (pre : str) (st : hst) : hst := HS (pre ++ h_buf st) (h_last st) (h_dis st).
Lemma hp_lit pre s st : h_lit s (hp pre st) = hp pre (h_lit s st).
Proof. unfold h_lit, hp. cbn [h_buf h_last h_dis]. rewrite app_assoc. reflexivity. Qed.
Lemma hp_cr pre st : h_cr (hp pre st) = hp pre (h_cr st).
Proof. unfold h_cr. cbn [h_last hp]. destruct (str_eqb (h_last st) [LF]); [reflexivity|apply hp_lit]. Qed.
Lemma hp_tag pre n a sc st : h_tag n a sc (hp pre st) = hp pre (h_tag n a sc st).
Proof. unfold h_tag. cbn [h_dis hp]. destruct (Z.ltb 0 (h_dis st)); [reflexivity|]. unfold hp. cbn [h_buf h_last h_dis]. rewrite <- app_assoc. reflexivity. Qed.
Lemma hp_out pre s st : h_out s (hp pre st) = hp pre (h_out s st).
Proof. apply hp_lit. Qed.
Lemma hp_dis pre z st : set_h_dis z (hp pre st) = hp pre (set_h_dis z st).
Proof. reflexivity. Qed.
Lemma hp_node pre o d a e st : html_node o d a e (hp pre st) = match html_node o d a e st with Ok x => Ok (hp pre x) | Err x => Err x end.
Proof.
  unfold html_node. destruct (n_t d); try reflexivity.
  - unfold h_block_quote. destruct e; unfold h_tag0; rewrite ?hp_cr, ?hp_tag, ?hp_cr; reflexivity.
  - unfold h_list. destruct (n_list_data d); cbn [of_option bind]; [|reflexivity]. destruct e; unfold h_tag0; rewrite ?hp_cr, ?hp_tag, ?hp_cr; reflexivity.
  - unfold h_item. destruct e; unfold h_tag0; rewrite ?hp_tag, ?hp_cr; reflexivity.
  - unfold h_paragraph. destruct a as [|x gp]; [reflexivity|]. match goal with |- bind ?x _ = _ => destruct x as [[]|] end; cbn [bind]; try reflexivity.
    destruct e; unfold h_tag0; rewrite ?hp_cr, ?hp_tag, ?hp_cr; reflexivity.
  - unfold h_heading. destruct e; unfold h_tag0; rewrite ?hp_cr, ?hp_tag, ?hp_cr; reflexivity.
  - unfold h_thematic_break. rewrite hp_cr, hp_tag, hp_cr. reflexivity.
  - unfold h_code_block, h_tag0. rewrite hp_cr, !hp_tag, hp_out, !hp_tag, hp_cr. reflexivity.
  - unfold h_html_block, h_html_inline. rewrite hp_cr. destruct (ho_safe o); [|destruct (n_literal d)]; cbn [of_option bind]; rewrite ?hp_lit, ?hp_cr; reflexivity.
  - rewrite hp_out. reflexivity.
  - rewrite hp_lit. reflexivity.
  - rewrite hp_tag, hp_cr. reflexivity.
  - unfold h_code, h_tag0. rewrite hp_tag, hp_out, hp_tag. reflexivity.
  - unfold h_html_inline. destruct (ho_safe o); [|destruct (n_literal d)]; cbn [of_option bind]; rewrite ?hp_lit; reflexivity.
  - unfold h_tag0. rewrite hp_tag. reflexivity.
  - unfold h_tag0. rewrite hp_tag. reflexivity.
  - unfold h_link. destruct e; [|unfold h_tag0; rewrite hp_tag; reflexivity]. destruct (unsafe_dest o (n_destination d)); cbn [bind]; [|reflexivity]. rewrite hp_tag. reflexivity.
  - unfold h_image. destruct e.
    + cbn [h_dis hp]. destruct (Z.eqb (h_dis st) 0); cbn [bind]; [|reflexivity]. destruct (unsafe_dest o (n_destination d)) as [[]|]; cbn [bind]; rewrite ?hp_lit; reflexivity.
    + cbn zeta. rewrite hp_dis. cbn [h_dis hp set_h_dis]. destruct (Z.eqb (h_dis st - 1) 0); [|reflexivity]. destruct (truthy (n_title d)); rewrite ?hp_lit; reflexivity.
  - unfold h_custom_inline. destruct (truthy _); rewrite ?hp_lit; reflexivity.
  - unfold h_custom_block, h_custom_inline. rewrite hp_cr. destruct (truthy _); rewrite ?hp_lit, ?hp_cr; reflexivity.
Qed.
Lemma hp_events pre o : forall evs st, html_events o evs (hp pre st) = match html_events o evs st with Ok x => Ok (hp pre x) | Err x => Err x end.
Proof.
  induction evs as [|[[d k] e a] evs IH]; intros st; cbn [html_events]; [reflexivity|]. rewrite hp_node. destruct (html_node o d a e st); cbn [bind]; [apply IH|reflexivity].
Qed.

(** ** Blocks end with a line feed *)
Lemma cr_last st : h_last (h_cr st) = [LF].
Proof. unfold h_cr. destruct (str_eqb (h_last st) [LF]) eqn:E; [apply str_eqb_eq, E|reflexivity]. Qed.
Lemma block_last o d k st st' x : n_t d = document -> may_hold document (n_t x) = true ->
  html_events o (events [d] (T x k)) st = Ok st' -> h_last st' = [LF].
Proof.
  intros Ed Hi H.
  assert (G : exists st1, html_node o x [d] (negb (is_container (n_t x))) st1 = Ok st').
  { cbn [events] in H. destruct (is_container (n_t x)); cbn [negb]; cbn [html_events] in H.
    - destruct (html_node o x [d] true st) as [s1|]; cbn [bind] in H; [|discriminate]. rewrite html_events_app in H. destruct (html_events o (flat_map _ k) s1) as [s2|]; cbn [bind] in H; [|discriminate].
      cbn [html_events] in H. exists s2. destruct (html_node o x [d] false s2); cbn [bind] in H; [exact H|discriminate].
    - exists st. destruct (html_node o x [d] true st); cbn [bind] in H; [exact H|discriminate]. }
  destruct G as (s1 & G). unfold html_node in G. destruct (n_t x); try discriminate Hi.
  - change (is_container block_quote) with true in G. cbn [negb] in G. unfold h_block_quote in G. apply Ok_inj in G as <-. apply cr_last.
  - change (is_container list_) with true in G. cbn [negb] in G. unfold h_list in G. destruct (n_list_data x); cbn [of_option bind] in G; [|discriminate]. apply Ok_inj in G as <-. apply cr_last.
  - change (is_container paragraph) with true in G. cbn [negb] in G. unfold h_paragraph in G. cbn [bind] in G. apply Ok_inj in G as <-. apply cr_last.
  - change (is_container heading) with true in G. cbn [negb] in G. unfold h_heading in G. apply Ok_inj in G as <-. apply cr_last.
  - unfold h_thematic_break in G. apply Ok_inj in G as <-. apply cr_last.
  - unfold h_code_block in G. apply Ok_inj in G as <-. apply cr_last.
  - unfold h_html_block in G. destruct (h_html_inline o x (h_cr s1)); cbn [bind] in G; [|discriminate]. apply Ok_inj in G as <-. apply cr_last.
Qed.
Lemma blocks_last o d : n_t d = document -> forall k st st', Forall (fun t => may_hold document (t_type t) = true) k -> h_last st = [LF] ->
  html_events o (flat_map (events [d]) k) st = Ok st' -> h_last st' = [LF].
Proof.
  intros Ed. induction k as [|[x kx] k IH]; intros st st' Hk Hl H; cbn [flat_map] in H; [cbn [html_events] in H; apply Ok_inj in H as <-; exact Hl|].
  rewrite html_events_app in H. destruct (html_events o (events [d] (T x kx)) st) as [s1|] eqn:E; cbn [bind] in H; [|discriminate]. inversion Hk as [|a b H2 H3]; subst.
  eapply IH; [exact H3| |exact H]. eapply block_last; eassumption.
Qed.
Lemma kids_dis o a : forall k st st', html_events o (flat_map (events a) k) st = Ok st' -> h_dis st' = h_dis st.
Proof.
  induction k as [|x k IH]; intros st st' H; cbn [flat_map] in H; [cbn [html_events] in H; apply Ok_inj in H as <-; reflexivity|].
  rewrite html_events_app in H. destruct (html_events o (events a x) st) as [s1|] eqn:E; cbn [bind] in H; [|discriminate]. rewrite (IH _ _ H). eapply html_tree_dis, E.
Qed.

(** ** A quoted document *)
Lemma quoted_html smart o s : ho_sourcepos o = false -> Forall code_point s -> ~ In TAB s ->
  md_to_html smart o (quote_text s) =
  let* h := md_to_html smart o s in Ok (u "<blockquote>" ++ [LF] ++ h ++ u "</blockquote>" ++ [LF]).
Proof.
  intros Ho Hs Ht. pose proof (quoted_doc smart s Hs Ht) as H. pose proof (parse_doc_facts smart s) as F. unfold md_to_html, render_html.
  destruct (parse_doc smart s) as [[d k]|e]; cbn [bind]; [|rewrite H; reflexivity]. destruct H as (e & b & k' & -> & Ed & Ee & Eb & Hk). cbn [bind]. rewrite !html_document by assumption.
  cbn [flat_map]. rewrite app_nil_r. cbn [events]. rewrite Eb. change (is_container block_quote) with true. cbv iota. cbn [html_events]. unfold html_node at 1. rewrite Eb.
  unfold h_block_quote. assert (Ea : attrs_of o b = []) by (unfold attrs_of; rewrite Ho; reflexivity). rewrite Ea. cbn [bind]. unfold new_html. cbn [h_dis].
  change (h_cr (h_tag (u "blockquote") [] false (h_cr (HS [] [LF] 0)))) with (hp (u "<blockquote>" ++ [LF]) (HS [] [LF] 0)). rewrite html_events_app, hp_events.
  assert (Ek : html_events o (flat_map (events [b; e]) k') (HS [] [LF] 0) = html_events o (flat_map (events [d]) k) (HS [] [LF] 0)).
  { apply (html_kids_same o Ho).
    - eapply Forall2_impl'; [|exact Hk]. intros x y. apply same_eqp.
    - split; [reflexivity|]. cbn [hd_error tl gkey]. rewrite Ed, Eb, Ee. split; reflexivity. }
  rewrite Ek. destruct (html_events o (flat_map (events [d]) k) (HS [] [LF] 0)) as [st|] eqn:E; cbn [bind]; [|reflexivity].
  assert (Hl : h_last st = [LF]).
  { eapply (blocks_last o d Ed); [| |exact E]; [|reflexivity]. destruct (F (T d k) Hs eq_refl) as (F1 & F2 & _). 
    apply Forall_forall. intros x Hx. destruct (F1 (T d k)) as (_ & G & _); [left; reflexivity|].
    rewrite Ed in G. rewrite Forall_forall in G. apply G, Hx. }
  pose proof (kids_dis _ _ _ _ _ E) as Hz. cbn [h_dis] in Hz. cbn [html_events]. unfold html_node. rewrite Eb. unfold h_block_quote. cbn [bind].
  destruct st as [bf la z]. cbn [h_last h_dis] in Hl, Hz. subst la z. unfold hp. cbn [h_buf h_last h_dis].
  unfold h_cr at 2. cbn [h_last]. change (str_eqb [LF] [LF]) with true. cbv iota. unfold h_tag0, h_tag. cbn [h_dis]. change (Z.ltb 0 0) with false. cbv iota.
  unfold h_cr. cbn [h_last]. change (str_eqb (u ">") [LF]) with false. cbv iota. unfold h_lit. cbn [h_buf]. f_equal. rewrite <- !app_assoc. reflexivity.
Qed.

(** ** In terms of texts *)

Lemma blank_prefix_ok bs s : Forall blank_line bs -> Forall code_point s -> Forall code_point (flat_map (fun l => l ++ [10%N]) bs ++ s).
Proof.
  intros Hb Hs. apply Forall_app. split; [|exact Hs]. induction Hb as [|l bs H _ IH]; [constructor|]. cbn [flat_map]. apply Forall_app. split; [|exact IH]. apply Forall_app. split; [|constructor; [unfold code_point; lia|constructor]].
  apply Forall_forall. intros c Hc. unfold code_point. destruct (H c Hc); lia.
Qed.
Lemma blank_only bs : Forall blank_line bs -> Forall blank_line (text_lines (flat_map (fun l => l ++ [10%N]) bs)).
Proof.
  intros H. destruct bs as [|b bs]; [constructor; [intros c []|constructor]|]. rewrite text_lines_lines; [exact H| |discriminate]. eapply Forall_impl; [|exact H]. intros l. apply blank_no_eol.
Qed.
Lemma blank_before smart s bs : Forall code_point s -> Forall blank_line bs ->
  match parse_doc smart s with
  | Ok (T d k) => exists d' k', parse_doc smart (flat_map (fun l => l ++ [10%N]) bs ++ s) = Ok (T d' k') /\ n_t d = document /\ n_t d' = document /\
                    Forall2 (same_blocks (lines_down (length bs))) k k'
  | Err e => parse_doc smart (flat_map (fun l => l ++ [10%N]) bs ++ s) = Err e
  end.
Proof.
  intros Hs Hb. destruct s as [|c s].
  - rewrite app_nil_r. destruct (blank_text smart _ (blank_only bs Hb)) as (d' & E' & D'). destruct (blank_text smart []) as (d & E & D); [constructor; [intros c []|constructor]|].
    rewrite E. exists d', []. split; [exact E'|]. split; [exact D|]. split; [exact D'|constructor].
  - apply leading_blank; [exact Hs|apply blank_prefix_ok; assumption|exact Hb|]. apply text_lines_before; [|discriminate]. eapply Forall_impl; [|exact Hb]. intros l. apply blank_no_eol.
Qed.
Lemma blank_before_html smart o s bs : ho_sourcepos o = false -> Forall code_point s -> Forall blank_line bs ->
  md_to_html smart o (flat_map (fun l => l ++ [10%N]) bs ++ s) = md_to_html smart o s.
Proof.
  intros Ho Hs Hb. destruct s as [|c s].
  - rewrite app_nil_r. rewrite !blank_html; [reflexivity|constructor; [intros c []|constructor]|apply blank_only, Hb].
  - apply (leading_blank_html smart o (c :: s) bs); [exact Ho|exact Hs|apply blank_prefix_ok; assumption|exact Hb|]. apply text_lines_before; [|discriminate]. eapply Forall_impl; [|exact Hb]. intros l. apply blank_no_eol.
Qed.
Lemma blank_chars_lines s : (forall c, In c s -> In c [32; 9; 10; 13]%N) -> Forall blank_line (text_lines s).
Proof.
  intros H. apply Forall_forall. intros l Hl c Hc. pose proof (H c (text_lines_incl s l c Hl Hc)) as G. pose proof (text_lines_no_eol s) as N. rewrite Forall_forall in N. specialize (N l Hl c Hc).
  destruct N as [N1 N2]. destruct G as [<-|[<-|[<-|[<-|[]]]]]; [left; reflexivity|right; reflexivity|congruence|congruence].
Qed.
Lemma blank_chars smart o s : (forall c, In c s -> In c [32; 9; 10; 13]%N) ->
  (exists d, parse_doc smart s = Ok (T d []) /\ n_t d = document) /\ md_to_html smart o s = Ok [].
Proof. intros H. apply blank_chars_lines in H. split; [apply blank_text, H|apply blank_html, H]. Qed.
