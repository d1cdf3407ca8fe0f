(** * Consequences of the invariants for whole parses and renders *)
From Verif Require Import Base Regex Entities Common NormRef Node Inlines Blocks Html Rst Dump Main RegexFacts RegexLang StrFacts Spec SpecTree TreeFacts HtmlFacts RenderFacts CommonFacts StrProp EmphFacts InlineFacts InlineInv BlockFacts BlockInv BlockSteps BlockRun.
From Coq Require Import ZifyBool ZifyNat ZifyN.

(** ** Characters of the HTML output *)
Section Chars.
  Variable Q : N -> Prop.
  Hypothesis Hascii : forall c, (0 < c)%N -> (c < 127)%N -> Q c.
  Notation Qs := (Forall Q).
  Lemma ascii_chars s : forallb (fun c => N.ltb 0 c && N.ltb c 127) s = true -> Qs s.
  Proof. intros H. apply Forall_forall. intros c Hc. rewrite forallb_forall in H. specialize (H c Hc). apply Hascii; lia. Qed.
  Lemma Qs_app a b : Qs a -> Qs b -> Qs (a ++ b).
  Proof. intros. apply Forall_app. auto. Qed.
  Lemma dec_digits_chars f : forall n acc, Qs acc -> Qs (dec_digits f n acc).
  Proof.
    induction f as [|f IH]; intros n acc H; cbn [dec_digits]; [exact H|].
    assert (Hd : Q (48 + N.modulo n 10)%N) by (apply Hascii; pose proof (N.mod_lt n 10 ltac:(lia)); lia).
    destruct (N.ltb n 10); [constructor; assumption|]. apply IH. constructor; assumption.
  Qed.
  Lemma str_of_N_chars n : Qs (str_of_N n).
  Proof. apply dec_digits_chars. constructor. Qed.
  Lemma escape_xml_chars s : Qs s -> Qs (escape_xml s).
  Proof.
    rewrite escape_xml_flat_map. induction 1 as [|c s H _ IH]; [constructor|]. cbn [flat_map]. apply Qs_app; [|exact IH].
    unfold esc_char. destruct (N.eqb c 38); [apply ascii_chars; reflexivity|]. destruct (N.eqb c 60); [apply ascii_chars; reflexivity|].
    destruct (N.eqb c 62); [apply ascii_chars; reflexivity|]. destruct (N.eqb c 34); [apply ascii_chars; reflexivity|]. constructor; [exact H|constructor].
  Qed.
  Definition oQs (o : option str) : Prop := forall s, o = Some s -> Qs s.
  Lemma escape_xml_opt_chars s : oQs s -> Qs (escape_xml_opt s).
  Proof. intros H. destruct s as [s|]; [apply escape_xml_chars, H; reflexivity|constructor]. Qed.
  Lemma split_ws_chars : forall s cur, Qs s -> Qs cur -> Forall Qs (split_ws_aux cur s).
  Proof.
    assert (Hr : forall l, Qs l -> Qs (rev l)) by (intros l H; apply Forall_rev, H).
    induction s as [|c s IH]; intros cur H Hc; cbn [split_ws_aux].
    - destruct (is_nil cur); [constructor|]. constructor; [auto|constructor].
    - inversion H; subst. destruct (is_space c); [destruct (is_nil cur); [apply IH; auto|constructor; [auto|apply IH; auto]]|]. apply IH; auto.
  Qed.
  Definition data_chars (d : ndata) : Prop := Forall Qs (node_strings d).
  Lemma node_string d s : data_chars d -> In (Some s) [n_string_content d; n_literal d; n_info d; n_destination d; n_title d; n_on_enter d; n_on_exit d] -> Qs s.
  Proof.
    unfold data_chars. intros H Hin. rewrite Forall_forall in H. apply H. unfold node_strings. apply in_flat_map. exists (Some s). split; [exact Hin|]. left. reflexivity.
  Qed.
  Variable o : hopts.
  Hypothesis Hsb : Qs (ho_softbreak o).
  Notation bufok st := (Qs (h_buf st)).
  Lemma lit_chars s st : Qs s -> bufok st -> bufok (h_lit s st).
  Proof. intros. cbn. apply Qs_app; assumption. Qed.
  Lemma cr_chars st : bufok st -> bufok (h_cr st).
  Proof. intros H. unfold h_cr. destruct (str_eqb _ _); [exact H|]. apply lit_chars; [apply ascii_chars; reflexivity|exact H]. Qed.
  Lemma tag_chars n a sc st : Qs n -> Forall (fun x => Qs (fst x) /\ Qs (snd x)) a -> bufok st -> bufok (h_tag n a sc st).
  Proof.
    intros Hn Ha H. unfold h_tag. destruct (Z.ltb _ _); [exact H|]. cbn [h_buf]. apply Qs_app; [exact H|]. apply Qs_app; [apply ascii_chars; reflexivity|].
    apply Qs_app; [exact Hn|]. apply Qs_app.
    - induction Ha as [|x l [H1 H2] _ IH]; [constructor|]. cbn [flat_map]. apply Qs_app; [|exact IH]. unfold attr_text.
      apply Qs_app; [apply ascii_chars; reflexivity|]. apply Qs_app; [exact H1|]. apply Qs_app; [apply ascii_chars; reflexivity|]. apply Qs_app; [exact H2|apply ascii_chars; reflexivity].
    - apply Qs_app; [destruct sc; apply ascii_chars; reflexivity|apply ascii_chars; reflexivity].
  Qed.
  Lemma attrs_of_chars d : Forall (fun x => Qs (fst x) /\ Qs (snd x)) (attrs_of o d).
  Proof.
    unfold attrs_of. destruct (ho_sourcepos o); [|constructor]. destruct (n_sourcepos d) as [[[a b] [c e]]|]; [|constructor]. constructor; [|constructor]. cbn [fst snd].
    split; [apply ascii_chars; reflexivity|]. unfold str_of_nat. repeat (apply Qs_app; [first [apply str_of_N_chars | apply ascii_chars; reflexivity]|]). apply str_of_N_chars.
  Qed.
  Lemma one_attr n v : Qs n -> Qs v -> Forall (fun x : str * str => Qs (fst x) /\ Qs (snd x)) [(n, v)].
  Proof. intros. constructor; [|constructor]. split; assumption. Qed.
  Lemma attr_app (a b : list (str * str)) : Forall (fun x => Qs (fst x) /\ Qs (snd x)) a -> Forall (fun x => Qs (fst x) /\ Qs (snd x)) b -> Forall (fun x => Qs (fst x) /\ Qs (snd x)) (a ++ b).
  Proof. intros. apply Forall_app. auto. Qed.
  Ltac asc := apply ascii_chars; reflexivity.
  Ltac step := repeat first [assumption | apply cr_chars | apply Qs_app | (unfold h_tag0; apply tag_chars; [asc|constructor|]) | apply lit_chars | asc].
  Lemma html_inline_chars d st st' : data_chars d -> bufok st -> h_html_inline o d st = Ok st' -> bufok st'.
  Proof.
    intros Hd H. unfold h_html_inline. destruct (ho_safe o).
    - intros E. apply Ok_inj in E as <-. apply lit_chars; [asc|exact H].
    - destruct (n_literal d) as [l|] eqn:El; cbn [of_option bind]; [|discriminate]. intros E. apply Ok_inj in E as <-. apply lit_chars; [|exact H].
      apply (node_string d); [exact Hd|]. rewrite El. cbn. auto.
  Qed.
  Lemma html_node_chars d anc e st st' : data_chars d -> bufok st -> html_node o d anc e st = Ok st' -> bufok st'.
  Proof.
    intros Hd H.
    assert (Hlit : oQs (n_literal d)) by (intros s E; apply (node_string d); [exact Hd|rewrite E; cbn; auto]).
    assert (Hinf : oQs (n_info d)) by (intros s E; apply (node_string d); [exact Hd|rewrite E; cbn; auto]).
    assert (Hdst : oQs (n_destination d)) by (intros s E; apply (node_string d); [exact Hd|rewrite E; cbn; auto 6]).
    assert (Htit : oQs (n_title d)) by (intros s E; apply (node_string d); [exact Hd|rewrite E; cbn; auto 7]).
    assert (Hent : oQs (n_on_enter d)) by (intros s E; apply (node_string d); [exact Hd|rewrite E; cbn; auto 8]).
    assert (Hexi : oQs (n_on_exit d)) by (intros s E; apply (node_string d); [exact Hd|rewrite E; cbn; auto 9]).
    assert (Hout : forall st, bufok st -> bufok (h_out (n_literal d) st)) by (intros x Hx; apply lit_chars; [apply escape_xml_opt_chars, Hlit|exact Hx]).
    unfold html_node. destruct (n_t d).
    - intros E; apply Ok_inj in E as <-; exact H.
    - intros E; apply Ok_inj in E as <-. unfold h_block_quote. destruct e; step. apply tag_chars; [asc|apply attrs_of_chars|step].
    - unfold h_list. destruct (n_list_data d) as [ld|]; cbn [of_option bind]; [|discriminate]. intros E; apply Ok_inj in E as <-.
      assert (Hn : Qs (match ld_type ld with bullet => u "ul" | ordered => u "ol" end)) by (destruct (ld_type ld); asc).
      destruct e.
      + apply cr_chars, tag_chars; [exact Hn| |apply cr_chars, H]. apply attr_app; [apply attrs_of_chars|]. destruct (ld_start ld) as [n|]; [|constructor].
        destruct (N.eqb n 1); [constructor|]. apply one_attr; [asc|apply str_of_N_chars].
      + apply cr_chars. unfold h_tag0. apply tag_chars; [apply Qs_app; [asc|exact Hn]|constructor|apply cr_chars, H].
    - intros E; apply Ok_inj in E as <-. destruct e; step. apply tag_chars; [asc|apply attrs_of_chars|step].
    - unfold h_paragraph. destruct anc as [|pa gp]; [discriminate|]. match goal with |- (let* _ := ?x in _) = _ -> _ => destruct x as [tight|] end; cbn [bind]; [|discriminate].
      intros E; apply Ok_inj in E as <-. destruct tight; [exact H|]. destruct e; step. apply tag_chars; [asc|apply attrs_of_chars|step].
    - intros E; apply Ok_inj in E as <-.
      assert (Hn : Qs (u "h" ++ level_str (n_level d))) by (apply Qs_app; [asc|]; unfold level_str; destruct (n_level d); [apply str_of_N_chars|asc]).
      destruct e; [apply tag_chars; [exact Hn|apply attrs_of_chars|step]|]. apply cr_chars. unfold h_tag0. apply tag_chars; [apply Qs_app; [asc|exact Hn]|constructor|exact H].
    - intros E; apply Ok_inj in E as <-. apply cr_chars, tag_chars; [asc|apply attrs_of_chars|step].
    - intros E; apply Ok_inj in E as <-. apply cr_chars. unfold h_tag0. apply tag_chars; [asc|constructor|]. apply tag_chars; [asc|constructor|]. apply Hout. apply tag_chars; [asc| |step]. apply attr_app; [apply attrs_of_chars|].
      assert (Hw : Forall Qs (if truthy (n_info d) then split_ws (or_empty (n_info d)) else [])).
      { destruct (truthy (n_info d)); [|constructor]. apply split_ws_chars; [|constructor]. destruct (n_info d); [apply Hinf; reflexivity|constructor]. }
      destruct (if truthy (n_info d) then _ else _) as [|w l]; [constructor|]. inversion Hw; subst. destruct (is_nil w); [constructor|].
      apply one_attr; [asc|]. apply Qs_app; [asc|]. apply escape_xml_chars. assumption.
    - unfold h_html_block. destruct (h_html_inline o d (h_cr st)) as [s1|] eqn:E1; cbn [bind]; [|discriminate]. intros E; apply Ok_inj in E as <-.
      apply cr_chars. eapply html_inline_chars; [exact Hd| |exact E1]. apply cr_chars, H.
    - intros E; apply Ok_inj in E as <-. apply Hout, H.
    - intros E; apply Ok_inj in E as <-. apply lit_chars; [exact Hsb|exact H].
    - intros E; apply Ok_inj in E as <-. apply cr_chars, tag_chars; [asc|constructor|exact H].
    - intros E; apply Ok_inj in E as <-. unfold h_tag0. apply tag_chars; [asc|constructor|]. apply Hout. apply tag_chars; [asc|constructor|exact H].
    - apply html_inline_chars; assumption.
    - intros E; apply Ok_inj in E as <-. destruct e; step.
    - intros E; apply Ok_inj in E as <-. destruct e; step.
    - unfold h_link. destruct e; [|intros E; apply Ok_inj in E as <-; step]. destruct (unsafe_dest _ _) as [un|]; cbn [bind]; [|discriminate].
      intros E; apply Ok_inj in E as <-. apply tag_chars; [asc| |exact H]. apply attr_app; [apply attrs_of_chars|]. apply attr_app.
      + destruct un; [constructor|]. apply one_attr; [asc|apply escape_xml_opt_chars, Hdst].
      + destruct (truthy (n_title d)); [|constructor]. apply one_attr; [asc|apply escape_xml_opt_chars, Htit].
    - unfold h_image. destruct e.
      + destruct (Z.eqb (h_dis st) 0).
        * destruct (unsafe_dest _ _) as [un|]; cbn [bind]; [|discriminate]. intros E; apply Ok_inj in E as <-. cbn [set_h_dis h_buf].
          destruct un; [step|]. apply lit_chars; [|exact H]. apply Qs_app; [asc|]. apply Qs_app; [apply escape_xml_opt_chars, Hdst|asc].
        * cbn [bind]. intros E; apply Ok_inj in E as <-. exact H.
      + intros E; apply Ok_inj in E as <-. destruct (Z.eqb _ _); [|exact H]. apply lit_chars; [asc|]. destruct (truthy (n_title d)); [|exact H].
        apply lit_chars; [apply Qs_app; [asc|apply escape_xml_opt_chars, Htit]|exact H].
    - intros E; apply Ok_inj in E as <-. unfold h_custom_inline. destruct (truthy _); [|exact H]. apply lit_chars; [|exact H].
      destruct e; [destruct (n_on_enter d); [apply Hent; reflexivity|constructor]|destruct (n_on_exit d); [apply Hexi; reflexivity|constructor]].
    - intros E; apply Ok_inj in E as <-. unfold h_custom_block. apply cr_chars. unfold h_custom_inline. destruct (truthy _); [|apply cr_chars, H]. apply lit_chars; [|apply cr_chars, H].
      destruct e; [destruct (n_on_enter d); [apply Hent; reflexivity|constructor]|destruct (n_on_exit d); [apply Hexi; reflexivity|constructor]].
  Qed.
  Lemma html_events_chars : forall evs st st', Forall (fun ev => data_chars (t_data (ev_node ev))) evs -> bufok st -> html_events o evs st = Ok st' -> bufok st'.
  Proof.
    induction evs as [|[[d k] e anc] evs IH]; intros st st' Hd H; cbn [html_events].
    - intros E; apply Ok_inj in E as <-; exact H.
    - inversion Hd as [|x l H1 H2]; subst. destruct (html_node o d anc e st) as [s1|] eqn:E1; cbn [bind]; [|discriminate].
      apply IH; [exact H2|]. eapply html_node_chars; [exact H1|exact H|exact E1].
  Qed.
End Chars.
Lemma events_nodes : forall t anc ev, In ev (events anc t) -> In (ev_node ev) (subtrees t).
Proof.
  induction t as [d kids IH] using tree_ind'. intros anc ev. cbn [events subtrees].
  destruct (is_container (n_t d)).
  - intros [<-|H]; [left; reflexivity|]. apply in_app_or in H as [H|[<-|[]]]; [|left; reflexivity]. right.
    apply in_flat_map in H as (k & Hk & H). apply in_flat_map. exists k. split; [exact Hk|]. rewrite Forall_forall in IH. eapply IH; eassumption.
  - intros [<-|[]]. left. reflexivity.
Qed.
Lemma subtrees_nodes t x : In x (subtrees t) -> In (t_data x) (nodes t).
Proof.
  induction t as [d kids IH] using tree_ind'. cbn [subtrees nodes]. intros [<-|H]; [left; reflexivity|]. right.
  apply in_flat_map in H as (k & Hk & H). apply in_flat_map. exists k. split; [exact Hk|]. rewrite Forall_forall in IH. eapply IH; eassumption.
Qed.
Lemma nodes_subtrees t d : In d (nodes t) -> exists k, In (T d k) (subtrees t).
Proof.
  induction t as [d0 kids IH] using tree_ind'. cbn [subtrees nodes]. intros [<-|H]; [exists kids; left; reflexivity|].
  apply in_flat_map in H as (k & Hk & H). rewrite Forall_forall in IH. destruct (IH k Hk H) as [kk G]. exists kk. right. apply in_flat_map. eauto.
Qed.
Lemma html_render_chars (Q : N -> Prop) o r t s r' : (forall c, (0 < c)%N -> (c < 127)%N -> Q c) -> Forall Q (ho_softbreak o) ->
  (forall d, In d (nodes t) -> Forall (Forall Q) (node_strings d)) -> html_render o r t = Ok (s, r') -> Forall Q s.
Proof.
  intros Ha Hs Hd H. unfold html_render in H. destruct (html_events _ _ _) as [st|] eqn:E; cbn [bind] in H; [|discriminate]. injection H as <- <-.
  eapply (html_events_chars Q Ha o Hs _ _ _ _ _ E). Unshelve. 2:constructor. apply Forall_forall. intros ev Hev. apply Hd, subtrees_nodes. eapply events_nodes, Hev.
Qed.

(** ** The whole parse *)
Definition has_surrogate (s : str) : Prop := exists c, In c s /\ surrogate c.
Definition doc_char (s : str) (c : N) : Prop := code_point c /\ c <> 0%N /\ (surrogate c -> has_surrogate s).
Definition node_of (s : str) : tree -> Prop := doc_node (doc_char s) (fun w => infix w (replace_char 0 65533 s)).
Lemma plain_doc_char s c : plain_char c -> doc_char s c.
Proof. unfold plain_char, doc_char, code_point, surrogate. intros H. split; [lia|]. split; [lia|]. intros. lia. Qed.
Lemma doc_char_code s c : doc_char s c -> code_point c.
Proof. intros H. apply H. Qed.
Theorem parse_facts p s : Forall code_point s ->
  match parse p s with
  | Ok (t, _) => (forall x, In x (subtrees t) -> node_of s x) /\ t_type t = document /\ first_line (t_data t) = 1 /\ last_line (t_data t) = length (text_lines s)
  | Err e => (e = IndexError /\ amp s) \/ (e = UnicodeEncodeError /\ has_surrogate s)
  end.
Proof.
  intros Hs.
  assert (Hok : ok_str (doc_char s) (fun w => infix w (replace_char 0 65533 s)) (replace_char 0 65533 s)).
  { split; [|auto]. unfold replace_char. apply Forall_forall. intros x Hx. apply in_map_iff in Hx as (y & <- & Hy).
    destruct (N.eqb_spec y 0); [apply plain_doc_char; unfold plain_char; lia|]. rewrite Forall_forall in Hs. split; [apply Hs, Hy|]. split; [assumption|]. intros Hsu. exists y. auto. }
  pose proof (parse_spec (doc_char s) (plain_doc_char s) (doc_char_code s) (fun w => infix w (replace_char 0 65533 s)) p s Hok) as H. destruct (parse p s) as [[t q]|e].
  - destruct H as (H1 & H2 & H3 & H4). split; [intros x Hx; apply (proj1 (tree_every_subtrees _ _) H1 x Hx)|]. split; [exact H2|]. split; [exact H3|]. rewrite <- input_lines_text. exact H4.
  - destruct H as [H|[-> (c & [_ [_ Hc]] & Hsu)]]; [left; split; [apply H|apply amp_replace, H]|right]. split; [reflexivity|auto].
Qed.
Lemma parse_doc_facts smart s t : Forall code_point s -> parse_doc smart s = Ok t ->
  (forall x, In x (subtrees t) -> node_of s x) /\ t_type t = document /\ first_line (t_data t) = 1 /\ last_line (t_data t) = length (text_lines s).
Proof.
  intros Hs H. unfold parse_doc in H. pose proof (parse_facts (new_parser smart) s Hs) as G. destruct (parse _ s) as [[t' q]|e]; cbn [bind] in H; [|discriminate].
  apply Ok_inj in H as <-. exact G.
Qed.

(** C01 *)
Lemma parse_outcomes p s : Forall code_point s ->
  (exists t p', parse p s = Ok (t, p')) \/
  (parse p s = Err IndexError /\ exists a b, s = a ++ u "&#" ++ b) \/
  (parse p s = Err UnicodeEncodeError /\ exists c, In c s /\ surrogate c).
Proof.
  intros Hs. pose proof (parse_facts p s Hs) as H. destruct (parse p s) as [[t q]|e]; [left; eauto|]. right.
  destruct H as [[-> H]|[-> H]]; [left|right]; split; auto.
Qed.
Lemma parse_total p s : Forall code_point s -> (~ exists a b, s = a ++ u "&#" ++ b) -> (forall c, In c s -> ~ surrogate c) -> exists t p', parse p s = Ok (t, p').
Proof.
  intros Hs H1 H2. destruct (parse_outcomes p s Hs) as [H|[[_ H]|[_ (c & H & G)]]]; [exact H|tauto|destruct (H2 c H G)].
Qed.

(** C12, C13 *)
Lemma parsed_nesting p s t p' : Forall code_point s -> parse p s = Ok (t, p') ->
  t_type t = document /\
  forall x, In x (subtrees t) ->
    (forall k, In k (t_kids x) -> may_hold (t_type x) (t_type k) = true) /\ (t_type x = list_ -> t_kids x <> []).
Proof.
  intros Hs E. pose proof (parse_facts p s Hs) as H. rewrite E in H. destruct H as (H1 & H2 & _). split; [exact H2|]. intros x Hx. specialize (H1 x Hx). destruct x as [d kids].
  destruct H1 as (_ & H1 & H3 & _). split; [|exact H3]. rewrite Forall_forall in H1. exact H1.
Qed.
Lemma node_of_kind s d kids : node_of s (T d kids) -> inline_type (n_t d) = false -> kind_ok d.
Proof. intros (_ & _ & _ & H) Hi. destruct (n_t d); try discriminate; apply H. Qed.
Lemma parsed_ranges p s t p' : Forall code_point s -> parse p s = Ok (t, p') ->
  forall d, In d (nodes t) ->
    (n_t d = heading -> exists n, n_level d = Some n /\ 1 <= n <= 6) /\
    (n_t d = list_ \/ n_t d = item -> exists ld, n_list_data d = Some ld /\
       match ld_type ld with
       | ordered => ld_bullet_char ld = None /\ exists n, ld_start ld = Some n /\ (n <= 999999999)%N
       | bullet => ld_start ld = None /\ exists c, ld_bullet_char ld = Some c /\ In c (u "*+-")
       end).
Proof.
  intros Hs E d Hd. pose proof (parse_facts p s Hs) as H. rewrite E in H. destruct H as (H1 & _). apply nodes_subtrees in Hd as [k Hk]. specialize (H1 _ Hk).
  split.
  - intros Ht. apply node_of_kind in H1; [|rewrite Ht; reflexivity]. unfold kind_ok in H1. rewrite Ht in H1. exact H1.
  - intros Ht. apply node_of_kind in H1; [|destruct Ht as [-> | ->]; reflexivity]. unfold kind_ok in H1.
    assert (G : exists ld, n_list_data d = Some ld /\ ld_ok ld) by (destruct Ht as [Ht|Ht]; rewrite Ht in H1; destruct H1 as (ld & H1 & H2 & _); exists ld; auto).
    destruct G as (ld & El & G). exists ld. split; [exact El|]. unfold ld_ok in G. destruct (ld_type ld).
    + destruct G as (G1 & _ & G2). split; [exact G1|exact G2].
    + destruct G as (G1 & G2 & _). split; [exact G1|exact G2].
Qed.

(** C14, C23 *)
Lemma parsed_strings p s t p' : Forall code_point s -> parse p s = Ok (t, p') ->
  forall d x, In d (nodes t) -> In x (node_strings d) -> Forall (doc_char s) x.
Proof.
  intros Hs E d x Hd Hx. pose proof (parse_facts p s Hs) as H. rewrite E in H. destruct H as (H1 & _). apply nodes_subtrees in Hd as [k Hk].
  specialize (H1 _ Hk). destruct H1 as (H1 & _). rewrite Forall_forall in H1. apply H1, Hx.
Qed.
Lemma parsed_no_nul p s t p' : Forall code_point s -> parse p s = Ok (t, p') ->
  (forall d x, In d (nodes t) -> In x (node_strings d) -> ~ In 0%N x) /\
  (forall o r h r', ~ In 0%N (ho_softbreak o) -> html_render o r t = Ok (h, r') -> ~ In 0%N h).
Proof.
  intros Hs E. pose proof (parsed_strings p s t p' Hs E) as H. split.
  - intros d x Hd Hx Hin. specialize (H d x Hd Hx). rewrite Forall_forall in H. destruct (H _ Hin) as (_ & G & _). congruence.
  - intros o r h r' Hsb Hr Hin.
    assert (G : Forall (fun c => c <> 0%N) h).
    { eapply (html_render_chars _ o r t h r'); [intros; lia| | |exact Hr].
      - apply Forall_forall. intros c Hc ->. auto.
      - intros d Hd. apply Forall_forall. intros x Hx. specialize (H d x Hd Hx). eapply Forall_impl; [|exact H]. intros c Hc. apply Hc. }
    rewrite Forall_forall in G. apply (G _ Hin). reflexivity.
Qed.
Lemma parsed_destinations p s t p' : Forall code_point s -> parse p s = Ok (t, p') ->
  forall d, In d (nodes t) -> n_t d = link \/ n_t d = image -> exists x, n_destination d = Some x /\ forallb uri_char x = true.
Proof.
  intros Hs E d Hd Ht. pose proof (parse_facts p s Hs) as H. rewrite E in H. destruct H as (H1 & _). apply nodes_subtrees in Hd as [k Hk].
  specialize (H1 _ Hk). destruct H1 as (_ & _ & _ & H1). destruct Ht as [Ht|Ht]; rewrite Ht in H1; apply H1.
Qed.

(** C35 *)
Lemma node_block s d kids : node_of s (T d kids) -> inline_type (n_t d) = false ->
  n_sourcepos d <> None /\ 1 <= first_line d /\ first_line d <= last_line d /\ Forall (fun k => inline_type (t_type k) = true \/ in_range_of (first_line d) (last_line d) k) kids.
Proof. intros (_ & _ & _ & H) Hi. destruct (n_t d); try discriminate; destruct H as (_ & _ & H1 & H2 & H3 & H4 & _); auto. Qed.
(** C42 *)
Lemma parsed_paragraphs smart s t : Forall code_point s -> ~ In 91%N s -> (forall c, In c s -> is_space c = true -> In c [9; 10; 13; 32]%N) ->
  parse_doc smart s = Ok t -> forall x, In x (subtrees t) -> t_type x = paragraph -> t_kids x <> [].
Proof.
  intros Hs Hb Hsp E x Hx Ht. apply (parse_doc_facts smart s t Hs) in E as (H & _). specialize (H x Hx). destruct x as [d kids]. unfold t_type in Ht. cbn [t_data t_kids] in *.
  assert (Hin : forall c, infix [c] (replace_char 0 65533 s) -> c = 65533%N \/ In c s).
  { intros c (a & b & G). assert (Hc : In c (replace_char 0 65533 s)) by (rewrite G; apply in_or_app; right; left; reflexivity).
    unfold replace_char in Hc. apply in_map_iff in Hc as (y & Hy & Hy'). destruct (N.eqb y 0); [left; congruence|right; congruence]. }
  destruct H as (_ & _ & _ & H). rewrite Ht in H. destruct H as (_ & _ & _ & _ & _ & _ & H). apply H; [reflexivity| |].
  - intros G. apply Hin in G as [G|G]; [discriminate|exact (Hb G)].
  - intros c Hc (V1 & V2 & V3 & V4). apply Hin in Hc as [->|Hc]; [reflexivity|]. destruct (is_space c) eqn:Ec; [|reflexivity]. specialize (Hsp c Hc Ec). cbn in Hsp. unfold SP, TAB, LF in *. intuition congruence.
Qed.
Lemma block_of_block a b : may_hold a b = true -> inline_type b = false -> inline_type a = false.
Proof. destruct a, b; try reflexivity; discriminate. Qed.
Lemma subtree_range s : forall t, (forall x, In x (subtrees t) -> node_of s x) ->
  forall x, In x (subtrees t) -> inline_type (t_type x) = false -> last_line (t_data x) <= last_line (t_data t) /\ inline_type (t_type t) = false.
Proof.
  induction t as [d kids IH] using tree_ind'. intros H x Hx Hi. destruct (H (T d kids) (or_introl eq_refl)) as (N1 & N2 & N3 & N4).
  cbn [subtrees] in Hx. destruct Hx as [<-|Hx]; [split; [lia|exact Hi]|].
  apply in_flat_map in Hx as (k & Hk & Hx). rewrite Forall_forall in IH. destruct (IH k Hk) with (x := x) as [G1 G2]; [|exact Hx|exact Hi|].
  { intros y Hy. apply H. right. apply in_flat_map. eauto. }
  assert (Hd : inline_type (n_t d) = false). { rewrite Forall_forall in N2. eapply block_of_block; [apply N2, Hk|exact G2]. }
  split; [|exact Hd]. destruct (node_block s d kids (H _ (or_introl eq_refl)) Hd) as (_ & _ & _ & B). rewrite Forall_forall in B. destruct (B k Hk) as [B1|[_ B2]]; [congruence|]. cbn [t_data]. lia.
Qed.
Lemma parsed_positions p s t p' : Forall code_point s -> parse p s = Ok (t, p') ->
  forall x, In x (subtrees t) -> inline_type (t_type x) = false ->
    n_sourcepos (t_data x) <> None /\ 1 <= first_line (t_data x) /\ first_line (t_data x) <= last_line (t_data x) /\ last_line (t_data x) <= length (text_lines s) /\
    forall k, In k (t_kids x) -> inline_type (t_type k) = false ->
      first_line (t_data x) <= first_line (t_data k) /\ last_line (t_data k) <= last_line (t_data x).
Proof.
  intros Hs E x Hx Hi. pose proof (parse_facts p s Hs) as H. rewrite E in H. destruct H as (H1 & H2 & H3 & H4).
  destruct (subtree_range s t H1 x Hx Hi) as [G _]. rewrite H4 in G. specialize (H1 x Hx). destruct x as [d kids]. destruct (node_block _ _ _ H1 Hi) as (B1 & B2 & B3 & B4).
  split; [exact B1|]. split; [exact B2|]. split; [exact B3|]. split; [exact G|]. intros k Hk Hik. rewrite Forall_forall in B4. destruct (B4 k Hk) as [B|B]; [congruence|exact B].
Qed.

(** C05, C06, C07 *)
Lemma node_of_standard s d kids : node_of s (T d kids) -> standard_node d.
Proof.
  intros H. split; [|split].
  - intros Ht. apply node_of_kind in H; [|rewrite Ht; reflexivity]. unfold kind_ok in H. rewrite Ht in H. exact H.
  - intros Ht. apply node_of_kind in H; [|rewrite Ht; reflexivity]. unfold kind_ok in H. rewrite Ht in H. exact H.
  - intros Ht. apply node_of_kind in H; [|rewrite Ht; reflexivity]. unfold kind_ok in H. rewrite Ht in H. exact H.
Qed.
Lemma parsed_standard smart s t : Forall code_point s -> parse_doc smart s = Ok t -> forall d, In d (nodes t) -> standard_node d.
Proof.
  intros Hs E d Hd. apply (parse_doc_facts smart s t Hs) in E as (H & _). apply nodes_subtrees in Hd as [k Hk]. eapply node_of_standard, H, Hk.
Qed.
Lemma md_to_html_inv smart o s h : md_to_html smart o s = Ok h -> exists t r', parse_doc smart s = Ok t /\ html_render o new_html t = Ok (h, r').
Proof.
  unfold md_to_html, render_html. destruct (parse_doc smart s) as [t|]; cbn [bind]; [|discriminate]. destruct (html_render o new_html t) as [[x r']|] eqn:E; cbn [bind]; [|discriminate].
  intros H. apply Ok_inj in H as <-. eauto.
Qed.
Lemma text_own_markup smart o s h : Forall code_point s -> ho_safe o = true -> escaped (ho_softbreak o) -> md_to_html smart o s = Ok h ->
  balanced (fun x => x = omitted_comment) (fun v => v = [] \/ exists d, v = escape_xml d /\ safe_url d) h.
Proof.
  intros Hs Ho Hb H. apply md_to_html_inv in H as (t & r' & E & H). eapply safe_render_balanced; [exact Ho|exact Hb| | |exact H]; [reflexivity|eapply parsed_standard; eassumption].
Qed.
Lemma text_balanced smart o s h : Forall code_point s -> md_to_html smart o s = Ok h ->
  exists t, parse_doc smart s = Ok t /\
  balanced (fun x => x = ho_softbreak o \/ raw_literal t x \/ (ho_safe o = true /\ x = omitted_comment)) (fun _ => True) h.
Proof.
  intros Hs H. apply md_to_html_inv in H as (t & r' & E & H). exists t. split; [exact E|]. eapply render_balanced_raw; [| |exact H]; [reflexivity|eapply parsed_standard; eassumption].
Qed.

(** Rendering does not raise *)
Lemma node_of_html_ok s o x : node_of s x -> html_ok o x.
Proof.
  destruct x as [d kids]. intros (_ & _ & _ & H). unfold html_ok. destruct (n_t d) eqn:Et; try exact I.
  - destruct H as (H & _). unfold kind_ok in H. rewrite Et in H. destruct H as (ld & -> & _). discriminate.
  - destruct H as (_ & H & _). unfold content_ok in H. rewrite Et in H. destruct H as (l & ->). discriminate.
  - destruct H as (_ & l & ->). discriminate.
  - destruct H as ((l & -> & _) & _). discriminate.
  - destruct H as ((l & -> & _) & _). discriminate.
Qed.
Lemma text_renders smart o r s t : Forall code_point s -> parse_doc smart s = Ok t -> exists h r', html_render o r t = Ok (h, r').
Proof.
  intros Hs E. apply (parse_doc_facts smart s t Hs) in E as (H1 & H2 & _).
  destruct (html_render_total o r t) as [[h r'] G]; [|rewrite H2; discriminate|eauto]. apply tree_every_subtrees. intros x Hx. eapply node_of_html_ok, H1, Hx.
Qed.
(** C33 *)
Definition rst_heading (x : tree) : Prop := t_type x = heading -> exists k ks, t_kids x = k :: ks /\ n_literal (t_data k) <> None.
Lemma node_of_rst_ok s x : node_of s x -> rst_heading x -> rst_ok x.
Proof.
  destruct x as [d kids]. intros (_ & _ & _ & H) Hh. unfold rst_ok. unfold rst_heading, t_type in Hh. cbn [t_data t_kids] in Hh. destruct (n_t d) eqn:Et; try exact I.
  - destruct H as (H & _). unfold kind_ok in H. rewrite Et in H. destruct H as (ld & -> & _). discriminate.
  - destruct H as (H & _). unfold kind_ok in H. rewrite Et in H. destruct H as (l & -> & _). split; [discriminate|]. apply Hh. reflexivity.
  - destruct H as (_ & H & _). unfold content_ok in H. rewrite Et in H. destruct H as ((l & ->) & _). discriminate.
  - destruct H as (_ & l & ->). discriminate.
  - destruct H as (_ & l & ->). discriminate.
  - destruct H as ((l & -> & _) & _). discriminate.
Qed.
Lemma rst_events_each ic : forall evs st st', rst_events ic evs st = Ok st' -> forall ev, In ev evs -> exists s1 s2, rst_node ic (ev_node ev) (ev_anc ev) (ev_entering ev) s1 = Ok s2.
Proof.
  induction evs as [|[t e anc] evs IH]; intros st st' H ev Hev; [destruct Hev|]. cbn [rst_events] in H.
  destruct (rst_node ic t anc e st) as [s1|] eqn:E1; cbn [bind] in H; [|discriminate]. destruct Hev as [<-|Hev]; [eauto|]. eapply IH; eassumption.
Qed.
Lemma subtree_event : forall t, (forall x, In x (subtrees t) -> is_container (t_type x) = false -> t_kids x = []) -> forall x anc, In x (subtrees t) -> exists anc', In (EV x true anc') (events anc t).
Proof.
  induction t as [d kids IH] using tree_ind'. intros H x anc Hx. cbn [subtrees] in Hx. cbn [events].
  destruct Hx as [<-|Hx].
  - exists anc. destruct (is_container (n_t d)); left; reflexivity.
  - apply in_flat_map in Hx as (k & Hk & Hx). assert (Hc : is_container (n_t d) = true).
    { destruct (is_container (n_t d)) eqn:Ec; [reflexivity|]. pose proof (H _ (or_introl eq_refl) Ec) as G. cbn in G. subst kids. destruct Hk. }
    rewrite Hc. rewrite Forall_forall in IH. destruct (IH k Hk) with (x := x) (anc := d :: anc) as [anc' G]; [|exact Hx|].
    + intros y Hy. apply H. right. apply in_flat_map. eauto.
    + exists anc'. right. apply in_or_app. left. apply in_flat_map. eauto.
Qed.
Lemma node_of_leaf s x : node_of s x -> is_container (t_type x) = false -> t_kids x = [].
Proof.
  destruct x as [d kids]. intros (_ & H & _) Hc. unfold t_type in Hc. cbn [t_data t_kids] in *. destruct kids as [|k kids]; [reflexivity|]. exfalso.
  inversion H as [|y l H1 _]; subst. destruct (n_t d); try discriminate.
Qed.
Lemma text_rst smart ic r s t : Forall code_point s -> parse_doc smart s = Ok t ->
  ((exists out r', rst_render ic r t = Ok (out, r')) <->
   forall x, In x (subtrees t) -> t_type x = heading -> exists k ks l, t_kids x = k :: ks /\ n_literal (t_data k) = Some l).
Proof.
  intros Hs E. apply (parse_doc_facts smart s t Hs) in E as (H1 & H2 & _). split.
  - intros (out & r' & H) x Hx Ht. unfold rst_render in H. destruct (rst_events ic (walker t) _) as [st|] eqn:Ee; cbn [bind] in H; [|discriminate].
    destruct (subtree_event t (fun x Hx => node_of_leaf s x (H1 x Hx)) x [] Hx) as [anc Hev]. destruct (rst_events_each ic _ _ _ Ee _ Hev) as (s1 & s2 & G).
    cbn [ev_node ev_anc ev_entering] in G. destruct x as [d kids]. unfold rst_node in G. change (n_t d = heading) in Ht. rewrite Ht in G. unfold r_heading in G.
    destruct (heading_char _); cbn [bind] in G; [|discriminate]. destruct kids as [|k ks]; [discriminate|]. cbn [hd_error of_option bind] in G.
    destruct (n_literal (t_data k)) as [l|] eqn:El; [|discriminate]. exists k, ks, l. auto.
  - intros H. destruct (rst_render_total ic r t) as [[h r'] G]; [|rewrite H2; discriminate|eauto]. apply tree_every_subtrees. intros x Hx. eapply node_of_rst_ok; [apply H1, Hx|].
    intros Ht. destruct (H x Hx Ht) as (k & ks & l & G1 & G2). exists k, ks. split; [exact G1|congruence].
Qed.
