(** * A line that closes what was open below the document *)
From Verif Require Import Base Regex Common NormRef Node Inlines Blocks RegexFacts Spec SpecTree SpecSame BlockFacts BlockRun LineFacts ParseFacts Sim SimFacts EmptyLine.
From Coq Require Import ZifyBool ZifyNat ZifyN.

(** ** What does not depend on the place in the line *)
Lemma rel_id x : rel x x = x.
Proof. destruct x; reflexivity. Qed.
Lemma advance_loop_rel z : forall f n b a, advance_loop f n b (rel a z) = rel (advance_loop f n b a) z.
Proof.
  induction f as [|f IH]; intros n b a; cbn [advance_loop]; [reflexivity|]. destruct n as [|n]; [reflexivity|].
  change (p_line (rel a z)) with (p_line a). change (p_offset (rel a z)) with (p_offset a). change (p_column (rel a z)) with (p_column a).
  destruct (peek (p_line a) (p_offset a)) as [c|]; [|reflexivity]. destruct (N.eqb c TAB); [destruct b|]; rewrite <- IH; reflexivity.
Qed.
Lemma advance_rel n b a z : advance_offset n b (rel a z) = rel (advance_offset n b a) z.
Proof. apply advance_loop_rel. Qed.
Lemma ann_rel a z : advance_next_nonspace (rel a z) = rel (advance_next_nonspace a) z.
Proof. reflexivity. Qed.
Lemma fnn_rel a z : find_next_nonspace (rel a z) = rel (find_next_nonspace a) z.
Proof. unfold find_next_nonspace. change (rest_offset (rel a z)) with (rest_offset a). change (p_offset (rel a z)) with (p_offset a). change (p_column (rel a z)) with (p_column a). destruct (skip_spaces _ _ _). reflexivity. Qed.
Lemma make_room_rel x tag : forall f z, make_room f tag (rel x z) = rmap (rel x) (make_room f tag z).
Proof.
  induction f as [|f IH]; intros z; cbn [make_room]; [reflexivity|]. change (tip (rel x z)) with (tip z). destruct (tip z) as [t|]; [|reflexivity]. cbn [bind].
  destruct (can_contain _ _) as [[|]|]; [reflexivity| |reflexivity]. cbn [bind]. change (p_line_number (rel x z)) with (p_line_number z). rewrite fin_tip_rel.
  destruct (finalize_tip _ z) as [w|]; [|reflexivity]. cbn [rmap bind]. apply IH.
Qed.
Lemma add_child_rel x tag off z : add_child tag off (rel x z) = rmap (rel x) (add_child tag off z).
Proof. unfold add_child. change (p_stack (rel x z)) with (p_stack z). rewrite make_room_rel. destruct (make_room _ _ z); reflexivity. Qed.

(** ** Two states, of which the second has the blocks closed that the line closes *)
Record closed_to (x z w : parser) : Prop := {
  c_close : close_unmatched_blocks x = Ok z;
  c_all : p_all_closed w = true;
  c_rel : rel x w = w;
  c_add : forall tag off, tag <> item -> add_child tag off z = add_child tag off w }.
(** if no paragraph is open *)
Record closes (x z w : parser) : Prop := {
  c_to :> closed_to x z w;
  c_tip : exists t, tip x = Ok t /\ f_type t <> paragraph;
  c_tipw : exists t, tip w = Ok t /\ f_type t <> paragraph;
  c_list : z = w \/ (forall c, c <> paragraph -> parse_list_marker c x = Ok (None, x)) }.
Definition same_start (r s : res (start * parser)) (x w : parser) : Prop :=
  (r = Ok (SNone, x) /\ s = Ok (SNone, w)) \/ (r = s /\ forall p, r <> Ok (SNone, p)).
Section Start.
  Variables x z w : parser.
  Hypothesis H : closed_to x z w.
  Lemma at_close a : close_unmatched_blocks (rel a x) = Ok (rel a z).
  Proof. rewrite close_rel, (c_close _ _ _ H). reflexivity. Qed.
  Lemma at_closew a : close_unmatched_blocks (rel a w) = Ok (rel a w).
  Proof. unfold close_unmatched_blocks. change (p_all_closed (rel a w)) with (p_all_closed w). rewrite (c_all _ _ _ H). reflexivity. Qed.
  Lemma at_add a tag off : tag <> item -> add_child tag off (rel a z) = add_child tag off (rel a w).
  Proof. intros Ht. rewrite !add_child_rel, (c_add _ _ _ H) by exact Ht. reflexivity. Qed.
  Lemma adv_both n b : exists a, advance_offset n b (advance_next_nonspace x) = rel a x /\ advance_offset n b (advance_next_nonspace w) = rel a w.
  Proof.
    exists (advance_offset n b (advance_next_nonspace x)). split; [rewrite <- advance_rel, <- ann_rel, rel_id; reflexivity|]. rewrite <- advance_rel, <- ann_rel, (c_rel _ _ _ H). reflexivity.
  Qed.
  Lemma w_field {A} (f : parser -> A) : f (rel x w) = f w.
  Proof. rewrite (c_rel _ _ _ H). reflexivity. Qed.
  Lemma w_pos : p_indented w = p_indented x /\ rest_nonspace w = rest_nonspace x /\ p_line w = p_line x /\ p_next_nonspace w = p_next_nonspace x /\ p_indent w = p_indent x /\ p_blank w = p_blank x /\ p_offset w = p_offset x.
  Proof. rewrite <- (c_rel _ _ _ H). repeat split. Qed.
  Ltac none := left; split; reflexivity.
  Lemma quote_closes : same_start (start_block_quote x) (start_block_quote w) x w.
  Proof.
    destruct w_pos as (E1 & E2 & E3 & E4 & _). unfold start_block_quote. rewrite E1, E3, E4. destruct (_ && _)%bool; [|none]. cbn zeta. right.
    destruct (adv_both 1 false) as (a & -> & ->).
    assert (Hb : exists c, (if is_space_or_tab (peek (p_line (rel a x)) (p_offset (rel a x))) then advance_offset 1 true (rel a x) else rel a x) = rel c x /\
      (if is_space_or_tab (peek (p_line (rel a w)) (p_offset (rel a w))) then advance_offset 1 true (rel a w) else rel a w) = rel c w).
    { change (is_space_or_tab (peek (p_line (rel a x)) (p_offset (rel a x)))) with (is_space_or_tab (peek (p_line a) (p_offset a))).
      change (is_space_or_tab (peek (p_line (rel a w)) (p_offset (rel a w)))) with (is_space_or_tab (peek (p_line a) (p_offset a))).
      rewrite !advance_rel. destruct (is_space_or_tab _); [exists (advance_offset 1 true a)|exists a]; split; reflexivity. }
    destruct Hb as (c & -> & ->). rewrite at_close, at_closew. cbn [bind].
    change (p_next_nonspace (rel c z)) with (p_next_nonspace c). change (p_next_nonspace (rel c w)) with (p_next_nonspace c). rewrite at_add by discriminate. split; [reflexivity|].
    intros p. destruct (add_child _ _ _); discriminate.
  Qed.
  Lemma atx_closes : same_start (start_atx_heading x) (start_atx_heading w) x w.
  Proof.
    destruct w_pos as (E1 & E2 & E3 & E4 & _). unfold start_atx_heading. rewrite E1, E2. destruct (p_indented x); [none|]. destruct (re_search _ _) as [m|]; [|none]. cbn zeta. right.
    destruct (adv_both (length (rm_group m)) false) as (a & -> & ->). rewrite at_close, at_closew. cbn [bind].
    change (p_next_nonspace (rel a z)) with (p_next_nonspace a). change (p_next_nonspace (rel a w)) with (p_next_nonspace a). rewrite at_add by discriminate. split; [reflexivity|].
    intros p. destruct (add_child _ _ _) as [p3|]; [|discriminate]. cbn [bind]. destruct (on_tip _ p3); discriminate.
  Qed.
  Lemma close_x : close_unmatched_blocks x = Ok z.
  Proof. apply (c_close _ _ _ H). Qed.
  Lemma close_w : close_unmatched_blocks w = Ok w.
  Proof. unfold close_unmatched_blocks. rewrite (c_all _ _ _ H). reflexivity. Qed.
  Lemma z_pos : rel x z = z.
  Proof. pose proof close_x as E. rewrite close_er in E. destruct (close_unmatched_blocks (er x)) as [y|]; [|discriminate]. cbn [rmap] in E. apply Ok_inj in E as <-. reflexivity. Qed.
  Lemma z_nn : p_next_nonspace z = p_next_nonspace x /\ p_offset z = p_offset x.
  Proof. rewrite <- z_pos. split; reflexivity. Qed.
  Lemma fence_closes : same_start (start_fenced_code x) (start_fenced_code w) x w.
  Proof.
    destruct w_pos as (E1 & E2 & E3 & E4 & _). unfold start_fenced_code. rewrite E1, E2. destruct (p_indented x); [none|]. destruct (re_search _ _) as [m|]; [|none]. cbn zeta. right.
    rewrite close_x, close_w. cbn [bind]. rewrite (proj1 z_nn), E4, (c_add _ _ _ H) by discriminate. split; [reflexivity|].
    intros p. destruct (add_child _ _ _) as [p3|]; [|discriminate]. cbn [bind]. destruct (of_option _ _); [|discriminate]. cbn [bind]. destruct (on_tip _ p3); discriminate.
  Qed.
  Lemma html_closes c c' : c <> paragraph -> c' <> paragraph -> same_start (start_html_block c x) (start_html_block c' w) x w.
  Proof.
    intros Hc Hc'. destruct w_pos as (E1 & E2 & E3 & E4 & _ & _ & E5). unfold start_html_block. rewrite E1, E2, E3, E4. destruct (_ && _)%bool; [|none].
    assert (Ec : forall t, t <> paragraph -> ntype_eqb t paragraph = false) by (intros [] X; try reflexivity; congruence). rewrite !Ec by assumption. destruct (html_type _ _) as [ty|]; [|none]. right.
    rewrite close_x, close_w. cbn [bind]. rewrite (proj2 z_nn), E5, (c_add _ _ _ H) by discriminate. split; [reflexivity|].
    intros p. destruct (add_child _ _ _) as [p3|]; [|discriminate]. cbn [bind]. destruct (on_tip _ p3); discriminate.
  Qed.
  Lemma not_par t : t <> paragraph -> ntype_eqb t paragraph = false.
  Proof. destruct t; try reflexivity; congruence. Qed.
  Lemma setext_closes c c' : c <> paragraph -> c' <> paragraph -> same_start (start_setext_heading c x) (start_setext_heading c' w) x w.
  Proof. intros Hc Hc'. unfold start_setext_heading. rewrite !not_par by assumption. rewrite !andb_false_r. none. Qed.
  Lemma rule_closes : same_start (start_thematic_break x) (start_thematic_break w) x w.
  Proof.
    destruct w_pos as (E1 & E2 & E3 & E4 & _). unfold start_thematic_break. rewrite E1, E2. destruct (_ && _)%bool; [|none]. right.
    rewrite close_x, close_w. cbn [bind]. rewrite (proj1 z_nn), E4, (c_add _ _ _ H) by discriminate. split; [reflexivity|].
    intros p. destruct (add_child _ _ _); discriminate.
  Qed.
  Lemma marker_spaces_rel y : forall f n a, marker_spaces f n (rel a y) = rmap (fun b => rel b y) (marker_spaces f n a).
  Proof.
    induction f as [|f IH]; intros n a; cbn [marker_spaces]; [reflexivity|]. cbn zeta. rewrite advance_rel. set (b := advance_offset 1 true a).
    change (p_column (rel b y)) with (p_column b). change (p_line (rel b y)) with (p_line b). change (p_offset (rel b y)) with (p_offset b). destruct (_ && _)%bool; [apply IH|reflexivity].
  Qed.
  Lemma marker_rel c y a : c <> paragraph -> parse_list_marker c (rel a y) = rmap (fun b => (fst b, rel (snd b) y)) (parse_list_marker c a).
  Proof.
    intros Hc. unfold parse_list_marker. rewrite (not_par c Hc). change (p_indent (rel a y)) with (p_indent a). destruct (Nat.leb 4 (p_indent a)); [reflexivity|].
    change (rest_nonspace (rel a y)) with (rest_nonspace a). destruct (list_marker _ _ _) as [[m data]|]; [|reflexivity]. change (p_line (rel a y)) with (p_line a). change (p_next_nonspace (rel a y)) with (p_next_nonspace a). cbn zeta.
    destruct (negb _); [reflexivity|]. cbn [andb]. rewrite ann_rel, advance_rel. set (b := advance_offset _ true _).
    change (p_column (rel b y)) with (p_column b). change (p_offset (rel b y)) with (p_offset b). rewrite marker_spaces_rel. destruct (marker_spaces 6 (p_column b) b) as [e|]; [|reflexivity]. cbn [rmap bind].
    change (p_column (rel e y)) with (p_column e). change (p_line (rel e y)) with (p_line e). change (p_offset (rel e y)) with (p_offset e). destruct (_ || _)%bool; [|reflexivity].
    change (set_p_offset (p_offset b) (set_p_column (p_column b) (rel e y))) with (rel (set_p_offset (p_offset b) (set_p_column (p_column b) e)) y). set (g := set_p_offset _ _).
    change (is_space_or_tab (peek (p_line (rel g y)) (p_offset (rel g y)))) with (is_space_or_tab (peek (p_line g) (p_offset g))). destruct (is_space_or_tab _); [rewrite advance_rel|]; reflexivity.
  Qed.
  Lemma marker_indep c c' y : c <> paragraph -> c' <> paragraph -> parse_list_marker c' y = parse_list_marker c y.
  Proof. intros Hc Hc'. unfold parse_list_marker. rewrite !not_par by assumption. reflexivity. Qed.
  Lemma marker_none c y a : parse_list_marker c y = Ok (None, a) -> a = y.
  Proof.
    unfold parse_list_marker. destruct (Nat.leb 4 _); [intros E; apply Ok_inj in E; congruence|]. destruct (list_marker _ _ _) as [[m data]|]; [|intros E; apply Ok_inj in E; congruence]. cbn zeta.
    destruct (negb _); [intros E; apply Ok_inj in E; congruence|]. destruct (_ && _)%bool; [intros E; apply Ok_inj in E; congruence|]. destruct (marker_spaces _ _ _); [|discriminate]. cbn [bind].
    destruct (_ || _)%bool; [destruct (is_space_or_tab _)|]; intros E; apply Ok_inj in E; congruence.
  Qed.
End Start.
Section Starts.
  Variables x z w : parser.
  Hypothesis H : closes x z w.
  Ltac none := left; split; reflexivity.
  Lemma list_closes c c' : c <> paragraph -> c' = c \/ (p_indented x = false /\ c' <> paragraph) -> same_start (start_list_item c x) (start_list_item c' w) x w.
  Proof.
    intros Hc Hcc. assert (Hc' : c' <> paragraph) by (destruct Hcc as [->|[_ X]]; assumption). destruct (w_pos _ _ _ H) as (E1 & E2 & E3 & E4 & _). unfold start_list_item. rewrite E1.
    assert (Eb : (negb (p_indented x) || ntype_eqb c' list_)%bool = (negb (p_indented x) || ntype_eqb c list_)%bool) by (destruct Hcc as [->|[-> _]]; reflexivity). rewrite Eb. clear Eb. destruct (negb (p_indented x) || ntype_eqb c list_)%bool; [|none].
    rewrite (marker_indep c c' w Hc Hc'). assert (Emw : parse_list_marker c w = rmap (fun b => (fst b, rel (snd b) w)) (parse_list_marker c x)) by (rewrite <- (marker_rel c w x Hc), (c_rel _ _ _ H); reflexivity). rewrite Emw. clear Emw.
    destruct (c_list _ _ _ H) as [Ez|Hn].
    - pose proof (marker_rel c x x Hc) as G. rewrite rel_id in G. destruct (parse_list_marker c x) as [[data a]|e] eqn:Em; [|right; split; [reflexivity|discriminate]]. cbn [rmap] in G. apply Ok_inj in G. injection G as G. cbn [rmap bind fst snd].
      destruct data as [data|].
      + right. rewrite G, (at_close _ _ _ H), (at_closew _ _ _ H), Ez. split; [reflexivity|]. intros p. cbn [bind]. destruct (tip _); [|discriminate]. cbn [bind].
        match goal with |- context [bind (if ?b then ?u else ?v) _] => destruct (if b then u else v) as [p3|] end; [|discriminate]. cbn [bind]. destruct (add_child _ _ p3) as [p4|]; [|discriminate]. cbn [bind]. destruct (on_tip _ p4); discriminate.
      + assert (a = x) as -> by (eapply marker_none; exact Em). rewrite (c_rel _ _ _ H). none.
    - rewrite (Hn c Hc). cbn [rmap bind fst snd]. rewrite (c_rel _ _ _ H). none.
  Qed.
  Lemma code_closes : same_start (start_indented_code x) (start_indented_code w) x w.
  Proof.
    destruct (w_pos _ _ _ H) as (E1 & E2 & E3 & E4 & _ & E6 & _). destruct (c_tip _ _ _ H) as (t & Et & Ht), (c_tipw _ _ _ H) as (t' & Et' & Ht'). unfold start_indented_code. rewrite Et, Et'. cbn [bind].
    rewrite E1, E6, !not_par by assumption. cbn [negb]. rewrite andb_true_r. destruct (_ && _)%bool; [|none]. right.
    assert (Ax : advance_offset CODE_INDENT true x = rel (advance_offset CODE_INDENT true x) x) by (rewrite <- advance_rel, rel_id; reflexivity).
    assert (Aw : advance_offset CODE_INDENT true w = rel (advance_offset CODE_INDENT true x) w) by (rewrite <- advance_rel, (c_rel _ _ _ H); reflexivity).
    rewrite Ax, Aw. set (a := advance_offset CODE_INDENT true x). rewrite (at_close _ _ _ H), (at_closew _ _ _ H). cbn [bind]. change (p_offset (rel a z)) with (p_offset a). change (p_offset (rel a w)) with (p_offset a).
    rewrite (at_add _ _ _ H) by discriminate. split; [reflexivity|]. intros p. destruct (add_child _ _ _); discriminate.
  Qed.
  Lemma try_same : forall l c c', (forall f, In f l -> same_start (f c x) (f c' w) x w) -> same_start (try_starts l c x) (try_starts l c' w) x w.
  Proof.
    induction l as [|f l IH]; intros c c' Hl; cbn [try_starts]; [none|]. destruct (Hl f (or_introl eq_refl)) as [[-> ->]|[E Hn]].
    - cbn [bind]. apply IH. intros g Hg. apply Hl. right. exact Hg.
    - right. rewrite <- E. destruct (f c x) as [[r p]|e]; [|split; [reflexivity|discriminate]]. cbn [bind]. destruct r; [destruct (Hn p eq_refl)| |]; (split; [reflexivity|intros y X; apply Ok_inj in X; discriminate]).
  Qed.
  Lemma starts_same c c' : c <> paragraph -> c' = c \/ (p_indented x = false /\ c' <> paragraph) -> same_start (try_starts block_starts c x) (try_starts block_starts c' w) x w.
  Proof.
    intros Hc Hcc. assert (Hc' : c' <> paragraph) by (destruct Hcc as [->|[_ X]]; assumption). apply try_same. intros f Hf. unfold block_starts in Hf. cbn [In] in Hf.
    destruct Hf as [<-|[<-|[<-|[<-|[<-|[<-|[<-|[<-|[]]]]]]]]].
    - apply (quote_closes _ _ _ H).
    - apply (atx_closes _ _ _ H).
    - apply (fence_closes _ _ _ H).
    - apply (html_closes _ _ _ H); assumption.
    - apply setext_closes; assumption.
    - apply (rule_closes _ _ _ H).
    - apply list_closes; assumption.
    - apply code_closes.
  Qed.
  (** the starts of a line, if nothing is left to skip *)
  Lemma loop_same f m n c c' : find_next_nonspace x = x -> block_at m x = Ok c -> block_at n w = Ok c' -> f_type c <> paragraph -> f_type c' = f_type c \/ (p_indented x = false /\ f_type c' <> paragraph) ->
    (starts_loop (S f) m x = Ok (m, advance_next_nonspace x) /\ starts_loop (S f) n w = Ok (n, advance_next_nonspace w)) \/
    match starts_loop (S f) m x with
    | Ok (_, p) => exists k, starts_loop (S f) n w = Ok (k, p)
    | Err e => starts_loop (S f) n w = Err e
    end.
  Proof.
    intros Ex Ec Ec' Hc Hcc. assert (Ew : find_next_nonspace w = w) by (rewrite <- (c_rel _ _ _ H), fnn_rel, Ex; reflexivity). destruct (w_pos _ _ _ H) as (E1 & E2 & _).
    cbn [starts_loop]. rewrite Ex, Ew, E1, E2. destruct (_ && _)%bool; [left; split; reflexivity|]. rewrite Ec, Ec'. cbn [bind].
    destruct (starts_same (f_type c) (f_type c') Hc Hcc) as [[-> ->]|[E Hn]]; [left; split; reflexivity|]. right. rewrite <- E. destruct (try_starts _ _ x) as [[r p]|e]; [|reflexivity]. cbn [bind].
    destruct r; [destruct (Hn p eq_refl)| |exists (length (p_stack p)); reflexivity]. destruct (starts_loop f _ p) as [[k y]|e]; [exists k; reflexivity|reflexivity].
  Qed.
End Starts.
