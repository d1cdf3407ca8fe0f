(** * Columns while a line is read: C39 for every state the parser goes through *)
From Verif Require Import Base Regex Common NormRef Node Inlines Blocks Spec SpecLines StrFacts BlockFacts BlockSteps DocFacts ColumnFacts RegexFacts.
From Verif Require Sim.
From Coq Require Import ZifyBool ZifyNat ZifyN.

(** ** What changes only the tree *)
Definition samepos (p q : parser) : Prop :=
  p_line q = p_line p /\ p_offset q = p_offset p /\ p_column q = p_column p /\ p_pct q = p_pct p /\
  p_next_nonspace q = p_next_nonspace p /\ p_next_nonspace_column q = p_next_nonspace_column p.
Lemma samepos_refl p : samepos p p.
Proof. unfold samepos. auto 10. Qed.
Lemma samepos_trans p q r : samepos p q -> samepos q r -> samepos p r.
Proof. intros (A1 & A2 & A3 & A4 & A5 & A6) (B1 & B2 & B3 & B4 & B5 & B6). unfold samepos. repeat split; congruence. Qed.
Lemma attach_pos t p : samepos p (attach t p).
Proof. unfold attach. destruct (p_stack p); unfold samepos; auto 10. Qed.
Lemma strip_refs_pos content p c b q : strip_refs content p = Ok (c, b, q) -> samepos p q.
Proof. unfold strip_refs. destruct (ref_loop _ _ _ _ _) as [[[[? ?] ?] ?]|e]; cbn [bind]; [|discriminate]. intros E. apply Ok_inj in E. injection E as _ _ <-. unfold samepos. auto 10. Qed.
Lemma finalize_tip_pos ln p q : finalize_tip ln p = Ok q -> samepos p q.
Proof.
  unfold finalize_tip. destruct (p_stack p) as [|fr st]; [discriminate|]. destruct (n_sourcepos _) as [[sp0 x]|]; cbn [of_option bind]; [|discriminate].
  assert (S0 : forall t, samepos p (attach t (set_p_stack st p))) by (intros t; eapply samepos_trans; [|apply attach_pos]; unfold samepos; auto 10).
  cbv zeta. match goal with |- context [match n_t ?d with _ => _ end] => destruct (n_t d) end; try discriminate; try (intros E; apply Ok_inj in E as <-; apply S0).
  - destruct (finalize_list _ _) as [d' items]. intros E. apply Ok_inj in E as <-. apply S0.
  - unfold finalize_paragraph. destruct (n_string_content _) as [c|]; cbn [of_option bind]; [|discriminate]. destruct (strip_refs c _) as [[[c' b] p1]|e] eqn:E1; cbn [bind]; [|discriminate].
    apply strip_refs_pos in E1. intros E. apply Ok_inj in E as <-. assert (H : samepos p p1) by (eapply samepos_trans; [|exact E1]; unfold samepos; auto 10).
    destruct (b && is_blank c'); [exact H|]. eapply samepos_trans; [exact H|apply attach_pos].
  - destruct (finalize_code _) as [d'|e]; cbn [bind]; [|discriminate]. intros E. apply Ok_inj in E as <-. apply S0.
  - destruct (finalize_html _) as [d'|e]; cbn [bind]; [|discriminate]. intros E. apply Ok_inj in E as <-. apply S0.
Qed.
Lemma make_room_pos tag : forall f p q, make_room f tag p = Ok q -> samepos p q.
Proof.
  induction f as [|f IH]; intros p q; cbn [make_room]; [discriminate|]. destruct (tip p) as [t|e]; cbn [bind]; [|discriminate]. destruct (can_contain _ _) as [b|e]; cbn [bind]; [|discriminate].
  destruct b; [intros E; apply Ok_inj in E as <-; apply samepos_refl|]. destruct (finalize_tip _ p) as [p1|e] eqn:E1; cbn [bind]; [|discriminate]. intros E. eapply samepos_trans; [eapply finalize_tip_pos; exact E1|eauto].
Qed.
Lemma add_child_pos tag off p q : add_child tag off p = Ok q -> samepos p q.
Proof. unfold add_child. destruct (make_room _ _ _) as [p1|e] eqn:E1; cbn [bind]; [|discriminate]. intros E. apply Ok_inj in E as <-. eapply samepos_trans; [eapply make_room_pos; exact E1|]. unfold samepos. auto 10. Qed.
Lemma close_loop_pos : forall f p q, close_loop f p = Ok q -> samepos p q.
Proof.
  induction f as [|f IH]; intros p q; cbn [close_loop]; (destruct (Nat.leb _ _); [intros E; apply Ok_inj in E as <-; apply samepos_refl|]); [discriminate|].
  destruct (finalize_tip _ p) as [p1|e] eqn:E1; cbn [bind]; [|discriminate]. intros E. eapply samepos_trans; [eapply finalize_tip_pos; exact E1|eauto].
Qed.
Lemma close_unmatched_pos p q : close_unmatched_blocks p = Ok q -> samepos p q.
Proof.
  unfold close_unmatched_blocks. destruct (p_all_closed p); [intros E; apply Ok_inj in E as <-; apply samepos_refl|]. destruct (close_loop _ p) as [p1|e] eqn:E1; cbn [bind]; [|discriminate].
  intros E. apply Ok_inj in E as <-. eapply samepos_trans; [eapply close_loop_pos; exact E1|]. unfold samepos. auto 10.
Qed.
Lemma on_tip_pos f p q : on_tip f p = Ok q -> samepos p q.
Proof. unfold on_tip. destruct (p_stack p); [discriminate|]. intros E. apply Ok_inj in E as <-. unfold samepos. auto 10. Qed.

(** ** States after [find_next_nonspace] *)
Definition scanned (p : parser) : Prop :=
  at_col p /\ p_next_nonspace p <= length (p_line p) /\ p_next_nonspace_column p = width (firstn (p_next_nonspace p) (p_line p)).
Lemma samepos_col p q : samepos p q -> at_col p -> at_col q.
Proof. intros (A1 & A2 & A3 & A4 & A5 & A6) H. unfold at_col. rewrite A1, A2, A3, A4. exact H. Qed.
Lemma samepos_scanned p q : samepos p q -> scanned p -> scanned q.
Proof. intros S (H1 & H2 & H3). split; [eapply samepos_col; eauto|]. destruct S as (A1 & A2 & A3 & A4 & A5 & A6). rewrite A1, A5, A6. auto. Qed.
Lemma fnn_scanned p : at_col p -> scanned (find_next_nonspace p).
Proof.
  intros H. destruct (find_next_nonspace_column p H) as (E1 & E2 & E3 & E4 & _ & _ & E7 & _ & E9 & _). unfold scanned, at_col. rewrite E1, E2, E3, E4. split; [exact H|]. split; [lia|exact E7].
Qed.
Lemma ann_col p : scanned p -> at_col (advance_next_nonspace p).
Proof. intros (_ & H1 & H2). apply advance_next_nonspace_column; assumption. Qed.
Lemma ann_scanned p : scanned p -> scanned (advance_next_nonspace p).
Proof. intros H. split; [apply ann_col; exact H|]. destruct H as (_ & H). exact H. Qed.
Lemma adv_col n b p : at_col p -> at_col (advance_offset n b p).
Proof. intros H. destruct b; [apply (advance_loop_columns n n p)|apply (advance_loop_chars n n p)]; auto. Qed.
Lemma adv_line n b p : p_line (advance_offset n b p) = p_line p.
Proof. unfold advance_offset. destruct (keeps_adv n n b p) as (_ & H & _). exact H. Qed.
Lemma end_col p : at_col p -> at_col (advance_to_end p).
Proof. apply adv_col. Qed.
Lemma fence_col : forall i p, at_col p -> at_col (skip_fence_offset i p).
Proof. induction i as [|i IH]; intros p H; cbn [skip_fence_offset]; [exact H|]. destruct (is_space_or_tab _); [|exact H]. apply IH, adv_col, H. Qed.

Lemma continue_col d b p r q : continue_ d b p = Ok (r, q) -> scanned p -> at_col q.
Proof.
  intros E Hp. assert (Hc : at_col p) by apply Hp. pose proof (ann_col p Hp) as Ha. unfold continue_ in E.
  assert (Done : forall x, Ok (x, p) = Ok (r, q) -> at_col q) by (intros x X; apply Ok_inj in X; injection X as _ <-; exact Hc).
  destruct (n_t d); try discriminate E; try (eapply Done; exact E).
  - destruct (_ && _); [|eapply Done; exact E]. apply Ok_inj in E. injection E as _ <-. destruct (is_space_or_tab _); [apply adv_col|]; apply adv_col; exact Ha.
  - destruct (p_blank p).
    + destruct b; [|eapply Done; exact E]. apply Ok_inj in E. injection E as _ <-. exact Ha.
    + destruct (item_indent d) as [n|e]; cbn [bind] in E; [|discriminate]. destruct (Nat.leb _ _); [|eapply Done; exact E]. apply Ok_inj in E. injection E as _ <-. apply adv_col, Hc.
  - destruct (n_is_fenced d).
    + assert (X : (let* i := of_option TypeError (n_fence_offset d) in Ok (CMatch, skip_fence_offset i p)) = Ok (r, q) -> at_col q).
      { destruct (n_fence_offset d) as [i|]; cbn [of_option bind]; [|discriminate]. intros X. apply Ok_inj in X. injection X as _ <-. apply fence_col, Hc. }
      match type of E with match ?x with _ => _ end = _ => destruct x as [m|] end; [|exact (X E)]. destruct (Nat.leb _ _); [|exact (X E)].
      destruct (finalize_tip _ p) as [p'|e] eqn:E1; cbn [bind] in E; [|discriminate]. apply Ok_inj in E. injection E as _ <-. eapply samepos_col; [eapply finalize_tip_pos; exact E1|exact Hc].
    + destruct (Nat.leb _ _); [apply Ok_inj in E; injection E as _ <-; apply adv_col, Hc|]. destruct (p_blank p); [apply Ok_inj in E; injection E as _ <-; exact Ha|eapply Done; exact E].
  - destruct (n_html_block_type d) as [ty|]; cbn [of_option bind] in E; [|discriminate]. destruct (_ && _); eapply Done; exact E.
Qed.
Theorem descend_col : forall path depth p r q, descend path depth p = Ok (r, q) -> at_col p -> at_col q.
Proof.
  induction path as [|fr path IH]; intros depth p r q E Hp; cbn [descend] in E; [apply Ok_inj in E; injection E as _ <-; exact Hp|].
  destruct (continue_ _ _ _) as [[rv p2]|e] eqn:E1; cbn [bind] in E; [|discriminate]. apply continue_col in E1; [|apply fnn_scanned; exact Hp].
  destruct rv; [eapply IH; eauto| |]; apply Ok_inj in E; injection E as _ <-; exact E1.
Qed.

(** ** Block starts *)
Ltac done_same E Hp := apply Ok_inj in E; injection E as <- <-; split; [apply Hp|intros _; exact Hp].
Definition start_ok (r : start) (q : parser) : Prop := at_col q /\ (r = SNone -> scanned q).
Lemma leaf_ok r q : r <> SNone -> at_col q -> start_ok r q.
Proof. intros H1 H2. split; [exact H2|congruence]. Qed.

Lemma marker_spaces_col : forall f sc p q, marker_spaces f sc p = Ok q -> at_col p -> at_col q /\ p_line q = p_line p /\ (peek (p_line p) (p_offset p) = None -> q = p).
Proof.
  induction f as [|f IH]; intros sc p q E Hp; cbn [marker_spaces] in E; [discriminate|].
  pose proof (adv_col 1 true p Hp) as H1. pose proof (adv_line 1 true p) as H2. destruct (_ && _) eqn:Eb.
  - destruct (IH _ _ _ E H1) as (A & B & C). split; [exact A|]. split; [congruence|]. intros N. assert (X : advance_offset 1 true p = p) by (unfold advance_offset; cbn [advance_loop]; rewrite N; reflexivity).
    rewrite X in *. rewrite N, andb_comm in Eb. discriminate Eb.
  - apply Ok_inj in E as <-. split; [exact H1|]. split; [exact H2|]. intros N. unfold advance_offset. cbn [advance_loop]. rewrite N. reflexivity.
Qed.
Lemma adv_fix p c : peek (p_line p) (p_offset p) = Some c -> advance_offset 1 true (set_p_pct false p) = advance_offset 1 true p.
Proof. intros E. unfold advance_offset. cbn [advance_loop p_line p_offset set_p_pct]. rewrite E. destruct (N.eqb c TAB); reflexivity. Qed.
Lemma plain_code c : StrProp.plain_char c -> code_point c.
Proof. unfold StrProp.plain_char, code_point. lia. Qed.
Lemma parse_list_marker_col c p r q : parse_list_marker c p = Ok (r, q) -> scanned p -> at_col q /\ (r = None -> q = p).
Proof.
  intros E Hp. unfold parse_list_marker in E. assert (Done : Ok (None, p) = Ok (r, q) -> at_col q /\ (r = None -> q = p)) by (intros X; apply Ok_inj in X; injection X as <- <-; split; [apply Hp|reflexivity]).
  destruct (Nat.leb 4 (p_indent p)); [exact (Done E)|]. destruct (list_marker _ _ _) as [[m data]|] eqn:Em; [|exact (Done E)].
  apply (list_marker_ok code_point (fun c (H : StrProp.plain_char c) => plain_code c H) (fun c H => H) (fun _ => True)) in Em as ((rr & Er) & Hne & Htab & _).
  destruct (negb _) eqn:En; [exact (Done E)|]. destruct (_ && _); [exact (Done E)|]. clear Done. pose proof (ann_col p Hp) as Ha.
  set (p1 := advance_offset (length m) true (advance_next_nonspace p)) in *. pose proof (adv_col (length m) true _ Ha : at_col p1) as H1.
  assert (E1 : p1 = mv (p_next_nonspace p + length m) (p_next_nonspace_column p + length m) false (advance_next_nonspace p)) by (apply (advance_nontab m true (advance_next_nonspace p) rr); assumption).
  assert (O1 : p_offset p1 = p_next_nonspace p + length m) by (rewrite E1; reflexivity). assert (L1 : p_line p1 = p_line p) by (rewrite E1; reflexivity). assert (T1 : p_pct p1 = false) by (rewrite E1; reflexivity). clearbody p1. clear E1.
  destruct (marker_spaces 6 _ p1) as [p2|e] eqn:E2; cbn [bind] in E; [|discriminate]. destruct (marker_spaces_col _ _ _ _ E2 H1) as (A & B & C).
  destruct (_ || _); [|apply Ok_inj in E; injection E as <- <-; split; [exact A|discriminate]].
  set (p3 := set_p_offset _ _) in *. match type of E with Ok (_, ?x) = _ => assert (X4 : q = x) by (apply Ok_inj in E; injection E as _ <-; reflexivity); assert (Xr : r <> None) by (apply Ok_inj in E; injection E as <- _; discriminate) end. split; [|congruence]. rewrite X4. clear E X4 Xr.
  assert (H3 : at_col (set_p_pct false p3)). { unfold at_col, p3. cbn [p_line p_offset p_column p_pct set_p_offset set_p_column set_p_pct]. rewrite B. unfold at_col in H1. rewrite T1 in H1. exact H1. }
  destruct (is_space_or_tab (peek (p_line p3) (p_offset p3))) eqn:Es.
  - destruct (peek (p_line p3) (p_offset p3)) as [x|] eqn:Ex; [|discriminate]. rewrite <- (adv_fix p3 x Ex). apply adv_col, H3.
  - unfold p3 in Es. cbn [p_line p_offset set_p_offset set_p_column] in Es. rewrite B, O1, L1 in Es. destruct (peek (p_line p) (p_next_nonspace p + length m)) as [x|] eqn:Ex.
    + cbn [is_space_or_tab] in Es. rewrite orb_comm in Es. rewrite Es in En. discriminate En.
    + assert (X : p2 = p1) by (apply C; rewrite L1, O1; exact Ex). unfold at_col, p3. cbn [p_line p_offset p_column p_pct set_p_offset set_p_column]. rewrite X. exact H1.
Qed.
Lemma start_col f c p r q : In f block_starts -> f c p = Ok (r, q) -> scanned p -> start_ok r q.
Proof.
  intros Hf E Hp. assert (Hc : at_col p) by apply Hp. pose proof (ann_col p Hp) as Ha.
  assert (Done : Ok (SNone, p) = Ok (r, q) -> start_ok r q) by (intros X; apply Ok_inj in X; injection X as <- <-; split; [exact Hc|intros _; exact Hp]).
  repeat (destruct Hf as [<-|Hf]); [..|destruct Hf].
  - unfold start_block_quote in E. destruct (_ && _); [|exact (Done E)]. destruct (close_unmatched_blocks _) as [p3|e] eqn:E3; cbn [bind] in E; [|discriminate]. destruct (add_child _ _ _) as [p4|e] eqn:E4; cbn [bind] in E; [|discriminate].
    apply Ok_inj in E. injection E as <- <-. apply leaf_ok; [discriminate|]. eapply samepos_col; [eapply samepos_trans; [eapply close_unmatched_pos; exact E3|eapply add_child_pos; exact E4]|].
    destruct (is_space_or_tab _); [apply adv_col|]; apply adv_col; exact Ha.
  - unfold start_atx_heading in E. destruct (p_indented p); [exact (Done E)|]. destruct (re_search _ _) as [m|]; [|exact (Done E)].
    destruct (close_unmatched_blocks _) as [p3|e] eqn:E3; cbn [bind] in E; [|discriminate]. destruct (add_child _ _ _) as [p4|e] eqn:E4; cbn [bind] in E; [|discriminate]. destruct (on_tip _ _) as [p5|e] eqn:E5; cbn [bind] in E; [|discriminate].
    apply Ok_inj in E. injection E as <- <-. apply leaf_ok; [discriminate|]. apply end_col. eapply samepos_col; [eapply samepos_trans; [eapply close_unmatched_pos; exact E3|eapply samepos_trans; [eapply add_child_pos; exact E4|eapply on_tip_pos; exact E5]]|]. apply adv_col, Ha.
  - unfold start_fenced_code in E. destruct (p_indented p); [exact (Done E)|]. destruct (re_search _ _) as [m|]; [|exact (Done E)].
    destruct (close_unmatched_blocks _) as [p3|e] eqn:E3; cbn [bind] in E; [|discriminate]. destruct (add_child _ _ _) as [p4|e] eqn:E4; cbn [bind] in E; [|discriminate]. destruct (hd_error _) as [x|]; cbn [of_option bind] in E; [|discriminate]. destruct (on_tip _ _) as [p5|e] eqn:E5; cbn [bind] in E; [|discriminate].
    apply Ok_inj in E. injection E as <- <-. apply leaf_ok; [discriminate|]. apply adv_col, ann_col. eapply samepos_scanned; [eapply samepos_trans; [eapply close_unmatched_pos; exact E3|eapply samepos_trans; [eapply add_child_pos; exact E4|eapply on_tip_pos; exact E5]]|]. exact Hp.
  - unfold start_html_block in E. destruct (_ && _); [|exact (Done E)]. destruct (html_type _ _) as [ty|]; [|exact (Done E)].
    destruct (close_unmatched_blocks _) as [p3|e] eqn:E3; cbn [bind] in E; [|discriminate]. destruct (add_child _ _ _) as [p4|e] eqn:E4; cbn [bind] in E; [|discriminate]. destruct (on_tip _ _) as [p5|e] eqn:E5; cbn [bind] in E; [|discriminate].
    apply Ok_inj in E. injection E as <- <-. apply leaf_ok; [discriminate|]. eapply samepos_col; [eapply samepos_trans; [eapply close_unmatched_pos; exact E3|eapply samepos_trans; [eapply add_child_pos; exact E4|eapply on_tip_pos; exact E5]]|]. exact Hc.
  - unfold start_setext_heading in E. destruct (_ && _); [|exact (Done E)]. destruct (re_search _ _) as [m|]; [|exact (Done E)].
    destruct (close_unmatched_blocks _) as [p3|e] eqn:E3; cbn [bind] in E; [|discriminate]. destruct (tip p3) as [t|e]; cbn [bind] in E; [|discriminate]. destruct (n_string_content _) as [ct|]; cbn [of_option bind] in E; [|discriminate].
    destruct (strip_refs ct p3) as [[[ct' b] p4]|e] eqn:E4; cbn [bind] in E; [|discriminate]. apply strip_refs_pos in E4. apply close_unmatched_pos in E3. pose proof (samepos_trans _ _ _ E3 E4) as S4. destruct (is_nil ct').
    + destruct (on_tip _ _) as [p5|e] eqn:E5; cbn [bind] in E; [|discriminate]. apply Ok_inj in E. injection E as <- <-. apply on_tip_pos in E5. pose proof (samepos_scanned _ _ (samepos_trans _ _ _ S4 E5) Hp) as X. split; [apply X|intros _; exact X].
    + destruct (hd_error _) as [x|]; cbn [of_option bind] in E; [|discriminate]. apply Ok_inj in E. injection E as <- <-. apply leaf_ok; [discriminate|]. apply end_col. eapply samepos_col; [eapply samepos_trans; [exact S4|]|exact Hc]. unfold samepos. auto 10.
  - unfold start_thematic_break in E. destruct (_ && _); [|exact (Done E)].
    destruct (close_unmatched_blocks _) as [p3|e] eqn:E3; cbn [bind] in E; [|discriminate]. destruct (add_child _ _ _) as [p4|e] eqn:E4; cbn [bind] in E; [|discriminate].
    apply Ok_inj in E. injection E as <- <-. apply leaf_ok; [discriminate|]. apply end_col. eapply samepos_col; [eapply samepos_trans; [eapply close_unmatched_pos; exact E3|eapply add_child_pos; exact E4]|exact Hc].
  - unfold start_list_item in E. destruct (_ || _); [|exact (Done E)]. destruct (parse_list_marker c p) as [[data p1]|e] eqn:E1; cbn [bind] in E; [|discriminate].
    destruct (parse_list_marker_col _ _ _ _ E1 Hp) as [A B]. destruct data as [data|]; [|rewrite (B eq_refl) in E; exact (Done E)].
    destruct (close_unmatched_blocks _) as [p3|e] eqn:E3; cbn [bind] in E; [|discriminate]. destruct (tip p3) as [t|e]; cbn [bind] in E; [|discriminate]. apply close_unmatched_pos in E3.
    match type of E with (let* p3 := ?x in _) = _ => destruct x as [p4|e] eqn:E4; cbn [bind] in E; [|discriminate] end.
    assert (S4 : samepos p3 p4). { destruct (_ || _) in E4; [|apply Ok_inj in E4 as <-; apply samepos_refl]. destruct (add_child _ _ _) as [p5|e] eqn:E5; cbn [bind] in E4; [|discriminate]. eapply samepos_trans; [eapply add_child_pos; exact E5|eapply on_tip_pos; exact E4]. }
    clear E4.
    destruct (add_child _ _ _) as [p5|e] eqn:E5; cbn [bind] in E; [|discriminate]. destruct (on_tip _ _) as [p6|e] eqn:E6; cbn [bind] in E; [|discriminate]. apply Ok_inj in E. injection E as <- <-. apply leaf_ok; [discriminate|].
    eapply samepos_col; [|exact A]. eapply samepos_trans; [exact E3|]. eapply samepos_trans; [exact S4|]. eapply samepos_trans; [eapply add_child_pos; exact E5|eapply on_tip_pos; exact E6].
  - unfold start_indented_code in E. destruct (tip p) as [t|e]; cbn [bind] in E; [|discriminate]. destruct (_ && _); [|exact (Done E)].
    destruct (close_unmatched_blocks _) as [p3|e] eqn:E3; cbn [bind] in E; [|discriminate]. destruct (add_child _ _ _) as [p4|e] eqn:E4; cbn [bind] in E; [|discriminate].
    apply Ok_inj in E. injection E as <- <-. apply leaf_ok; [discriminate|]. eapply samepos_col; [eapply samepos_trans; [eapply close_unmatched_pos; exact E3|eapply add_child_pos; exact E4]|]. apply adv_col, Hc.
Qed.
Lemma try_starts_col c : forall l p r q, (forall f, In f l -> In f block_starts) -> try_starts l c p = Ok (r, q) -> scanned p -> start_ok r q.
Proof.
  induction l as [|f l IH]; intros p r q Hl E Hp; cbn [try_starts] in E; [apply Ok_inj in E; injection E as <- <-; split; [apply Hp|intros _; exact Hp]|].
  destruct (f c p) as [[r1 p1]|e] eqn:E1; cbn [bind] in E; [|discriminate]. destruct (start_col f c p r1 p1 (Hl f (or_introl eq_refl)) E1 Hp) as [A B].
  destruct r1; [eapply IH; [|exact E|apply B; reflexivity]; intros g Hg; apply Hl; right; exact Hg| |]; apply Ok_inj in E; injection E as <- <-; split; [exact A|congruence|exact A|congruence].
Qed.
Theorem starts_loop_col : forall fu depth p r q, starts_loop fu depth p = Ok (r, q) -> at_col p -> at_col q.
Proof.
  induction fu as [|fu IH]; intros depth p r q E Hp; cbn [starts_loop] in E; [discriminate|]. pose proof (fnn_scanned p Hp) as H1.
  destruct (_ && _); [apply Ok_inj in E; injection E as _ <-; apply ann_col; exact H1|].
  destruct (block_at _ _) as [c|e]; cbn [bind] in E; [|discriminate]. destruct (try_starts _ _ _) as [[s p2]|e] eqn:E2; cbn [bind] in E; [|discriminate].
  destruct (try_starts_col _ _ _ _ _ (fun f H => H) E2 H1) as [A B]. destruct s.
  - apply Ok_inj in E. injection E as _ <-. apply ann_col, B. reflexivity.
  - eapply IH; eauto.
  - apply Ok_inj in E. injection E as _ <-. exact A.
Qed.
Lemma line_start_column l p : at_col (Sim.line_start l p).
Proof. unfold at_col, at_column. cbn. split; [lia|reflexivity]. Qed.
