(** * What is known at the end of every line: which blocks may have ended on it, and the notes about
    blank lines above an open paragraph *)
From Verif Require Import Base Regex Common NormRef Node Inlines Blocks RegexFacts StrFacts StrProp Spec SpecTree TreeFacts
  InlineFacts InlineInv BlockFacts BlockInv BlockSteps BlockRun Html Main JoinFacts Sim.
From Coq Require Import ZifyBool ZifyNat ZifyN.

(** ** The tip after a start *)
Definition top_is (t : ntype) (p : parser) : Prop := exists fr st, p_stack p = fr :: st /\ f_type fr = t.
Lemma add_child_top tag o p q : add_child tag o p = Ok q -> top_is tag q.
Proof.
  unfold add_child. destruct (make_room _ tag p) as [p1|e]; [|discriminate]. cbn [bind]. intros H. apply Ok_inj in H as <-.
  eexists. eexists. split; reflexivity.
Qed.
Lemma on_tip_top g t p q : (forall d, n_t (g d) = n_t d) -> top_is t p -> on_tip g p = Ok q -> top_is t q.
Proof.
  intros Hg (fr & st & E & Ht). unfold on_tip. rewrite E. intros H. apply Ok_inj in H as <-. eexists. eexists. split; [reflexivity|].
  unfold f_type, set_f_data. cbn [f_data]. rewrite Hg. exact Ht.
Qed.
Lemma top_stack t p q : p_stack q = p_stack p -> top_is t p -> top_is t q.
Proof. intros E (fr & st & H). exists fr, st. rewrite E. exact H. Qed.
Definition opened_type (r : start) (t : ntype) : Prop :=
  match r with SNone => True | SContainer => t = block_quote \/ t = item | SLeaf => t = heading \/ t = code_block \/ t = html_block \/ t = thematic_break end.
Definition opens (f : ntype -> parser -> res (start * parser)) : Prop :=
  forall c p r q, f c p = Ok (r, q) -> r = SNone \/ exists t, opened_type r t /\ top_is t q.
Ltac ok_pair H := apply Ok_inj in H; injection H as <- <-.
Lemma advance_to_end_stack p : p_stack (advance_to_end p) = p_stack p.
Proof. unfold advance_to_end. match goal with |- p_stack (advance_offset ?n ?b ?x) = _ => destruct (advance_offset_mv n b x) as (o & k & b' & -> & _) end. reflexivity. Qed.
Lemma opens_quote : opens (fun _ : ntype => start_block_quote).
Proof.
  intros c p r q. unfold start_block_quote. destruct (_ && _); [|intros H; ok_pair H; left; reflexivity]. 
  destruct (close_unmatched_blocks _) as [p3|e]; [|discriminate]. cbn [bind]. destruct (add_child _ _ p3) as [p4|e] eqn:E; [|discriminate]. cbn [bind].
  intros H. ok_pair H. right. exists block_quote. split; [left; reflexivity|]. apply (add_child_top _ _ _ _ E).
Qed.
Lemma opens_atx : opens (fun _ : ntype => start_atx_heading).
Proof.
  intros c p r q. unfold start_atx_heading. destruct (p_indented p); [intros H; ok_pair H; left; reflexivity|]. destruct (re_search _ _) as [m|]; [|intros H; ok_pair H; left; reflexivity].
  destruct (close_unmatched_blocks _) as [p3|e]; [|discriminate]. cbn [bind]. destruct (add_child _ _ p3) as [p4|e] eqn:E; [|discriminate]. cbn [bind].
  destruct (on_tip _ p4) as [p5|e] eqn:E2; [|discriminate]. cbn [bind]. intros H. ok_pair H. right. exists heading. split; [left; reflexivity|].
  apply (top_stack _ p5); [apply advance_to_end_stack|]. eapply on_tip_top; [|apply (add_child_top _ _ _ _ E)|exact E2]. reflexivity.
Qed.
Lemma opens_fenced : opens (fun _ : ntype => start_fenced_code).
Proof.
  intros c p r q. unfold start_fenced_code. destruct (p_indented p); [intros H; ok_pair H; left; reflexivity|]. destruct (re_search _ _) as [m|]; [|intros H; ok_pair H; left; reflexivity]. cbn zeta.
  destruct (close_unmatched_blocks _) as [p3|e]; [|discriminate]. cbn [bind]. destruct (add_child _ _ p3) as [p4|e] eqn:E; [|discriminate]. cbn [bind].
  destruct (of_option _ _) as [x|e]; [|discriminate]. cbn [bind].
  destruct (on_tip _ p4) as [p5|e] eqn:E2; [|discriminate]. cbn [bind]. intros H. ok_pair H. right. exists code_block. split; [right; left; reflexivity|].
  assert (G : top_is code_block p5) by (eapply on_tip_top; [|apply (add_child_top _ _ _ _ E)|exact E2]; reflexivity).
  apply (top_stack _ p5); [|exact G]. rewrite advance_next_nonspace_mv. match goal with |- p_stack (advance_offset ?n ?b ?x) = _ => destruct (advance_offset_mv n b x) as (o & k & b' & -> & _) end. reflexivity.
Qed.
Lemma opens_html : opens start_html_block.
Proof.
  intros c p r q. unfold start_html_block. destruct (_ && _); [|intros H; ok_pair H; left; reflexivity]. destruct (html_type _ _) as [ty|]; [|intros H; ok_pair H; left; reflexivity].
  destruct (close_unmatched_blocks _) as [p3|e]; [|discriminate]. cbn [bind]. destruct (add_child _ _ p3) as [p4|e] eqn:E; [|discriminate]. cbn [bind].
  destruct (on_tip _ p4) as [p5|e] eqn:E2; [|discriminate]. cbn [bind]. intros H. ok_pair H. right. exists html_block. split; [right; right; left; reflexivity|].
  eapply on_tip_top; [|apply (add_child_top _ _ _ _ E)|exact E2]. reflexivity.
Qed.
Lemma opens_setext : opens start_setext_heading.
Proof.
  intros c p r q. unfold start_setext_heading. destruct (_ && _); [|intros H; ok_pair H; left; reflexivity]. destruct (re_search _ _) as [m|]; [|intros H; ok_pair H; left; reflexivity].
  destruct (close_unmatched_blocks _) as [p3|e]; [|discriminate]. cbn [bind]. destruct (tip p3) as [t|e]; [|discriminate]. cbn [bind]. destruct (of_option _ (n_string_content _)) as [sc|e]; [|discriminate]. cbn [bind].
  destruct (strip_refs sc p3) as [[[c' f] p4]|e]; [|discriminate]. cbn [bind]. destruct (is_nil c').
  - destruct (on_tip _ p4) as [p5|e]; [|discriminate]. cbn [bind]. intros H. ok_pair H. left. reflexivity.
  - destruct (of_option _ _) as [x|e]; [|discriminate]. cbn [bind]. intros H. ok_pair H. right. exists heading. split; [left; reflexivity|].
    eexists. eexists. split; [rewrite advance_to_end_stack; reflexivity|reflexivity].
Qed.
Lemma opens_thematic : opens (fun _ : ntype => start_thematic_break).
Proof.
  intros c p r q. unfold start_thematic_break. destruct (_ && _); [|intros H; ok_pair H; left; reflexivity].
  destruct (close_unmatched_blocks _) as [p3|e]; [|discriminate]. cbn [bind]. destruct (add_child _ _ p3) as [p4|e] eqn:E; [|discriminate]. cbn [bind].
  intros H. ok_pair H. right. exists thematic_break. split; [right; right; right; reflexivity|]. apply (top_stack _ p4); [apply advance_to_end_stack|]. apply (add_child_top _ _ _ _ E).
Qed.
Lemma opens_list : opens start_list_item.
Proof.
  intros c p r q. unfold start_list_item. destruct (_ || _); [|intros H; ok_pair H; left; reflexivity]. destruct (parse_list_marker c p) as [[[data|] p1]|e]; [| |discriminate]; cbn [bind]; [|intros H; ok_pair H; left; reflexivity].
  destruct (close_unmatched_blocks _) as [p3|e]; [|discriminate]. cbn [bind]. destruct (tip p3) as [t|e]; [|discriminate]. cbn [bind].
  match goal with |- context[bind (if ?b then ?x else ?y)] => destruct (if b then x else y) as [p4|e]; [|discriminate] end. cbn [bind].
  destruct (add_child _ _ p4) as [p5|e] eqn:E; [|discriminate]. cbn [bind]. destruct (on_tip _ p5) as [p6|e] eqn:E2; [|discriminate]. cbn [bind].
  intros H. ok_pair H. right. exists item. split; [right; reflexivity|]. eapply on_tip_top; [|apply (add_child_top _ _ _ _ E)|exact E2]. reflexivity.
Qed.
Lemma opens_indented : opens (fun _ : ntype => start_indented_code).
Proof.
  intros c p r q. unfold start_indented_code. destruct (tip p) as [t|e]; [|discriminate]. cbn [bind]. destruct (_ && _); [|intros H; ok_pair H; left; reflexivity].
  destruct (close_unmatched_blocks _) as [p3|e]; [|discriminate]. cbn [bind]. destruct (add_child _ _ p3) as [p4|e] eqn:E; [|discriminate]. cbn [bind].
  intros H. ok_pair H. right. exists code_block. split; [right; left; reflexivity|]. apply (add_child_top _ _ _ _ E).
Qed.
Lemma opens_try : forall l, Forall opens l -> forall c p r q, try_starts l c p = Ok (r, q) -> r = SNone \/ exists t, opened_type r t /\ top_is t q.
Proof.
  induction 1 as [|f l Hf _ IH]; intros c p r q; cbn [try_starts]; [intros H; ok_pair H; left; reflexivity|].
  destruct (f c p) as [[x p1]|e] eqn:E; [|discriminate]. cbn [bind]. apply Hf in E. destruct x; [apply IH| |]; intros H; ok_pair H; exact E.
Qed.
Lemma opens_starts c p r q : try_starts block_starts c p = Ok (r, q) -> r = SNone \/ exists t, opened_type r t /\ top_is t q.
Proof.
  apply opens_try. unfold block_starts.
  exact (Forall_cons _ opens_quote (Forall_cons _ opens_atx (Forall_cons _ opens_fenced (Forall_cons _ opens_html (Forall_cons _ opens_setext (Forall_cons _ opens_thematic (Forall_cons _ opens_list (Forall_cons _ opens_indented (Forall_nil _))))))))).
Qed.

(** ** What a failed start leaves *)
Definition flags (p : parser) : list (ntype * bool) := map (fun fr => (f_type fr, n_last_line_blank (f_data fr))) (p_stack p).
Definition kept (p q : parser) : Prop :=
  (p_all_closed p = true -> flags q = flags p /\ p_all_closed q = true) /\ (p_all_closed q = false -> flags q = flags p).
Lemma kept_refl p : kept p p.
Proof. split; [intros H; split; [reflexivity|exact H]|reflexivity]. Qed.
Lemma kept_trans a b c : kept a b -> kept b c -> kept a c.
Proof.
  intros [H1 H2] [H3 H4]. split.
  - intros H. destruct (H1 H) as [G1 G2]. destruct (H3 G2) as [G3 G4]. split; [congruence|exact G4].
  - intros H. pose proof (H4 H) as G. destruct (p_all_closed b) eqn:E; [destruct (H3 eq_refl) as [_ X]; congruence|]. rewrite G. apply H2. reflexivity.
Qed.
Lemma strip_refs_stack c p c' f q : strip_refs c p = Ok (c', f, q) -> p_stack q = p_stack p /\ p_all_closed q = p_all_closed p.
Proof.
  unfold strip_refs. destruct (ref_loop _ _ _ _ _) as [[[[a b] s] rm]|e]; [|discriminate]. cbn [bind]. intros H. apply Ok_inj in H. injection H as _ _ <-. split; reflexivity.
Qed.
Lemma close_closed p q : close_unmatched_blocks p = Ok q -> p_all_closed q = true /\ (p_all_closed p = true -> q = p).
Proof.
  unfold close_unmatched_blocks. destruct (p_all_closed p) eqn:E.
  - intros H. apply Ok_inj in H as <-. split; [exact E|reflexivity].
  - destruct (close_loop _ p) as [p1|e]; [|discriminate]. cbn [bind]. intros H. apply Ok_inj in H as <-. split; [reflexivity|discriminate].
Qed.
Lemma on_tip_flags g p q : (forall d, n_t (g d) = n_t d /\ n_last_line_blank (g d) = n_last_line_blank d) -> on_tip g p = Ok q -> flags q = flags p /\ p_all_closed q = p_all_closed p.
Proof.
  intros Hg. unfold on_tip. destruct (p_stack p) as [|fr st] eqn:E; [discriminate|]. intros H. apply Ok_inj in H as <-. split; [|reflexivity].
  unfold flags. rewrite E. cbn [p_stack set_p_stack map]. unfold f_type, set_f_data. cbn [f_data]. destruct (Hg (f_data fr)) as [-> ->]. reflexivity.
Qed.
Definition none_keeps (f : ntype -> parser -> res (start * parser)) : Prop := forall c p q, f c p = Ok (SNone, q) -> kept p q.
Ltac same_none := intros H; apply Ok_inj in H; injection H as <-; apply kept_refl.
Lemma none_quote : none_keeps (fun _ : ntype => start_block_quote).
Proof.
  intros c p q. unfold start_block_quote. destruct (_ && _); [|same_none]. destruct (close_unmatched_blocks _); [|discriminate]. cbn [bind]. destruct (add_child _ _ _); [|discriminate]. cbn [bind]. intros H. discriminate.
Qed.
Lemma none_atx : none_keeps (fun _ : ntype => start_atx_heading).
Proof.
  intros c p q. unfold start_atx_heading. destruct (p_indented p); [same_none|]. destruct (re_search _ _); [|same_none].
  destruct (close_unmatched_blocks _); [|discriminate]. cbn [bind]. destruct (add_child _ _ _); [|discriminate]. cbn [bind]. destruct (on_tip _ _); [|discriminate]. cbn [bind]. intros H. discriminate.
Qed.
Lemma none_fenced : none_keeps (fun _ : ntype => start_fenced_code).
Proof.
  intros c p q. unfold start_fenced_code. destruct (p_indented p); [same_none|]. destruct (re_search _ _); [|same_none]. cbn zeta.
  destruct (close_unmatched_blocks _); [|discriminate]. cbn [bind]. destruct (add_child _ _ _); [|discriminate]. cbn [bind]. destruct (of_option _ _); [|discriminate]. cbn [bind]. destruct (on_tip _ _); [|discriminate]. cbn [bind]. intros H. discriminate.
Qed.
Lemma none_html : none_keeps start_html_block.
Proof.
  intros c p q. unfold start_html_block. destruct (_ && _); [|same_none]. destruct (html_type _ _); [|same_none].
  destruct (close_unmatched_blocks _); [|discriminate]. cbn [bind]. destruct (add_child _ _ _); [|discriminate]. cbn [bind]. destruct (on_tip _ _); [|discriminate]. cbn [bind]. intros H. discriminate.
Qed.
Lemma none_setext : none_keeps start_setext_heading.
Proof.
  intros c p q. unfold start_setext_heading. destruct (_ && _); [|same_none]. destruct (re_search _ _); [|same_none].
  destruct (close_unmatched_blocks p) as [p1|e] eqn:E1; [|discriminate]. cbn [bind]. destruct (tip p1); [|discriminate]. cbn [bind]. destruct (of_option _ (n_string_content _)); [|discriminate]. cbn [bind].
  destruct (strip_refs _ p1) as [[[c' f'] p2]|e] eqn:E2; [|discriminate]. cbn [bind]. destruct (is_nil c').
  - destruct (on_tip _ p2) as [p3|e] eqn:E3; [|discriminate]. cbn [bind]. intros H. apply Ok_inj in H. injection H as <-.
    apply close_closed in E1 as [C1 C2]. apply strip_refs_stack in E2 as [S1 S2]. apply on_tip_flags in E3 as [T1 T2]; [|intros d; split; reflexivity].
    split; [|intros H; congruence]. intros H. rewrite (C2 H) in *. split; [|congruence]. rewrite T1. unfold flags. rewrite S1. reflexivity.
  - destruct (of_option _ _); [|discriminate]. cbn [bind]. intros H. discriminate.
Qed.
Lemma none_thematic : none_keeps (fun _ : ntype => start_thematic_break).
Proof.
  intros c p q. unfold start_thematic_break. destruct (_ && _); [|same_none].
  destruct (close_unmatched_blocks _); [|discriminate]. cbn [bind]. destruct (add_child _ _ _); [|discriminate]. cbn [bind]. intros H. discriminate.
Qed.
Lemma no_marker_same c p q : parse_list_marker c p = Ok (None, q) -> q = p.
Proof.
  unfold parse_list_marker. destruct (Nat.leb _ _); [intros H; apply Ok_inj in H; injection H as <-; reflexivity|]. destruct (list_marker _ _ _) as [[m d]|]; [|intros H; apply Ok_inj in H; injection H as <-; reflexivity].
  destruct (negb _); [intros H; apply Ok_inj in H; injection H as <-; reflexivity|]. destruct (_ && _); [intros H; apply Ok_inj in H; injection H as <-; reflexivity|].
  destruct (marker_spaces _ _ _); [|discriminate]. cbn [bind]. destruct (_ || _); intros H; discriminate.
Qed.
Lemma none_list : none_keeps start_list_item.
Proof.
  intros c p q. unfold start_list_item. destruct (_ || _); [|same_none]. destruct (parse_list_marker c p) as [[[data|] p1]|e] eqn:E; [| |discriminate]; cbn [bind].
  2:{ apply no_marker_same in E as ->. same_none. }
  destruct (close_unmatched_blocks _); [|discriminate]. cbn [bind]. destruct (tip _); [|discriminate]. cbn [bind].
  match goal with |- context[bind (if ?b then ?x else ?y)] => destruct (if b then x else y) as [p4|e]; [|discriminate] end. cbn [bind].
  destruct (add_child _ _ p4); [|discriminate]. cbn [bind]. destruct (on_tip _ _); [|discriminate]. cbn [bind]. intros H. discriminate.
Qed.
Lemma none_indented : none_keeps (fun _ : ntype => start_indented_code).
Proof.
  intros c p q. unfold start_indented_code. destruct (tip p); [|discriminate]. cbn [bind]. destruct (_ && _); [|same_none].
  destruct (close_unmatched_blocks _); [|discriminate]. cbn [bind]. destruct (add_child _ _ _); [|discriminate]. cbn [bind]. intros H. discriminate.
Qed.
Lemma none_try : forall l, Forall none_keeps l -> forall c p q, try_starts l c p = Ok (SNone, q) -> kept p q.
Proof.
  induction 1 as [|f l Hf _ IH]; intros c p q; cbn [try_starts]; [same_none|].
  destruct (f c p) as [[x p1]|e] eqn:E; [|discriminate]. cbn [bind]. destruct x; [|discriminate|discriminate]. apply Hf in E. intros H. apply (kept_trans _ _ _ E), (IH _ _ _ H).
Qed.
Lemma none_starts c p q : try_starts block_starts c p = Ok (SNone, q) -> kept p q.
Proof.
  apply none_try. unfold block_starts.
  exact (Forall_cons _ none_quote (Forall_cons _ none_atx (Forall_cons _ none_fenced (Forall_cons _ none_html (Forall_cons _ none_setext (Forall_cons _ none_thematic (Forall_cons _ none_list (Forall_cons _ none_indented (Forall_nil _))))))))).
Qed.
Lemma flags_top p q t : flags q = flags p -> top_is t p -> top_is t q.
Proof.
  intros E (fr & st & Es & Ht). unfold flags in E. rewrite Es in E. cbn [map] in E. destruct (p_stack q) as [|fr' st'] eqn:Eq; [discriminate|]. cbn [map] in E.
  injection E as E _ _. exists fr', st'. split; [exact Eq|]. congruence.
Qed.

(** ** Frames without the note about a blank line *)
Definition quiet (p : parser) : Prop := Forall (fun fr => n_last_line_blank (f_data fr) = false) (p_stack p).
Lemma quiet_flags p q : flags q = flags p -> quiet p -> quiet q.
Proof.
  unfold flags, quiet. intros E H. assert (G : Forall (fun x : ntype * bool => snd x = false) (map (fun fr => (f_type fr, n_last_line_blank (f_data fr))) (p_stack q))).
  { rewrite E. apply Forall_map. exact H. }
  apply Forall_map in G. exact G.
Qed.
Lemma quiet_attach t p : quiet p -> quiet (attach t p).
Proof.
  unfold quiet, attach. destruct (p_stack p) as [|fr st] eqn:E; intros H; [cbn; rewrite E; constructor|]. cbn [p_stack set_p_stack]. inversion H; subst. constructor; assumption.
Qed.
Lemma quiet_finalize a p q : finalize_tip a p = Ok q -> quiet p -> quiet q.
Proof.
  unfold finalize_tip. intros H Hq. assert (G : quiet (set_p_stack (tl (p_stack p)) p)). { unfold quiet in *. cbn [p_stack set_p_stack]. destruct (p_stack p); [constructor|]. inversion Hq; subst. assumption. }
  destruct (p_stack p) as [|fr st]; [discriminate|]. cbn [tl] in G. destruct (of_option TypeError _) as [[sp0 x]|e]; [|discriminate]. cbn [bind] in H. set (d := set_n_sourcepos _ _) in *. clearbody d.
  destruct (n_t d); try discriminate H; try (apply Ok_inj in H as <-; apply quiet_attach; exact G).
  - destruct (finalize_list d (f_kids fr)) as [d' items]. apply Ok_inj in H as <-. apply quiet_attach; exact G.
  - destruct (finalize_paragraph d _) as [[[d' gone] p1]|e] eqn:E; [|discriminate]. cbn [bind] in H. apply Ok_inj in H as <-.
    assert (G1 : quiet p1). { unfold finalize_paragraph in E. destruct (of_option _ _) as [c|e]; [|discriminate]. cbn [bind] in E. destruct (strip_refs c _) as [[[c' f] p2]|e] eqn:E2; [|discriminate]. cbn [bind] in E.
      apply Ok_inj in E. injection E as _ _ <-. apply strip_refs_stack in E2 as [E2 _]. unfold quiet. rewrite E2. exact G. }
    destruct gone; [exact G1|apply quiet_attach; exact G1].
  - destruct (finalize_code d) as [d'|e]; [|discriminate]. cbn [bind] in H. apply Ok_inj in H as <-. apply quiet_attach; exact G.
  - destruct (finalize_html d) as [d'|e]; [|discriminate]. cbn [bind] in H. apply Ok_inj in H as <-. apply quiet_attach; exact G.
Qed.
Lemma quiet_room : forall f tag p q, make_room f tag p = Ok q -> quiet p -> quiet q.
Proof.
  induction f as [|f IH]; intros tag p q; cbn [make_room]; [discriminate|]. destruct (tip p); [|discriminate]. cbn [bind]. destruct (can_contain _ _) as [[|]|e]; [| |discriminate]; cbn [bind].
  - intros H. apply Ok_inj in H as <-. auto.
  - destruct (finalize_tip _ p) as [p1|e] eqn:E; [|discriminate]. cbn [bind]. intros H Hq. apply (IH _ _ _ H), (quiet_finalize _ _ _ E Hq).
Qed.
Lemma quiet_child tag off p q : add_child tag off p = Ok q -> quiet p -> quiet q.
Proof.
  unfold add_child. destruct (make_room _ tag p) as [p1|e] eqn:E; [|discriminate]. cbn [bind]. intros H Hq. apply Ok_inj in H as <-. unfold quiet. cbn [p_stack set_p_stack]. constructor; [reflexivity|]. apply (quiet_room _ _ _ _ E Hq).
Qed.

(** ** Looking again for the first character *)
Lemma find_next_same p q : p_offset q = p_offset p -> p_column q = p_column p -> p_line q = p_line p -> p_blank (find_next_nonspace q) = p_blank (find_next_nonspace p).
Proof. intros H1 H2 H3. unfold find_next_nonspace, rest_offset. rewrite H1, H2, H3. destruct (skip_spaces _ _ _) as [i c]. reflexivity. Qed.
Lemma find_next_again p : p_blank (find_next_nonspace (find_next_nonspace p)) = p_blank (find_next_nonspace p).
Proof.
  apply find_next_same; unfold find_next_nonspace; destruct (skip_spaces _ _ _); reflexivity.
Qed.
Lemma descend_full : forall path depth p q fr l, path = l ++ [fr] -> f_type fr = paragraph -> descend path depth p = Ok (Some (depth + length path), q) -> p_blank (find_next_nonspace q) = false.
Proof.
  induction path as [|x path IH]; intros depth p q fr l E Ht; [destruct l; discriminate|]. cbn [descend]. destruct l as [|y l].
  - injection E as -> ->. cbn [is_nil negb]. unfold continue_. unfold f_type in Ht. rewrite Ht. cbn [bind]. destruct (p_blank (find_next_nonspace p)) eqn:Eb.
    + intros H. apply Ok_inj in H. injection H as H _. cbn [length] in H. lia.
    + cbn [descend]. intros H. apply Ok_inj in H. injection H as _ <-. rewrite find_next_again. exact Eb.
  - injection E as <- ->. destruct (continue_ _ _ _) as [[r p2]|e]; [|discriminate]. cbn [bind]. destruct r.
    + intros H. eapply (IH (S depth) p2 q fr l eq_refl Ht). rewrite H. do 3 f_equal. cbn [length]. lia.
    + intros H. apply Ok_inj in H. injection H as H _. cbn [length] in H. lia.
    + discriminate.
Qed.

(** ** Paragraphs that ended before a line *)
Definition para_le (m : nat) : tree -> Prop := tree_every (fun t => t_type t = paragraph -> last_line (t_data t) <= m).
Lemma block_holds_leaf t x : (t = code_block \/ t = html_block \/ t = paragraph) -> block_holds t x = true -> False.
Proof. intros [->|[->| ->]]; discriminate. Qed.
Section L.
  Variable Q : N -> Prop.
  Hypothesis HQ : forall c, plain_char c -> Q c.
  Hypothesis HQc : forall c, Q c -> code_point c.
  Variable A : str -> Prop.
  Notation Qs := (Qs Q).
  Notation refs_ok := (refs_in Q A).
  Notation ok_str := (ok_str Q A).
  Notation open_data := (open_data Q A).
  Notation closed := (closed Q A).
  Notation kid_ok := (kid_ok Q A).
  Notation fr_ok := (fr_ok Q A).
  Notation stack_ok := (stack_ok Q A).
  Notation core := (core Q A).
  Notation mid := (mid Q A).
  Notation leafy := (leafy Q A).
  Notation ready := (ready A).
  Notation tip_ok := (tip_ok A).
  Notation between := (between Q A).
  Notation pre := (pre Q A).

  Lemma closed_para m : forall t, closed t -> last_line (t_data t) <= m -> para_le m t.
  Proof.
    unfold BlockInv.closed, para_le. induction t as [d kids IH] using tree_ind'. intros Hc Hl. apply tree_every_unfold in Hc as [(_ & _ & _ & _ & _ & _ & Hk & _) Hc].
    apply tree_every_unfold. split; [intros _; exact Hl|]. cbn [t_data] in Hl. clear -IH Hk Hc Hl. induction IH as [|x l Hx _ IHl]; [constructor|].
    inversion Hc; subst. inversion Hk as [|y l' [_ [_ H]] Hk']; subst. constructor; [apply Hx; [assumption|lia]|auto].
  Qed.
  Definition paras (m : nat) (st : list frame) : Prop := Forall (fun fr => Forall (para_le m) (f_kids fr)) st.
  Lemma stack_paras m st : stack_ok m st -> paras m st.
  Proof.
    intros H. apply stack_ok_all in H. unfold paras. eapply Forall_impl; [|exact H]. intros fr [_ Hk]. eapply Forall_impl; [|exact Hk]. intros k (K1 & _ & _ & K2). apply closed_para; assumption.
  Qed.
  Definition edge (n : nat) (p : parser) : Prop := between n p /\ paras (n - 1) (p_stack p) /\ (top_is paragraph p -> quiet p).

  (** closing a code block or an HTML block *)
  Lemma leaf_kids E fr : fr_ok E fr -> (f_type fr = code_block \/ f_type fr = html_block \/ f_type fr = paragraph) -> f_kids fr = [].
  Proof. intros [_ Hk] Ht. destruct (f_kids fr) as [|k l]; [reflexivity|]. inversion Hk as [|x y (_ & Hh & _)]; subst. destruct (block_holds_leaf _ _ Ht Hh). Qed.
  Lemma literal_edge n p q fr par st : p_stack p = fr :: par :: st -> stack_ok (n - 1) (fr :: par :: st) -> starts_le n (fr :: par :: st) -> ready fr -> refs_ok (p_refmap p) -> p_line_number p = n -> 1 <= n ->
    f_type fr = code_block \/ f_type fr = html_block -> finalize_tip n p = Ok q -> edge n q.
  Proof.
    intros Es H1 H2 H3 H4 H5 Hn Ht Ef. split; [|split].
    - pose proof (finalize_tip_spec Q HQ HQc A n (n - 1) p _ _ Es H1 ltac:(lia) ltac:(eapply first_le; eassumption) H3 H4) as G. rewrite Ef in G. eapply closes_between; eassumption.
    - pose proof (stack_paras _ _ H1) as Hp. pose proof (leaf_kids _ _ (stack_ok_hd _ _ _ _ _ H1) ltac:(tauto)) as Ek.
      unfold finalize_tip in Ef. rewrite Es in Ef. destruct (of_option TypeError _) as [[sp0 x]|e]; [|discriminate]. cbn [bind] in Ef. cbn [n_t set_n_sourcepos set_n_is_open] in Ef. unfold f_type in Ht. rewrite Ek in Ef.
      assert (G : forall d', n_t d' <> paragraph -> paras (n - 1) (p_stack (attach (T d' []) (set_p_stack (par :: st) p)))).
      { intros d' Hd. unfold attach. cbn [p_stack set_p_stack]. inversion Hp as [|a b Hp1 Hp2]; subst. inversion Hp2 as [|a b Hp3 Hp4]; subst. constructor; [|exact Hp4]. cbn [f_kids]. apply Forall_app. split; [exact Hp3|].
        constructor; [|constructor]. apply tree_every_unfold. split; [intros X; destruct (Hd X)|constructor]. }
      destruct Ht as [Ht|Ht]; rewrite Ht in Ef.
      + destruct (finalize_code _) as [d'|e] eqn:Ec; [|discriminate]. cbn [bind] in Ef. apply Ok_inj in Ef as <-. apply G.
        unfold finalize_code in Ec. destruct (of_option _ _); [|discriminate]. cbn [bind] in Ec. destruct (n_is_fenced _); [destruct (of_option _ _); [|discriminate]; cbn [bind] in Ec|]; apply Ok_inj in Ec as <-; cbn; rewrite Ht; discriminate.
      + destruct (finalize_html _) as [d'|e] eqn:Ec; [|discriminate]. cbn [bind] in Ef. apply Ok_inj in Ef as <-. apply G.
        unfold finalize_html in Ec. destruct (of_option _ _); [|discriminate]. cbn [bind] in Ec. apply Ok_inj in Ec as <-; cbn; rewrite Ht; discriminate.
    - pose proof (finalize_tip_spec Q HQ HQc A n (n - 1) p _ _ Es H1 ltac:(lia) ltac:(eapply first_le; eassumption) H3 H4) as G. rewrite Ef in G. destruct G as (_ & _ & _ & extra & G & _).
      intros (fr' & st' & E' & Ht'). rewrite G in E'. injection E' as <- <-. exfalso. destruct H1 as [_ [Hh _]]. change (f_type par = paragraph) in Ht'. rewrite Ht' in Hh. discriminate.
  Qed.
  Lemma core_edge n p : core n p -> tip_ok p -> (top_is paragraph p -> quiet p) -> edge n p.
  Proof. intros H1 H2 H3. split; [apply core_between; assumption|]. split; [|exact H3]. apply stack_paras, H1. Qed.

  (** the descent that closes a fence *)
  Lemma continue_done n fr rest dn hc p q : pre n p -> posok p -> rev (p_stack p) = dn ++ fr :: rest -> dn <> [] -> continue_ (f_data fr) hc p = Ok (CDone, q) -> edge n q.
  Proof.
    intros (H1 & H2 & H3 & H4 & H5 & H6 & H7 & H8) _ E Hdn.
    assert (Es : p_stack p = rev rest ++ fr :: rev dn) by (rewrite <- (rev_involutive (p_stack p)), E, rev_app_distr; cbn [rev]; rewrite <- app_assoc; reflexivity).
    unfold continue_. destruct (n_t (f_data fr)) eqn:Et; try discriminate.
    - destruct (_ && _); discriminate.
    - destruct (p_blank p); [destruct hc; discriminate|]. destruct (item_indent _); [|discriminate]. cbn [bind]. destruct (Nat.leb _ _); discriminate.
    - destruct (p_blank p); discriminate.
    - destruct (n_is_fenced (f_data fr)); [|destruct (Nat.leb _ _); [discriminate|]; destruct (p_blank p); discriminate].
      match goal with |- context[if ?b then re_search ?r ?x else None] => destruct (if b then re_search r x else None) as [m|] end; [|destruct (of_option _ _); [|discriminate]; cbn [bind]; discriminate].
      destruct (Nat.leb _ _); [|destruct (of_option _ _); [|discriminate]; cbn [bind]; discriminate].
      destruct (finalize_tip _ p) as [q'|e] eqn:Ef; [|discriminate]. cbn [bind]. intros H. apply Ok_inj in H. injection H as <-.
      assert (Hrest : rest = []).
      { destruct rest as [|x rest]; [reflexivity|]. exfalso. cbn [rev] in Es. rewrite <- app_assoc in Es. cbn [app] in Es. rewrite Es in H1. apply stack_holds in H1. unfold f_type in H1. rewrite Et in H1. discriminate. }
      subst rest. cbn [rev app] in Es. unfold BlockInv.tip_ok in H3. rewrite Es in H1, H2, H3.
      destruct (rev dn) as [|par st] eqn:Ed. { apply (f_equal (@rev _)) in Ed. rewrite rev_involutive in Ed. cbn in Ed. congruence. }
      rewrite H5 in Ef. eapply (literal_edge n p q' fr par st Es H1); try eassumption; [eapply starts_le_mono; [|exact H2]; lia|]. left. exact Et.
    - destruct (of_option _ _); [|discriminate]. cbn [bind]. destruct (_ && _); discriminate.
  Qed.
  Lemma descend_done : forall path n depth p dn q, pre n p -> rev (p_stack p) = dn ++ path -> length dn = depth -> 1 <= depth -> descend path depth p = Ok (None, q) -> edge n q.
  Proof.
    induction path as [|fr path IH]; intros n depth p dn q Hpre E Hdn Hd; cbn [descend]; [discriminate|].
    destruct (find_next_nonspace_sp p) as (nnc & ind & idd & bl & ->). set (p1 := sp _ _ _ _ _ p).
    assert (Hpos : posok p1). { split; unfold p1; cbn [sp p_offset p_next_nonspace p_line]; [lia|apply nonspace_le; apply Hpre]. }
    assert (Hne : dn <> []) by (destruct dn; [cbn in Hdn; lia|discriminate]).
    pose proof (continue_spec Q HQ HQc A n fr path dn (negb (is_nil (f_kids fr)) || negb (is_nil path)) p1 Hpre Hpos E Hne) as H.
    pose proof (fun q0 => continue_done n fr path dn (negb (is_nil (f_kids fr)) || negb (is_nil path)) p1 q0 Hpre Hpos E Hne) as H'.
    destruct (continue_ _ _ p1) as [[[| |] p2]|e]; cbn [bind]; try discriminate.
    - destruct H as (G1 & G2 & G3). change (p_stack p1) with (p_stack p) in G2. apply (IH n (S depth) p2 (dn ++ [fr]) q G1); [rewrite G2, E, <- app_assoc; reflexivity|rewrite app_length; cbn; lia|lia].
    - intros X. apply Ok_inj in X. injection X as <-. apply H'. reflexivity.
  Qed.

  (** the container is never a paragraph below other blocks *)
  Lemma para_top n p : core n p -> container p paragraph -> top_is paragraph p /\ (p_all_closed p = false -> length (p_stack p) <= p_matched p).
  Proof.
    intros (H & _) (d & l & E & Ed). unfold target in E. destruct (p_all_closed p).
    - cbn [skipn] in E. destruct (p_stack p) as [|fr st] eqn:Es; [discriminate|]. cbn [map] in E. injection E as E _. split; [exists fr, st; split; [exact Es|unfold f_type; congruence]|discriminate].
    - destruct (length (p_stack p) - p_matched p) as [|k] eqn:Ek.
      + cbn [skipn] in E. destruct (p_stack p) as [|fr st] eqn:Es; [discriminate|]. cbn [map] in E. injection E as E _. split; [exists fr, st; split; [exact Es|unfold f_type; congruence]|lia].
      + exfalso. destruct (skipn (S k) (p_stack p)) as [|fr st] eqn:Es; [discriminate|]. cbn [map] in E. injection E as E _.
        assert (Hne : exists a x, firstn (S k) (p_stack p) = a ++ [x]).
        { assert (Hl : firstn (S k) (p_stack p) <> []) by (destruct (p_stack p); [rewrite skipn_nil in Es; discriminate|discriminate]). destruct (exists_last Hl) as (a & x & Ha). exists a, x. exact Ha. }
        destruct Hne as (a & x & Ha). rewrite <- (firstn_skipn (S k) (p_stack p)), Es, Ha, <- app_assoc in H. cbn [app] in H. apply stack_holds in H. unfold f_type in H. rewrite E, Ed in H. discriminate.
  Qed.
  Lemma container_fun p c c' : container p c -> container p c' -> c = c'.
  Proof. intros (d & l & E & H) (d' & l' & E' & H'). rewrite E in E'. injection E' as <- <-. congruence. Qed.
  Lemma top_container t p : top_is t p -> p_all_closed p = true -> container p t.
  Proof. intros (fr & st & E & Ht) H. unfold container, target. rewrite H. cbn [skipn]. rewrite E. cbn [map]. do 2 eexists. split; [reflexivity|exact Ht]. Qed.

  (** the starts *)
  Lemma sp_flags a b c d e p : flags (sp a b c d e p) = flags p. Proof. reflexivity. Qed.
  Lemma starts_after : forall f n depth p dd q t, mid n p -> depth_ok depth p -> p_offset p <= length (p_line p) -> top_is t p -> t <> paragraph -> p_all_closed p = true ->
    starts_loop f depth p = Ok (dd, q) -> exists t', t' <> paragraph /\ top_is t' q /\ p_all_closed q = true.
  Proof.
    induction f as [|f IH]; intros n depth p dd q t Hm Hd Ho Ht Hne Hcl; [discriminate|]. cbn [starts_loop].
    destruct (find_next_nonspace_sp p) as (nnc & ind & idd & bl & ->). set (p1 := sp _ _ _ _ _ p) in *.
    assert (Hm1 : mid n p1) by (apply mid_sp; exact Hm). assert (Hd1 : depth_ok depth p1) by exact Hd.
    assert (Hp1 : posok p1). { split; unfold p1; cbn [sp p_offset p_next_nonspace p_line]; [lia|apply nonspace_le; exact Ho]. }
    destruct (negb (p_indented p1) && negb (re_test reMaybeSpecial (rest_nonspace p1))).
    - rewrite advance_next_nonspace_mv. intros H. apply Ok_inj in H. injection H as _ <-. exists t. split; [exact Hne|]. split; [exact Ht|exact Hcl].
    - destruct (block_at_container depth p1 Hd1 (mid_ne _ _ _ _ Hm1)) as (fr & -> & Hc). cbn [bind].
      pose proof (block_starts_good Q HQ HQc A n (f_type fr) p1 Hm1 Hc Hp1) as H. destruct (try_starts _ _ p1) as [[[| |] p2]|e] eqn:Et; cbn [bind]; [| | |discriminate].
      + apply none_starts in Et as [Hk _]. destruct (Hk Hcl) as [K1 K2]. rewrite advance_next_nonspace_mv. intros X. apply Ok_inj in X. injection X as _ <-.
        exists t. split; [exact Hne|]. split; [|exact K2]. change (top_is t p2). eapply flags_top; [exact K1|exact Ht].
      + destruct H as (H1 & H2 & H3 & H4 & H5). apply opens_starts in Et as [Et|(t' & Et & Htop)]; [discriminate|].
        apply (IH n (length (p_stack p2)) p2 dd q t' H1); [|rewrite H3; exact H5|exact Htop|destruct Et as [->| ->]; discriminate|exact H2].
        split; [|rewrite H2; reflexivity]. pose proof (mid_ne _ _ _ _ H1). destruct (p_stack p2); [congruence|cbn; lia].
      + apply opens_starts in Et as [Et|(t' & Et & Htop)]; [discriminate|]. destruct H as (_ & H & _). intros X. apply Ok_inj in X. injection X as _ <-.
        exists t'. split; [destruct Et as [->|[->|[->| ->]]]; discriminate|]. split; [exact Htop|exact H].
  Qed.
  Lemma starts_end f n depth p dd q fr : mid n p -> depth_ok depth p -> p_offset p <= length (p_line p) -> block_at depth p = Ok fr -> starts_loop f depth p = Ok (dd, q) ->
    (exists t, t <> paragraph /\ top_is t q /\ p_all_closed q = true) \/
    ((p_all_closed q = false -> flags q = flags p) /\ p_blank q = p_blank (find_next_nonspace p) /\ container q (f_type fr)).
  Proof.
    destruct f as [|f]; intros Hm Hd Ho Hb; [discriminate|]. cbn [starts_loop].
    destruct (find_next_nonspace_sp p) as (nnc & ind & idd & bl & ->). set (p1 := sp _ _ _ _ _ p) in *.
    assert (Hm1 : mid n p1) by (apply mid_sp; exact Hm). assert (Hd1 : depth_ok depth p1) by exact Hd.
    assert (Hp1 : posok p1). { split; unfold p1; cbn [sp p_offset p_next_nonspace p_line]; [lia|apply nonspace_le; exact Ho]. }
    destruct (block_at_container depth p1 Hd1 (mid_ne _ _ _ _ Hm1)) as (fr' & Eb & Hc). assert (Ef : fr' = fr) by (change (block_at depth p1) with (block_at depth p) in Eb; congruence). subst fr'.
    destruct (negb (p_indented p1) && negb (re_test reMaybeSpecial (rest_nonspace p1))).
    - rewrite advance_next_nonspace_mv. intros H. apply Ok_inj in H. injection H as _ <-. right. split; [reflexivity|]. split; [reflexivity|exact Hc].
    - rewrite Eb. cbn [bind].
      pose proof (block_starts_good Q HQ HQc A n (f_type fr) p1 Hm1 Hc Hp1) as H. destruct (try_starts _ _ p1) as [[[| |] p2]|e] eqn:Et; cbn [bind]; [| | |discriminate].
      + destruct H as (_ & Hc2 & Hpos). apply none_starts in Et as [_ Hk]. rewrite advance_next_nonspace_mv. intros X. apply Ok_inj in X. injection X as _ <-. right.
        split; [exact Hk|]. split; [exact (pos_blank _ _ Hpos)|exact Hc2].
      + destruct H as (H1 & H2 & H3 & H4 & H5). apply opens_starts in Et as [Et|(t' & Et & Htop)]; [discriminate|]. intros X. left.
        eapply (starts_after f n (length (p_stack p2)) p2 dd q t' H1); [|rewrite H3; exact H5|exact Htop|destruct Et as [->| ->]; discriminate|exact H2|exact X].
        split; [|rewrite H2; reflexivity]. pose proof (mid_ne _ _ _ _ H1). destruct (p_stack p2); [congruence|cbn; lia].
      + apply opens_starts in Et as [Et|(t' & Et & Htop)]; [discriminate|]. destruct H as (_ & H & _). intros X. apply Ok_inj in X. injection X as _ <-. left.
        exists t'. split; [destruct Et as [->|[->|[->| ->]]]; discriminate|]. split; [exact Htop|exact H].
  Qed.

  Lemma add_line_stack p q fr st : p_stack p = fr :: st -> add_line p = Ok q -> exists sc, p_stack q = F (set_n_string_content (Some sc) (f_data fr)) (f_kids fr) :: st.
  Proof.
    intros E. unfold add_line, tip. rewrite E. cbn [hd_error of_option bind]. destruct (of_option _ _) as [sc|e]; [|discriminate]. cbn [bind].
    destruct (p_pct p); unfold on_tip; cbn [p_stack set_p_offset]; rewrite E; intros H; apply Ok_inj in H as <-; eexists; reflexivity.
  Qed.
  Lemma add_text_edge n p q : (mid n p /\ (sees p \/ lined p)) \/ leafy n p -> (container p paragraph -> p_blank p = false) -> add_text p = Ok q -> edge n q.
  Proof.
    intros Hp Hnb Eq. split; [pose proof (add_text_spec Q HQ HQc A n p Hp) as H; rewrite Eq in H; exact H|]. revert Eq. unfold add_text.
    assert (Hcl : match close_unmatched_blocks p with Ok q => (mid n q \/ leafy n q) /\ (top_is paragraph q -> p_blank q = false) | Err e => True end).
    { destruct Hp as [[Hp Hs]|Hp].
      - pose proof (close_unmatched_spec Q HQ HQc A n p Hp) as H. destruct (close_unmatched_blocks p) as [q'|e]; [|exact I]. destruct H as (H1 & H2 & H3 & H4).
        split; [left; exact H1|]. intros (fr & st & E & Ht). rewrite (pos_blank _ _ H3). apply Hnb. rewrite E in H4. cbn [map] in H4. unfold container. exists (f_data fr), (map f_data st). split; [symmetry; exact H4|exact Ht].
      - pose proof Hp as (_ & H & _). unfold close_unmatched_blocks. rewrite H. split; [right; exact Hp|]. intros Ht. apply Hnb. apply top_container; assumption. }
    destruct (close_unmatched_blocks p) as [p1|e]; cbn [bind]; [|discriminate]. clear Hp Hnb p. destruct Hcl as [Hcl Hnb].
    assert (Hcore : core n p1) by (destruct Hcl as [H|H]; apply H).
    assert (Hcl' : forall fr st, p_stack p1 = fr :: st -> (ready fr \/ (lines_type (f_type fr) = true /\ f_type fr <> paragraph)) /\ (leafy n p1 \/ mid n p1)).
    { intros fr st E. destruct Hcl as [H|H]; (split; [|auto]).
      - left. destruct H as (_ & M2 & _). unfold BlockInv.tip_ok in M2. rewrite E in M2. exact M2.
      - destruct H as (_ & _ & fr' & st' & E' & Hl). rewrite E in E'. injection E' as <- <-. destruct Hl as [Hl|[Hl _]]; [right; exact Hl|left; exact Hl]. }
    unfold tip. destruct (p_stack p1) as [|fr st] eqn:E; [discriminate|]. destruct (Hcl' fr st eq_refl) as [Hrd _]. cbn [hd_error of_option bind]. set (kids := if p_blank p1 then _ else _).
    assert (Hk : Forall2 flg (f_kids fr) kids) by (unfold kids; destruct (p_blank p1); [apply mark_last_blank_flg|apply flgs_refl]).
    clearbody kids. pose proof Hcore as (C1 & C2 & C3 & C4 & C5 & C6 & C7). rewrite E in C1, C2.
    match goal with |- context[bind ?x _] => destruct x as [l0|e]; [|discriminate] end. cbn [bind]. set (llb := p_blank p1 && _).
    assert (Hllb : p_blank p1 = false -> llb = false) by (intros X; unfold llb; rewrite X; reflexivity). clearbody llb.
    change (map _ (F (f_data fr) kids :: tl (fr :: st))) with (map (blanked llb) (F (f_data fr) kids :: st)). set (p2 := set_p_stack _ p1).
    assert (Hcore2 : core n p2).
    { unfold BlockSteps.core. cbn [p2 p_stack set_p_stack p_line_number p_refmap p_line p_matched]. split; [|split; [|auto 6]].
      - apply stack_ok_blanked. eapply kids_flg; eassumption.
      - apply starts_le_blanked. eapply starts_le_replace; [exact C2|reflexivity|reflexivity]. }
    assert (E2 : p_stack p2 = blanked llb (F (f_data fr) kids) :: map (blanked llb) st) by reflexivity.
    assert (Hq2 : p_blank p1 = false -> quiet p2).
    { intros X. unfold quiet. cbn [p2 p_stack set_p_stack]. apply Forall_map. apply Forall_forall. intros y _. exact (Hllb X). }
    assert (Hready : ready fr -> ready (blanked llb (F (f_data fr) kids))).
    { intros (R1 & R2 & R3). split; [|split; [exact R2|exact R3]]. intros El Ek. cbn [f_kids blanked set_f_data] in Ek. subst kids. apply (R1 El). inversion Hk. reflexivity. }
    unfold accepts_lines. destruct (is_block_type (f_type fr)) eqn:Eb; [|discriminate].
    cbn [bind]. change (match f_type fr with code_block | html_block | paragraph => true | _ => false end) with (lines_type (f_type fr)).
    destruct (lines_type (f_type fr)) eqn:El.
    - assert (Htk : takes A p2 (blanked llb (F (f_data fr) kids))).
      { destruct Hrd as [Hrd|[_ Hrd]]; [apply ready_takes, Hready, Hrd|intros Ep; destruct (Hrd Ep)]. }
      destruct (add_line_spec Q HQ A n p2 _ _ Hcore2 E2 El Htk) as (p3 & sc & -> & Hc3 & Hr3 & E3). cbn [bind].
      assert (Hb : paras (n - 1) (p_stack p3) /\ (top_is paragraph p3 -> quiet p3)).
      { split; [apply stack_paras, Hc3|]. intros (fr' & st' & E' & Ht'). rewrite E3 in E'. injection E' as <- <-.
        assert (X : quiet p2) by (apply Hq2, Hnb; exists fr, st; split; [exact E|exact Ht']). unfold quiet in *. rewrite E3. rewrite E2 in X. inversion X; subst. constructor; assumption. }
      destruct (ntype_eqb (f_type fr) html_block) eqn:Eh; [|intros X; apply Ok_inj in X as <-; exact Hb].
      assert (Eh' : f_type fr = html_block) by (destruct (f_type fr); try discriminate; reflexivity).
      destruct (of_option _ _) as [ty|e]; [|discriminate]. cbn [bind].
      destruct (_ && _); [|intros X; apply Ok_inj in X as <-; exact Hb]. intros Ef. assert (En : p_line_number p3 = n) by apply Hc3. rewrite En in Ef.
      pose proof Hc3 as (D1 & D2 & D3 & D4 & D5 & _). rewrite E3 in D1, D2. destruct (map (blanked llb) st) as [|par st'] eqn:Est.
      { destruct D1 as [_ [D1 _]]. change (f_type fr = document) in D1. congruence. }
      eapply (literal_edge n p3 q _ par st' E3); try eassumption. right. exact Eh'.
    - destruct (Nat.ltb (p_offset p2) (length (p_line p2)) && negb (p_blank p2)) eqn:Ec.
      + apply andb_prop in Ec as [Ec Eblank]. apply Nat.ltb_lt in Ec. apply negb_true_iff in Eblank.
        destruct Hcl as [Hm|(_ & _ & fr' & st' & E' & Hl)].
        2:{ rewrite E in E'. injection E' as <- <-. destruct Hl as [[Hl _]|[_ Hl]]; [congruence|]. change (p_offset p2) with (p_offset p1) in Ec. change (p_line p2) with (p_line p1) in Ec. lia. }
        assert (Hm2 : mid n p2).
        { destruct Hm as (M1 & M2 & M3 & M4). split; [exact Hcore2|]. split; [|split].
          - unfold BlockInv.tip_ok. rewrite E2. apply Hready. unfold BlockInv.tip_ok in M2. rewrite E in M2. exact M2.
          - intros G. change (p_all_closed p1 = false) in G. specialize (M3 G). rewrite E in M3. change (p_matched p2) with (p_matched p1). rewrite E2. cbn [length] in *. rewrite map_length. exact M3.
          - rewrite E in M4. destruct M4 as [M4|(M4 & fr' & st' & E' & M5)].
            + left. unfold p2. cbn [p_stack set_p_stack]. apply starts_le_blanked. eapply starts_le_replace; [exact M4|reflexivity|reflexivity].
            + right. split; [exact M4|]. injection E' as <- <-. do 2 eexists. split; [exact E2|exact M5]. }
        pose proof (Hq2 Eblank) as Hquiet.
        pose proof (add_child_spec Q HQ HQc A n paragraph (p_offset p2) p2 eq_refl Hm2) as H. destruct (add_child _ _ p2) as [q0|e] eqn:Ea; cbn [bind]; [|discriminate].
        apply quiet_child in Ea; [|exact Hquiet].
        destruct H as (q1 & -> & (R1 & R2 & R3 & fr' & st' & R4 & R5)). rewrite advance_next_nonspace_mv. set (q2 := mv _ _ _ _).
        assert (Hc2 : core n q2).
        { apply (core_ext Q A n (push (fresh paragraph n (p_offset p2)) q1)); try reflexivity.
          eapply push_core; try eassumption; [apply open_new; [exact C4|auto 6]|reflexivity]. }
        intros Eadd. destruct (add_line_stack q2 q (F (fresh paragraph n (p_offset p2)) []) (p_stack q1) eq_refl Eadd) as (sc & E3).
        split.
        * rewrite E3. assert (Hsp : paras (n - 1) (p_stack q2)) by apply stack_paras, Hc2. change (p_stack q2) with (F (fresh paragraph n (p_offset p2)) [] :: p_stack q1) in Hsp. inversion Hsp; subst. constructor; assumption.
        * intros _. unfold quiet in *. rewrite E3. change (p_stack (push (fresh paragraph n (p_offset p2)) q1)) with (F (fresh paragraph n (p_offset p2)) [] :: p_stack q1) in Ea. inversion Ea; subst. constructor; assumption.
      + intros X. apply Ok_inj in X as <-. split; [apply stack_paras, Hcore2|]. intros (fr' & st' & E' & Ht'). rewrite E2 in E'. injection E' as <- <-. exfalso. change (f_type fr = paragraph) in Ht'. rewrite Ht' in El. discriminate.
  Qed.

  (** ** One line *)
  Theorem line_edge n p ln q : ok_str (replace_char 0 65533 ln) -> edge n p -> incorporate_line ln p = Ok q -> edge (S n) q.
  Proof.
    intros Hln ((B1 & B2 & B3 & B4 & B5) & _ & Bq). unfold incorporate_line. set (ln' := replace_char _ _ ln). set (p1 := set_p_line ln' _).
    assert (Hpre : pre (S n) p1).
    { unfold BlockRun.pre. cbn [p1 p_stack set_p_line set_p_line_number set_p_pct set_p_blank set_p_column set_p_offset p_refmap p_line_number p_line p_offset].
      replace (S n - 1) with n by lia. split; [exact B1|]. split; [exact B2|]. split; [exact B3|]. split; [exact B4|]. split; [congruence|]. split; [lia|]. split; [exact Hln|lia]. }
    assert (Hne : exists x l, rev (p_stack p1) = x :: l).
    { destruct (rev (p_stack p1)) as [|x l] eqn:E; [|eauto]. apply (f_equal (@rev _)) in E. rewrite rev_involutive in E. destruct Hpre as (H1 & _). rewrite E in H1. destruct H1. }
    destruct Hne as (x & l & Ex). rewrite Ex. cbn [tl].
    pose proof (descend_spec Q HQ HQc A l (S n) 1 p1 [x] Hpre ltac:(exact Ex) eq_refl (le_n _)) as H. destruct (descend l 1 p1) as [[[depth|] p2]|e] eqn:Ede; cbn [bind]; [| |discriminate].
    2:{ intros X. apply Ok_inj in X as <-. pose proof (descend_done l (S n) 1 p1 [x] p2 Hpre Ex eq_refl (le_n _) Ede) as G. exact G. }
    destruct H as (P2 & S2 & L2 & Hd). pose proof P2 as (G1 & G2 & G3 & G4 & G5 & G6 & G7 & G8). set (p3 := set_p_matched depth _). rewrite <- S2 in Hd.
    assert (Hm : mid (S n) p3).
    { split; [|split; [exact G3|split]].
      - split; [exact G1|]. split; [eapply starts_le_mono; [|exact G2]; lia|]. split; [exact G5|]. split; [lia|]. split; [exact G4|]. split; [exact G7|]. cbn [p3 p_matched set_p_matched]. lia.
      - intros _. cbn [p3 p_matched set_p_matched p_stack set_p_all_closed]. lia.
      - left. exact G2. }
    assert (Hd3 : depth_ok depth p3).
    { split; [lia|]. cbn [p3 p_all_closed set_p_matched set_p_all_closed p_stack p_matched]. destruct (Nat.eqb_spec depth (length (p_stack p2))); lia. }
    destruct (block_at_container depth p3 Hd3 (mid_ne _ _ _ _ Hm)) as (fr & Ebl & Hcont). rewrite Ebl. cbn [bind].
    assert (Hfull : f_type fr = paragraph -> p_blank (find_next_nonspace p3) = false).
    { intros Ht. rewrite Ht in Hcont. destruct (para_top (S n) p3 (proj1 Hm) Hcont) as [(fr' & st' & Es' & Ht') Hlen].
      assert (Edl : depth = length (p_stack p3)). { destruct Hd3 as [_ Hd3]. destruct (p_all_closed p3); [exact Hd3|]. specialize (Hlen eq_refl). clear -Hd3 Hlen. destruct Hd3. lia. }
      change (p_stack p3) with (p_stack p2) in *. rewrite S2 in Edl, Es'.
      assert (Eln : length (p_stack p1) = S (length l)) by (rewrite <- rev_length, Ex; reflexivity).
      destruct st' as [|par st'']. { exfalso. change (p_stack p1) with (p_stack p) in Es'. rewrite Es' in B1. destruct B1 as [_ [B1 _]]. congruence. }
      assert (El : exists l0, l = l0 ++ [fr']).
      { rewrite Es' in Ex. cbn [rev] in Ex. destruct (rev st'' ++ [par]) as [|y r] eqn:Er; [destruct (rev st''); discriminate|]. cbn [app] in Ex. injection Ex as _ <-. exists r. reflexivity. }
      destruct El as [l0 El]. rewrite (find_next_same p2 p3 eq_refl eq_refl eq_refl). apply (descend_full l 1 p1 p2 fr' l0 El Ht'). rewrite Ede. do 3 f_equal. clear -Edl Eln. lia. }
    destruct (accepts_lines (f_type fr)) as [acc|e] eqn:Eacc; [|discriminate]. cbn [bind].
    remember (if negb (ntype_eqb (f_type fr) paragraph) && acc then Ok (depth, p3) else starts_loop (S (length ln')) depth p3) as step eqn:Estep.
    assert (H4 : match step with
                 | Ok (_, q) => ((mid (S n) q /\ (sees q \/ lined q)) \/ leafy (S n) q) /\ (container q paragraph -> p_blank q = false) /\ (p_all_closed q = false -> flags q = flags p3) | Err e => True end).
    { rewrite Estep. destruct (negb (ntype_eqb (f_type fr) paragraph) && acc) eqn:Eal.
      - apply andb_prop in Eal as [Ea1 Ea2]. assert (Hnp : f_type fr <> paragraph) by (intros X; rewrite X in Ea1; discriminate).
        split; [left; split; [exact Hm|right; exists (f_type fr); split; [exact Hcont|]; unfold accepts_lines in Eacc; destruct (is_block_type _); [|discriminate]; apply Ok_inj in Eacc; rewrite <- Eacc in Ea2; exact Ea2]|].
        split; [intros X; destruct (Hnp (container_fun _ _ _ Hcont X))|reflexivity].
      - change ln' with (p_line p1). rewrite <- L2.
        pose proof (starts_loop_spec Q HQ HQc A (S (length (p_line p2))) (S n) depth p3 Hm Hd3 G8 ltac:(change (p_line p3) with (p_line p2); lia)) as H.
        destruct (starts_loop (S (length (p_line p2))) depth p3) as [[dd q0]|e] eqn:Est; [|exact I]. split; [tauto|].
        destruct (starts_end _ (S n) depth p3 dd q0 fr Hm Hd3 G8 Ebl Est) as [(t & T1 & T2 & T3)|(T1 & T2 & T3)].
        + split; [|congruence]. intros X. destruct T1. apply (container_fun q0); [apply top_container; assumption|exact X].
        + split; [|exact T1]. intros X. rewrite T2. apply Hfull. apply (container_fun q0); assumption. }
    destruct step as [[dd p4]|e]; cbn [bind]; [|discriminate]. destruct H4 as (H4 & Hnb & Hfl).
    unfold tip. destruct (p_stack p4) as [|t st] eqn:E4; [discriminate|]. cbn [hd_error of_option bind].
    destruct (negb (p_all_closed p4) && negb (p_blank p4) && ntype_eqb (f_type t) paragraph) eqn:Eb.
    - apply andb_prop in Eb as [Eb Et0]. apply andb_prop in Eb as [Ecl _]. apply negb_true_iff in Ecl.
      assert (Et : f_type t = paragraph) by (destruct (f_type t); try discriminate; reflexivity).
      assert (Hc : core (S n) p4) by (destruct H4 as [[H4 _]|H4]; apply H4).
      assert (Htk : takes A p4 t).
      { apply ready_takes. destruct H4 as [[(_ & M2 & _) _]|(_ & M2 & _)]; [unfold BlockInv.tip_ok in M2; rewrite E4 in M2; exact M2|congruence]. }
      destruct (add_line_spec Q HQ A (S n) p4 t st Hc E4) as (q' & sc & -> & Hc3 & Hr3 & E3); [rewrite Et; reflexivity|exact Htk|]. cbn [bind]. intros X. apply Ok_inj in X as <-.
      assert (Hq : quiet p4).
      { apply (quiet_flags p3); [exact (Hfl Ecl)|]. assert (Htop : top_is paragraph p3) by (apply (flags_top p4); [symmetry; exact (Hfl Ecl)|exists t, st; split; assumption]).
        unfold quiet, top_is in *. change (p_stack p3) with (p_stack p2) in *. rewrite S2 in *. change (p_stack p1) with (p_stack p) in *. apply Bq, Htop. }
      apply (core_edge (S n) q').
      + exact Hc3.
      + unfold BlockInv.tip_ok. rewrite E3. exact Hr3.
      + intros _. unfold quiet in *. rewrite E3. rewrite E4 in Hq. inversion Hq; subst. constructor; assumption.
    - destruct (add_text p4) as [q'|e] eqn:Ea; [|discriminate]. cbn [bind]. intros X. apply Ok_inj in X as <-. exact (add_text_edge (S n) p4 q' H4 Hnb Ea).
  Qed.
  Theorem lines_edge : forall ls n p q, Forall (fun l => ok_str (replace_char 0 65533 l)) ls -> edge n p -> incorporate_lines ls p = Ok q -> edge (n + length ls) q.
  Proof.
    induction ls as [|l ls IH]; intros n p q Hl He; cbn [incorporate_lines length].
    - rewrite Nat.add_0_r. intros X. apply Ok_inj in X as <-. exact He.
    - inversion Hl as [|x0 l0 H1 H2]; subst. destruct (incorporate_line l p) as [p1|e] eqn:E; cbn [bind]; [|discriminate]. intros X.
      replace (n + S (length ls)) with (S n + length ls) by lia. apply (IH (S n) p1 q H2); [|exact X]. apply (line_edge n p l p1 H1 He E).
  Qed.
  Lemma reset_edge p : edge 0 (reset p).
  Proof.
    split; [apply reset_between; assumption|]. split; [constructor; [constructor|constructor]|]. intros (fr & st & E & Ht). change (p_stack (reset p)) with [doc_frame] in E. injection E as <- _. discriminate.
  Qed.

  (** ** The end of the text *)
  Lemma flg_paras m : forall t t', flg t t' -> para_le m t -> para_le m t'.
  Proof.
    unfold para_le. induction t as [d kids IH] using tree_ind'. intros t' H Hc. pose proof (flg_fields _ _ H) as (F1 & _ & F3). inversion H as [d1 d2 k1 k2 D1 K1]; subst.
    apply tree_every_unfold in Hc as [Hc1 Hc2]. apply tree_every_unfold. split; [rewrite F1, F3; exact Hc1|].
    clear -IH K1 Hc2. revert k2 K1. induction IH as [|x l Hx _ IHl]; intros k2 K1; inversion K1; subst; [constructor|]. inversion Hc2; subst. constructor; auto.
  Qed.
  Lemma finalize_paras m a p q fr st : p_stack p = fr :: st -> f_type fr <> paragraph -> paras m (fr :: st) -> finalize_tip a p = Ok q ->
    match st with
    | [] => exists t, p_doc q = Some t /\ para_le m t /\ p_stack q = []
    | par :: st' => exists t, p_stack q = F (f_data par) (f_kids par ++ [t]) :: st' /\ paras m (p_stack q)
    end.
  Proof.
    intros Es Ht Hp. unfold finalize_tip. rewrite Es. destruct (of_option TypeError _) as [[sp0 x]|e]; [|discriminate]. cbn [bind]. set (d := set_n_sourcepos _ _).
    assert (Ed : n_t d = f_type fr) by reflexivity. clearbody d. inversion Hp as [|y z P1 P2]; subst.
    assert (G : forall d' ks, n_t d' <> paragraph -> Forall (para_le m) ks -> q = attach (T d' ks) (set_p_stack st p) ->
      match st with [] => exists t, p_doc q = Some t /\ para_le m t /\ p_stack q = [] | par :: st' => exists t, p_stack q = F (f_data par) (f_kids par ++ [t]) :: st' /\ paras m (p_stack q) end).
    { intros d' ks Hd' Hks ->. assert (Hpl : para_le m (T d' ks)) by (apply tree_every_unfold; split; [intros X; destruct (Hd' X)|exact Hks]).
      unfold attach. cbn [p_stack set_p_stack]. destruct st as [|par st']; [eexists; split; [reflexivity|split; [exact Hpl|reflexivity]]|].
      eexists. split; [reflexivity|]. cbn [p_stack set_p_stack]. inversion P2 as [|y z P3 P4]; subst. constructor; [|exact P4]. cbn [f_kids]. apply Forall_app. split; [exact P3|]. constructor; [exact Hpl|constructor]. }
    destruct (n_t d) eqn:Et; try discriminate; try (intros X; apply Ok_inj in X; eapply G; [rewrite Et; discriminate|exact P1|symmetry; exact X]).
    - destruct (finalize_list d (f_kids fr)) as [d' items] eqn:El. apply finalize_list_flg in El as [D1 D2]. intros X. apply Ok_inj in X. eapply G; [| |symmetry; exact X].
      + apply dsim_fields in D1 as [-> _]. rewrite Et. discriminate.
      + clear -P1 D2. induction D2; [constructor|]. inversion P1; subst. constructor; [eapply flg_paras; eassumption|auto].
    - destruct Ht. congruence.
    - destruct (finalize_code d) as [d'|e] eqn:Ec; [|discriminate]. cbn [bind]. intros X. apply Ok_inj in X. eapply G; [|exact P1|symmetry; exact X].
      unfold finalize_code in Ec. destruct (of_option _ _); [|discriminate]. cbn [bind] in Ec. destruct (n_is_fenced _); [destruct (of_option _ _); [|discriminate]; cbn [bind] in Ec|]; apply Ok_inj in Ec as <-; cbn; rewrite Et; discriminate.
    - destruct (finalize_html d) as [d'|e] eqn:Ec; [|discriminate]. cbn [bind]. intros X. apply Ok_inj in X. eapply G; [|exact P1|symmetry; exact X].
      unfold finalize_html in Ec. destruct (of_option _ _); [|discriminate]. cbn [bind] in Ec. apply Ok_inj in Ec as <-; cbn; rewrite Et; discriminate.
  Qed.
  Lemma finalize_all_paras m : forall f n p q, Forall (fun fr => f_type fr <> paragraph) (p_stack p) -> paras m (p_stack p) -> finalize_all f n p = Ok q -> p_stack p <> [] ->
    exists t, p_doc q = Some t /\ para_le m t.
  Proof.
    induction f as [|f IH]; intros n p q Ht Hp Ef Hne; cbn [finalize_all] in Ef; destruct (p_stack p) as [|fr st] eqn:Es; try congruence; try discriminate.
    destruct (finalize_tip n p) as [p1|e] eqn:E1; [|discriminate]. cbn [bind] in Ef. inversion Ht as [|y z T1 T2]; subst.
    pose proof (finalize_paras m n p p1 fr st Es T1 Hp E1) as G. destruct st as [|par st'].
    - destruct G as (t & G1 & G2 & G3). assert (Eq : finalize_all f n p1 = Ok p1) by (destruct f; cbn [finalize_all]; rewrite G3; reflexivity). rewrite Eq in Ef. apply Ok_inj in Ef as <-. exists t. auto.
    - destruct G as (t & G1 & G2). apply (IH n p1 q); [|exact G2|exact Ef|rewrite G1; discriminate]. rewrite G1. inversion T2; subst. constructor; assumption.
  Qed.
  Lemma no_paras E : forall st, stack_ok E st -> (forall fr st', st = fr :: st' -> f_type fr <> paragraph) -> Forall (fun fr => f_type fr <> paragraph) st.
  Proof.
    induction st as [|fr st IH]; intros Hs Ht; [constructor|]. constructor; [apply (Ht fr st eq_refl)|]. destruct st as [|par st]; [constructor|]. destruct Hs as (_ & Hh & _ & Hs). apply IH; [exact Hs|].
    intros fr' st' X. injection X as <- <-. intros X. rewrite X in Hh. discriminate.
  Qed.

  (** ** The inlines *)
  Lemma inline_paras m : forall t, inline_tree Q t -> para_le m t.
  Proof.
    unfold para_le. induction t as [d kids IH] using tree_ind'. intros H. pose proof (inl_type _ _ (inline_hd _ _ H)) as Hty. apply inline_unfold in H as [_ H]. apply tree_every_unfold.
    split; [intros X; rewrite X in Hty; discriminate|]. clear -IH H. induction IH; [constructor|]. inversion H; subst. constructor; auto.
  Qed.
  Lemma process_paras m : forall t s t' s', closed t -> InlineFacts.refs_ok Q (ip_refmap s) -> para_le m t -> process_inlines t s = Ok (t', s') -> para_le m t'.
  Proof.
    induction t as [d kids IH] using tree_ind'. intros s t' s' Hc Hs Hp. rewrite process_inlines_eq.
    pose proof Hc as Hc'. apply tree_every_unfold in Hc' as [(C1 & C2 & C3 & C4 & C5 & C6 & C7 & C8 & C9) Hk]. unfold para_le in Hp. apply tree_every_unfold in Hp as [Hp1 Hp2].
    assert (Hgo : forall s, InlineFacts.refs_ok Q (ip_refmap s) -> forall ks s1, process_all kids s = Ok (ks, s1) -> Forall (para_le m) ks /\ ip_refmap s1 = ip_refmap s).
    { clear -IH Hk Hp2 HQ HQc. induction IH as [|k l Hx _ IHl]; intros s Hs ks s1; cbn [process_all]; [intros X; apply Ok_inj in X; injection X as <- <-; split; [constructor|reflexivity]|].
      inversion Hk as [|x y K1 K2]; subst. inversion Hp2 as [|x y P1 P2]; subst. pose proof (process_inlines_spec Q HQ HQc A k K1 s Hs) as G.
      destruct (process_inlines k s) as [[k' s2]|e] eqn:E; [|discriminate]. cbn [bind]. destruct G as (_ & _ & G & _).
      destruct (process_all l s2) as [[l' s3]|e] eqn:E2; [|discriminate]. cbn [bind]. intros X. apply Ok_inj in X. injection X as <- <-.
      destruct (IHl P2 K2 s2 ltac:(rewrite G; exact Hs) l' s3 E2) as [I1 I2]. split; [|congruence]. constructor; [|exact I1]. exact (Hx s k' s2 K1 Hs P1 E). }
    destruct (is_container (n_t d)).
    - destruct (process_all kids s) as [[ks s1]|e] eqn:E; [|discriminate]. cbn [bind]. destruct (Hgo s Hs ks s1 E) as [G1 G2].
      destruct (ntype_eqb (n_t d) paragraph || ntype_eqb (n_t d) heading) eqn:Eph.
      + destruct (of_option AttributeError (n_string_content d)) as [sc|e] eqn:Esc; [|discriminate]. cbn [bind].
        assert (Hsc : Qs sc). { unfold content_ok in C9. assert (Hty : n_t d = paragraph \/ n_t d = heading) by (destruct (n_t d); try discriminate; auto).
          destruct (n_string_content d) as [x|]; [|discriminate]. cbn in Esc. apply Ok_inj in Esc as ->. destruct Hty as [X|X]; rewrite X in C9; [destruct C9 as (sc' & K1 & [K2 _] & _)|destruct C9 as (sc' & K1 & [K2 _])]; apply Some_inj in K1 as ->; exact K2. }
        pose proof (parseInlines_spec Q HQ HQc sc s1 Hsc ltac:(rewrite G2; exact Hs)) as H. destruct (parseInlines sc s1) as [[inls s2]|e]; [|discriminate]. cbn [bind]. destruct H as (H1 & _).
        intros X. apply Ok_inj in X. injection X as <- _. apply tree_every_unfold. split; [exact Hp1|]. apply Forall_app. split; [exact G1|]. eapply Forall_impl; [|exact H1]. intros t. apply inline_paras.
      + intros X. apply Ok_inj in X. injection X as <- _. apply tree_every_unfold. split; [exact Hp1|exact G1].
    - intros X. apply Ok_inj in X. injection X as <- _. apply tree_every_unfold. split; [exact Hp1|exact Hp2].
  Qed.
  Lemma paras_nodes m : forall t d, para_le m t -> In d (nodes t) -> n_t d = paragraph -> last_line d <= m.
  Proof.
    unfold para_le. induction t as [d0 kids IH] using tree_ind'. intros d H Hin Hd. apply tree_every_unfold in H as [H1 H2]. cbn [nodes] in Hin. destruct Hin as [->|Hin]; [apply H1, Hd|].
    apply in_flat_map in Hin as (k & K1 & K2). rewrite Forall_forall in IH, H2. apply (IH k K1 d (H2 k K1) K2 Hd).
  Qed.

  (** ** A paragraph that ends with the last line is open there *)
  Theorem open_top smart s p t d : ok_str (replace_char 0 65533 s) -> incorporate_lines (input_lines s) (reset (new_parser smart)) = Ok p -> parse_doc smart s = Ok t ->
    In d (nodes t) -> n_t d = paragraph -> last_line d = length (input_lines s) -> edge (length (input_lines s)) p /\ top_is paragraph p.
  Proof.
    intros Hs Ep Et Hin Hd Hl.
    assert (Hls : Forall (fun l => ok_str (replace_char 0 65533 l)) (input_lines s)). { apply Forall_forall. intros l H. eapply ok_infix; [apply infix_map, input_lines_infix, H|exact Hs]. }
    pose proof (lines_edge (input_lines s) 0 (reset (new_parser smart)) p Hls (reset_edge _) Ep) as He. cbn [plus] in He. split; [exact He|].
    destruct (p_stack p) as [|fr st] eqn:Es. { destruct He as [[He _] _]. rewrite Es in He. destruct He. }
    destruct (ntype_eqb (f_type fr) paragraph) eqn:Ety; [exists fr, st; split; [exact Es|destruct (f_type fr); try discriminate; reflexivity]|]. exfalso.
    assert (Hty : f_type fr <> paragraph) by (intros X; rewrite X in Ety; discriminate).
    unfold parse_doc, parse in Et. pose proof (parse_blocks_spec Q HQ HQc A s (new_parser smart) Hs) as Hb. unfold parse_blocks in Et, Hb. cbn zeta in Et, Hb. rewrite Ep in Et, Hb. cbn [bind] in Et, Hb.
    destruct (finalize_all _ _ p) as [q|e] eqn:Ef; [|discriminate]. cbn [bind] in Et. destruct Hb as (t0 & E0 & Hc0 & _ & _ & _ & Hr0). rewrite E0 in Et. cbn [of_option bind] in Et.
    destruct He as ((He1 & _) & He2 & _).
    assert (Hnp : Forall (fun fr => f_type fr <> paragraph) (p_stack p)) by (eapply no_paras; [exact He1|]; intros fr' st' X; rewrite Es in X; injection X as <- <-; exact Hty).
    destruct (finalize_all_paras _ _ _ _ _ Hnp He2 Ef ltac:(rewrite Es; discriminate)) as (t1 & E1 & Hp1). rewrite E0 in E1. apply Some_inj in E1 as <-.
    set (ip0 := IP _ _ _ _ _ _ _ _) in Et. destruct (process_inlines t0 ip0) as [[t' s']|e] eqn:Epi; [|discriminate]. cbn [bind] in Et. apply Ok_inj in Et as <-.
    pose proof (process_paras _ t0 ip0 t' s' Hc0 Hr0 Hp1 Epi) as Hp2. pose proof (paras_nodes _ _ _ Hp2 Hin Hd) as Hlast. pose proof (input_lines_ne s). lia.
  Qed.
End L.
