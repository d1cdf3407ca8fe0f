(** * Opening and closing blocks keeps the invariant *)
From Verif Require Import Base Regex Common NormRef Node Inlines Blocks RegexFacts RegexLang StrFacts Spec SpecTree TreeFacts CommonFacts StrProp EmphFacts InlineFacts InlineInv BlockFacts BlockInv.
From Coq Require Import ZifyBool ZifyNat ZifyN.

Lemma pos_line q p : pos_of q = pos_of p -> p_line q = p_line p.
Proof. unfold pos_of. intros H. injection H. intros. assumption. Qed.
Lemma pos_num q p : pos_of q = pos_of p -> p_line_number q = p_line_number p.
Proof. unfold pos_of. intros H. injection H. intros. assumption. Qed.
Lemma pos_off q p : pos_of q = pos_of p -> p_offset q = p_offset p.
Proof. unfold pos_of. intros H. injection H. intros. assumption. Qed.
Lemma pos_nn q p : pos_of q = pos_of p -> p_next_nonspace q = p_next_nonspace p.
Proof. unfold pos_of. intros H. injection H. intros. assumption. Qed.
Lemma pos_mat q p : pos_of q = pos_of p -> p_matched q = p_matched p.
Proof. unfold pos_of. intros H. injection H. intros. assumption. Qed.
Lemma pos_blank q p : pos_of q = pos_of p -> p_blank q = p_blank p.
Proof. unfold pos_of. intros H. injection H. intros. assumption. Qed.
Ltac posn H := pose proof (pos_line _ _ H); pose proof (pos_num _ _ H); pose proof (pos_off _ _ H); pose proof (pos_nn _ _ H); pose proof (pos_mat _ _ H).

Section S.
  Variable Q : N -> Prop.
  Hypothesis HQ : forall c, plain_char c -> Q c.
  Hypothesis HQc : forall c, Q c -> code_point c.
  Variable A : str -> Prop.
  Notation Qs := (Qs Q).
  Notation raises_unicode := (raises_unicode Q).
  Notation refs_ok := (refs_in Q A).
  Notation ok_str := (ok_str Q A).
  Notation open_data := (open_data Q A).
  Notation closed := (closed Q A).
  Notation kid_ok := (kid_ok Q A).
  Notation fr_ok := (fr_ok Q A).
  Notation stack_ok := (stack_ok Q A).
  Notation unicode_err := (unicode_err Q).
  Notation closes_to := (closes_to Q A).
  Notation ready := (ready A).
  Notation tip_ok := (tip_ok A).
  Notation content_ok := (content_ok Q A).

  Definition core (n : nat) (p : parser) : Prop :=
    stack_ok (n - 1) (p_stack p) /\ starts_le n (p_stack p) /\ p_line_number p = n /\ 1 <= n /\
    refs_ok (p_refmap p) /\ ok_str (p_line p) /\ 1 <= p_matched p.
  Lemma core_ext n p q : p_stack q = p_stack p -> p_line_number q = p_line_number p -> p_refmap q = p_refmap p -> p_line q = p_line p -> p_matched q = p_matched p -> core n p -> core n q.
  Proof. unfold core. intros -> -> -> -> ->. auto. Qed.
  Lemma map_cons_inv {X Y} (f : X -> Y) l y m : map f l = y :: m -> exists x l', l = x :: l' /\ f x = y /\ map f l' = m.
  Proof. destruct l as [|x l]; [discriminate|]. cbn. intros H. injection H as <- <-. eauto. Qed.
  Lemma starts_le_map m a b : map f_data a = map f_data b -> starts_le m a -> starts_le m b.
  Proof.
    unfold starts_le. revert b. induction a as [|x a IH]; intros b E H; destruct b as [|y b]; cbn in E; try discriminate; [constructor|].
    injection E as E1 E2. inversion H as [|x0 l H1 H2]; subst. constructor; [|apply IH; assumption]. unfold f_type. rewrite <- E1. exact H1.
  Qed.
  Lemma starts_le_skipn m k st : starts_le m st -> starts_le m (skipn k st).
  Proof. intros H. rewrite <- (firstn_skipn k st) in H. apply Forall_app in H as [_ H]. exact H. Qed.
  Lemma first_le E n fr st : stack_ok E (fr :: st) -> starts_le n (fr :: st) -> 1 <= n -> first_line (f_data fr) <= n.
  Proof.
    intros H1 H2 Hn. inversion H2 as [|x l [H|H] _]; subst; [|exact H]. destruct st as [|par st].
    - destruct H1 as [_ [_ ->]]. exact Hn.
    - apply not_doc in H1. congruence.
  Qed.
  Lemma first_old E m fr par st : stack_ok E (fr :: par :: st) -> starts_le m (fr :: par :: st) -> first_line (f_data fr) <= m.
  Proof. intros H1 H2. inversion H2 as [|x l [H|H] _]; subst; [|exact H]. apply not_doc in H1. congruence. Qed.

  (** closing the tip during a line *)
  Lemma add_kids E fr st extra : stack_ok E (fr :: st) -> Forall (kid_ok (f_type fr) (first_line (f_data fr)) E) extra -> stack_ok E (F (f_data fr) (f_kids fr ++ extra) :: st).
  Proof.
    intros H1 H2. eapply stack_ok_replace; [exact H1| |reflexivity|reflexivity]. pose proof (stack_ok_hd _ _ _ _ _ H1) as [H3 H4]. split; [exact H3|].
    apply Forall_app. split; [exact H4|exact H2].
  Qed.
  Lemma starts_le_tl m fr st : starts_le m (fr :: st) -> starts_le m st.
  Proof. intros H. inversion H; assumption. Qed.
  Lemma close_step n p fr par st : core n p -> p_stack p = fr :: par :: st -> ready fr -> first_line (f_data fr) <= n - 1 ->
    match finalize_tip (n - 1) p with
    | Ok q => core n q /\ tip_ok q /\ map f_data (p_stack q) = map f_data (par :: st) /\ pos_of q = pos_of p /\ p_all_closed q = p_all_closed p
    | Err e => unicode_err e
    end.
  Proof.
    intros (H1 & H2 & H3 & H4 & H5 & H6 & H7) E Hr Hf. rewrite E in H1, H2.
    pose proof (finalize_tip_spec Q HQ HQc A (n - 1) (n - 1) p fr (par :: st) E H1 (le_n _) Hf Hr H5) as H. destruct (finalize_tip (n - 1) p) as [q|e]; [|exact H].
    destruct H as (G1 & G2 & G3 & extra & G4 & G5 & G6). posn G1. split; [|split; [|split; [|split; [exact G1|exact G2]]]].
    - unfold core. rewrite G4. split; [apply add_kids; [eapply stack_ok_tl; exact H1|exact G5]|].
      split; [apply starts_le_tl in H2; eapply starts_le_replace; [exact H2|reflexivity|reflexivity]|].
      split; [congruence|]. split; [exact H4|]. split; [exact G3|]. split; [congruence|]. replace (p_matched q) with (p_matched p) by congruence. exact H7.
    - unfold BlockInv.tip_ok. rewrite G4. split; [|split].
      + intros El. intros Ek. cbn [f_kids] in Ek. apply app_eq_nil in Ek as [_ Ek]. apply (G6 El Ek).
      + intros Ec. exfalso. destruct H1 as [_ [Hh _]]. change (f_type par = code_block) in Ec. rewrite Ec in Hh. discriminate.
      + intros Ec. exfalso. destruct H1 as [_ [Hh _]]. change (f_type par = paragraph) in Ec. rewrite Ec in Hh. discriminate.
    - rewrite G4. reflexivity.
  Qed.
  Lemma close_loop_spec : forall f n p, core n p -> tip_ok p -> length (p_stack p) <= f -> starts_le (n - 1) (p_stack p) ->
    match close_loop f p with
    | Ok q => core n q /\ tip_ok q /\ map f_data (p_stack q) = skipn (length (p_stack p) - p_matched p) (map f_data (p_stack p)) /\ pos_of q = pos_of p /\ p_all_closed q = p_all_closed p
    | Err e => unicode_err e
    end.
  Proof.
    assert (Hbase : forall n p, core n p -> tip_ok p -> length (p_stack p) <= p_matched p ->
      core n p /\ tip_ok p /\ map f_data (p_stack p) = skipn (length (p_stack p) - p_matched p) (map f_data (p_stack p)) /\ pos_of p = pos_of p /\ p_all_closed p = p_all_closed p).
    { intros n p H1 H2 H3. replace (length (p_stack p) - p_matched p) with 0 by lia. auto 6. }
    induction f as [|f IH]; intros n p Hc Ht Hl Ho; cbn [close_loop]; destruct (Nat.leb_spec (length (p_stack p)) (p_matched p)); try (apply Hbase; assumption).
    - destruct Hc as (H1 & _ & _ & _ & _ & _ & H7). destruct (p_stack p); [destruct H1|cbn in *; lia].
    - destruct (p_stack p) as [|fr [|par st]] eqn:E.
      + unfold BlockInv.tip_ok in Ht. rewrite E in Ht. destruct Ht.
      + destruct Hc as (_ & _ & _ & _ & _ & _ & H7). cbn in *. lia.
      + assert (E3 : p_line_number p = n) by apply Hc. rewrite E3. pose proof Hc as (Hst & _). rewrite E in Hst. unfold BlockInv.tip_ok in Ht. rewrite E in Ht.
        pose proof (close_step n p fr par st Hc E Ht ltac:(eapply first_old; eassumption)) as H0. destruct (finalize_tip (n - 1) p) as [q|e]; cbn [bind]; [|exact H0].
        destruct H0 as (G1 & G2 & G3 & G4 & G5). assert (Hlen : length (p_stack q) = S (length st)) by (rewrite <- (map_length f_data), G3, map_length; reflexivity).
        posn G4. assert (Hm : p_matched q = p_matched p) by congruence.
        specialize (IH n q G1 G2 ltac:(cbn in Hl; lia) ltac:(eapply starts_le_map; [symmetry; exact G3|]; eapply starts_le_tl; exact Ho)).
        destruct (close_loop f q) as [q2|e]; [|exact IH]. destruct IH as (I1 & I2 & I3 & I4 & I5).
        split; [exact I1|]. split; [exact I2|]. split; [|split; congruence]. rewrite I3, G3, Hlen, Hm. cbn [length] in *.
        replace (S (S (length st)) - p_matched p) with (S (S (length st) - p_matched p)) by lia. reflexivity.
  Qed.

  (** ** During a line *)
  Definition mid (n : nat) (p : parser) : Prop :=
    core n p /\ tip_ok p /\ (p_all_closed p = false -> p_matched p <= length (p_stack p)) /\
    (starts_le (n - 1) (p_stack p) \/
     (p_all_closed p = true /\ exists fr st, p_stack p = fr :: st /\ (f_type fr = block_quote \/ f_type fr = item))).
  Lemma mid_ext n p q : p_stack q = p_stack p -> p_line_number q = p_line_number p -> p_refmap q = p_refmap p -> p_line q = p_line p -> p_matched q = p_matched p -> p_all_closed q = p_all_closed p -> mid n p -> mid n q.
  Proof. unfold mid, core, tip_ok. intros -> -> -> -> -> ->. auto. Qed.
  Definition target (p : parser) : list frame := skipn (if p_all_closed p then 0 else length (p_stack p) - p_matched p) (p_stack p).
  Definition container (p : parser) (c : ntype) : Prop := exists d l, map f_data (target p) = d :: l /\ n_t d = c.
  Lemma skipn_map {X Y} (f : X -> Y) k l : map f (skipn k l) = skipn k (map f l).
  Proof. revert l. induction k as [|k IH]; intros [|x l]; cbn; auto. Qed.
  Lemma close_unmatched_spec n p : mid n p ->
    match close_unmatched_blocks p with
    | Ok q => mid n q /\ p_all_closed q = true /\ pos_of q = pos_of p /\ map f_data (p_stack q) = map f_data (target p)
    | Err e => unicode_err e
    end.
  Proof.
    intros H. unfold close_unmatched_blocks, target. destruct (p_all_closed p) eqn:Ea; [auto|].
    destruct H as (H1 & H2 & H3 & H4). assert (Ho : starts_le (n - 1) (p_stack p)) by (destruct H4 as [H4|[H4 _]]; [exact H4|congruence]).
    pose proof (close_loop_spec (length (p_stack p)) n p H1 H2 (le_n _) Ho) as H. destruct (close_loop _ p) as [q|e]; cbn [bind]; [|exact H].
    destruct H as (G1 & G2 & G3 & G4 & G5). split; [|split; [reflexivity|split; [exact G4|rewrite skipn_map; exact G3]]].
    split; [exact G1|]. split; [exact G2|]. split; [discriminate|]. left. cbn [p_stack set_p_all_closed].
    apply (starts_le_map _ (skipn (length (p_stack p) - p_matched p) (p_stack p))); [rewrite G3, skipn_map; reflexivity|]. apply starts_le_skipn. exact Ho.
  Qed.

  Definition is_child (tag : ntype) : Prop := block_holds document tag = true.
  Lemma can_contain_holds d tag : kind_ok d -> is_child tag -> can_contain (n_t d) tag = Ok (block_holds (n_t d) tag).
  Proof. unfold kind_ok, is_child. destruct (n_t d); intros H1 H2; try contradiction; clear H1; destruct tag; try discriminate; reflexivity. Qed.
  Lemma fr_kind E fr st : stack_ok E (fr :: st) -> kind_ok (f_data fr).
  Proof. intros H. apply stack_ok_hd in H as [H _]. apply H. Qed.
  Lemma make_room_spec : forall f tag n p, is_child tag -> core n p -> tip_ok p -> length (p_stack p) < f ->
    (starts_le (n - 1) (p_stack p) \/ exists fr st, p_stack p = fr :: st /\ block_holds (f_type fr) tag = true) ->
    match make_room f tag p with
    | Ok q => core n q /\ pos_of q = pos_of p /\ p_all_closed q = p_all_closed p /\ exists fr st, p_stack q = fr :: st /\ block_holds (f_type fr) tag = true
    | Err e => unicode_err e
    end.
  Proof.
    induction f as [|f IH]; intros tag n p Htag Hc Ht Hl Ho; [lia|]. cbn [make_room].
    destruct (p_stack p) as [|fr st] eqn:E; [unfold BlockInv.tip_ok in Ht; rewrite E in Ht; destruct Ht|].
    unfold tip. rewrite E. cbn [hd_error of_option bind]. pose proof Hc as (Hst & _). rewrite E in Hst. unfold f_type. rewrite can_contain_holds; [|eapply fr_kind; exact Hst|exact Htag]. cbn [bind].
    destruct (block_holds (n_t (f_data fr)) tag) eqn:Eh.
    - split; [exact Hc|]. split; [reflexivity|]. split; [reflexivity|]. exists fr, st. auto.
    - destruct Ho as [Ho|(fr' & st' & E' & Hh)]; [|injection E' as <- <-; unfold f_type in Hh; congruence].
      destruct st as [|par st].
      + destruct Hst as [_ [Hd _]]. unfold f_type in Hd. rewrite Hd in Eh. unfold is_child in Htag. congruence.
      + assert (E3 : p_line_number p = n) by apply Hc. rewrite E3. unfold BlockInv.tip_ok in Ht. rewrite E in Ht.
        pose proof (close_step n p fr par st Hc E Ht ltac:(eapply first_old; eassumption)) as H0. destruct (finalize_tip (n - 1) p) as [q|e]; cbn [bind]; [|exact H0].
        destruct H0 as (G1 & G2 & G3 & G4 & G5). assert (Hlen : length (p_stack q) = S (length st)) by (rewrite <- (map_length f_data), G3, map_length; reflexivity).
        specialize (IH tag n q Htag G1 G2 ltac:(cbn in Hl; lia) ltac:(left; eapply starts_le_map; [symmetry; exact G3|]; eapply starts_le_tl; exact Ho)).
        destruct (make_room f tag q) as [q2|e]; [|exact IH]. destruct IH as (I1 & I2 & I3 & I4). split; [exact I1|]. split; [congruence|]. split; [congruence|exact I4].
  Qed.
  Definition push (d : ndata) (p : parser) : parser := set_p_stack (F d [] :: p_stack p) p.
  Definition fresh (tag : ntype) (n off : nat) : ndata := new_node tag (Some (n, off + 1, (0, 0))).
  Definition roomy (n : nat) (tag : ntype) (p q : parser) : Prop :=
    core n q /\ pos_of q = pos_of p /\ p_all_closed q = p_all_closed p /\ exists fr st, p_stack q = fr :: st /\ block_holds (f_type fr) tag = true.
  Lemma add_child_spec n tag off p : is_child tag -> mid n p ->
    match add_child tag off p with
    | Ok q => exists q1, q = push (fresh tag n off) q1 /\ roomy n tag p q1
    | Err e => unicode_err e
    end.
  Proof.
    intros Htag (H1 & H2 & _ & H4). unfold add_child.
    assert (Ho : starts_le (n - 1) (p_stack p) \/ exists fr st, p_stack p = fr :: st /\ block_holds (f_type fr) tag = true).
    { destruct H4 as [H4|(_ & fr & st & E & H4)]; [left; exact H4|right]. exists fr, st. split; [exact E|]. unfold is_child in Htag. destruct H4 as [->| ->]; destruct tag; try discriminate; reflexivity. }
    pose proof (make_room_spec (S (length (p_stack p))) tag n p Htag H1 H2 ltac:(lia) Ho) as H. destruct (make_room _ tag p) as [q|e]; cbn [bind]; [|exact H].
    exists q. split; [|exact H]. destruct H as (G1 & _). replace (p_line_number q) with n by (symmetry; apply G1). reflexivity.
  Qed.
  Lemma push_core n d q fr st : core n q -> p_stack q = fr :: st -> block_holds (f_type fr) (n_t d) = true -> open_data d -> first_line d = n -> core n (push d q).
  Proof.
    intros (H1 & H2 & H3 & H4 & H5 & H6 & H7) E Hh Hd Hf. unfold core, push. cbn [p_stack set_p_stack p_line_number p_refmap p_line p_matched].
    split; [|split; [|auto 6]].
    - eapply stack_ok_push; [exact E|exact H1| |exact Hh|].
      + split; [exact Hd|constructor].
      + cbn [f_data]. rewrite Hf. rewrite E in H1, H2. eapply first_le; eassumption.
    - constructor; [|exact H2]. right. cbn [f_data]. lia.
  Qed.
  Lemma open_new tag n off : 1 <= n -> (tag = document \/ tag = block_quote \/ tag = thematic_break \/ tag = paragraph \/ tag = code_block) -> open_data (fresh tag n off).
  Proof.
    intros Hn Ht. unfold BlockInv.open_data, fresh. split; [repeat split|]. split; [reflexivity|]. split; [reflexivity|].
    split; [unfold kind_ok; cbn [n_t new_node]; destruct Ht as [->|[->|[->|[->| ->]]]]; try exact I; discriminate|].
    split; [discriminate|]. split; [exact Hn|]. exists []. split; [reflexivity|]. split; [apply ok_nil|]. intros _. left. reflexivity.
  Qed.

  (** ** Starts *)
  Definition posok (p : parser) : Prop := p_offset p <= p_next_nonspace p /\ p_next_nonspace p <= length (p_line p).
  Definition lines_type (t : ntype) : bool := match t with code_block | html_block | paragraph => true | _ => false end.
  Definition leafy (n : nat) (p : parser) : Prop :=
    core n p /\ p_all_closed p = true /\ exists fr st, p_stack p = fr :: st /\
      ((lines_type (f_type fr) = true /\ f_type fr <> paragraph) \/ (ready fr /\ length (p_line p) <= p_offset p)).
  Definition good_start (n : nat) (c : ntype) (p : parser) (r : res (start * parser)) : Prop :=
    match r with
    | Ok (SNone, q) => mid n q /\ container q c /\ pos_of q = pos_of p
    | Ok (SContainer, q) => mid n q /\ p_all_closed q = true /\ p_line q = p_line p /\ p_offset p < p_offset q /\ p_offset q <= length (p_line p)
    | Ok (SLeaf, q) => leafy n q
    | Err e => unicode_err e
    end.
  Lemma good_none n c p : mid n p -> container p c -> good_start n c p (Ok (SNone, p)).
  Proof. cbn. auto. Qed.
  Lemma rest_ok p k : ok_str (p_line p) -> ok_str (skipn k (p_line p)).
  Proof. apply ok_infix, infix_skipn. Qed.
  Lemma core_line n p : core n p -> ok_str (p_line p).
  Proof. intros H. apply H. Qed.
  Lemma core_n n p : core n p -> 1 <= n.
  Proof. intros H. apply H. Qed.

  (** a block that is the new tip, childless, with ready data *)
  Lemma push_mid n d q fr st : core n q -> p_all_closed q = true -> p_stack q = fr :: st -> block_holds (f_type fr) (n_t d) = true -> open_data d -> first_line d = n ->
    n_t d = block_quote \/ n_t d = item -> mid n (push d q).
  Proof.
    intros H1 H2 H3 H4 H5 H6 H7. split; [eapply push_core; eassumption|]. split; [|split].
    - unfold BlockInv.tip_ok, push. cbn [p_stack set_p_stack]. split; [|split]; intros E; change (n_t d = list_) in E || change (n_t d = code_block) in E || change (n_t d = paragraph) in E; destruct H7; congruence.
    - cbn [push p_all_closed set_p_stack]. congruence.
    - right. split; [exact H2|]. exists (F d []), (p_stack q). split; [reflexivity|exact H7].
  Qed.
  Lemma opt_is_peek c l i : opt_is c (peek l i) = true -> nth_error l i = Some c.
  Proof. unfold opt_is, peek. destruct (nth_error l i) as [x|]; [|discriminate]. intros H. apply N.eqb_eq in H as ->. reflexivity. Qed.
  Lemma nth_skipn {X} (l : list X) i x : nth_error l i = Some x -> exists r, skipn i l = x :: r.
  Proof.
    revert l. induction i as [|i IH]; intros [|y l]; cbn; try discriminate.
    - intros H. injection H as ->. eauto.
    - apply IH.
  Qed.
  Lemma mid_mv n p a b c : mid n p -> mid n (mv a b c p).
  Proof. apply mid_ext; reflexivity. Qed.

  Lemma block_quote_good n c p : mid n p -> container p c -> posok p -> good_start n c p (start_block_quote p).
  Proof.
    intros Hm Hc Hp. unfold start_block_quote. destruct (negb (p_indented p) && opt_is 62 (peek (p_line p) (p_next_nonspace p))) eqn:E; [|apply good_none; assumption].
    apply andb_prop in E as [_ E]. apply opt_is_peek in E. rewrite advance_next_nonspace_mv. pose proof E as El. apply nth_skipn in E as [r E].
    change (advance_offset 1 false) with (advance_offset (length [62%N]) false).
    rewrite (advance_nontab [62%N] false (mv (p_next_nonspace p) (p_next_nonspace_column p) false p) r E); [|intros [G|[]]; discriminate|discriminate].
    rewrite mv_mv. cbn [length]. set (p1 := mv _ _ _ p).
    assert (H2 : exists off col pct, (if is_space_or_tab (peek (p_line p1) (p_offset p1)) then advance_offset 1 true p1 else p1) = mv off col pct p /\ p_next_nonspace p < off /\ off <= length (p_line p)).
    { assert (Hlt : p_next_nonspace p < length (p_line p)) by (apply nth_error_Some; congruence).
      destruct (is_space_or_tab _).
      - destruct (advance_offset_mv 1 true p1) as (off & col & pct & -> & H1 & H2). exists off, col, pct. cbn in H1, H2. split; [reflexivity|]. lia.
      - do 3 eexists. split; [reflexivity|]. cbn. lia. }
    destruct H2 as (off & col & pct & -> & H2 & H3). clear p1.
    pose proof (close_unmatched_spec n (mv off col pct p) (mid_mv _ _ _ _ _ Hm)) as H. destruct (close_unmatched_blocks _) as [p3|e]; cbn [bind]; [|exact H].
    destruct H as (M3 & A3 & P3 & _). pose proof (add_child_spec n block_quote (p_next_nonspace p3) p3 eq_refl M3) as H. destruct (add_child _ _ p3) as [p4|e]; cbn [bind]; [|exact H].
    destruct H as (q1 & -> & (R1 & R2 & R3 & fr & st & R4 & R5)). pose proof (eq_trans R2 P3) as P4. posn P4. cbn [mv p_offset p_line p_line_number p_next_nonspace p_matched] in *. cbn [good_start push p_offset p_line p_all_closed set_p_stack].
    split; [|split; [congruence|split; [congruence|destruct Hp; lia]]].
    eapply push_mid; try eassumption; [congruence|apply open_new; [eapply core_n; exact R1|auto]|reflexivity|left; reflexivity].
  Qed.

  Lemma on_tip_push g d q : on_tip g (push d q) = Ok (push (g d) q).
  Proof. reflexivity. Qed.
  Lemma push_leafy n d q fr st : core n q -> p_all_closed q = true -> p_stack q = fr :: st -> block_holds (f_type fr) (n_t d) = true -> open_data d -> first_line d = n ->
    lines_type (n_t d) = true -> n_t d <> paragraph -> leafy n (push d q).
  Proof.
    intros H1 H2 H3 H4 H5 H6 H7 H8. split; [eapply push_core; eassumption|]. split; [exact H2|]. exists (F d []), (p_stack q). split; [reflexivity|]. left. split; [exact H7|exact H8].
  Qed.
  Lemma leafy_mv n p a b c : (exists fr st, p_stack p = fr :: st /\ lines_type (f_type fr) = true /\ f_type fr <> paragraph) -> leafy n p -> leafy n (mv a b c p).
  Proof.
    intros (fr & st & E & Hl) (H1 & H2 & _). split; [eapply core_ext; [..|exact H1]; reflexivity|]. split; [exact H2|]. exists fr, st. split; [exact E|]. left. exact Hl.
  Qed.
  Lemma leafy_end n p : core n p -> p_all_closed p = true -> (exists fr st, p_stack p = fr :: st /\ ready fr) -> leafy n (advance_to_end p).
  Proof.
    intros H1 H2 (fr & st & E & Hr). destruct (advance_to_end_mv p) as (off & col & pct & -> & Hoff).
    split; [eapply core_ext; [..|exact H1]; reflexivity|]. split; [exact H2|]. exists fr, st. split; [exact E|]. right. split; [exact Hr|exact Hoff].
  Qed.
  Lemma open_heading n off s lv sp : 1 <= first_line (new_node heading sp) -> sp <> None -> ok_str s -> 1 <= lv <= 6 -> open_data (set_n_string_content (Some s) (set_n_level (Some lv) (new_node heading sp))) /\ (sp = Some (n, off + 1, (0, 0)) -> first_line (new_node heading sp) = n).
  Proof.
    intros H1 H2 H3 H4. split; [|intros ->; reflexivity]. split; [repeat split|]. split; [reflexivity|]. split; [reflexivity|].
    split; [exists lv; split; [reflexivity|exact H4]|]. split; [exact H2|]. split; [exact H1|]. exists s. split; [reflexivity|]. split; [exact H3|]. intros G. destruct (G eq_refl).
  Qed.
  Lemma atx_content_ok s : ok_str s -> ok_str (atx_content s).
  Proof.
    intros [H1 H2]. split; [|intros w Hw Ha; apply H2; [exact Hw|apply word_atx, Ha; exact Hw]]. unfold atx_content. apply (re_sub_chars Q); [intros; constructor|]. apply (re_sub_chars Q); [intros; constructor|exact H1].
  Qed.
  Lemma atx_good n c p : mid n p -> container p c -> posok p -> good_start n c p (start_atx_heading p).
  Proof.
    intros Hm Hc Hp. unfold start_atx_heading. destruct (p_indented p); [apply good_none; assumption|].
    destruct (re_search reATXHeadingMarker (rest_nonspace p)) as [m|] eqn:E; [|apply good_none; assumption].
    apply atx_level in E. rewrite advance_next_nonspace_mv.
    destruct (advance_offset_mv (length (rm_group m)) false (mv (p_next_nonspace p) (p_next_nonspace_column p) false p)) as (off & col & pct & -> & _). rewrite mv_mv.
    pose proof (close_unmatched_spec n (mv off col pct p) (mid_mv _ _ _ _ _ Hm)) as H. destruct (close_unmatched_blocks _) as [p2|e]; cbn [bind]; [|exact H].
    destruct H as (M3 & A3 & P3 & _). pose proof (add_child_spec n heading (p_next_nonspace p2) p2 eq_refl M3) as H. destruct (add_child _ _ p2) as [p4|e]; cbn [bind]; [|exact H].
    destruct H as (q1 & -> & (R1 & R2 & R3 & fr & st & R4 & R5)). rewrite on_tip_push. cbn [bind]. cbn [good_start].
    set (d := set_n_string_content _ _).
    assert (Hd : open_data d).
    { apply (open_heading n (p_next_nonspace p2)); [|discriminate|apply atx_content_ok, rest_ok; exact (core_line n q1 R1)|exact E]. change (1 <= n). eapply core_n; exact R1. }
    apply leafy_end.
    - eapply push_core; try eassumption. reflexivity.
    - change (p_all_closed q1 = true). congruence.
    - exists (F d []), (p_stack q1). split; [reflexivity|]. split; [|split]; intros G; discriminate.
  Qed.

  Lemma fenced_good n c p : mid n p -> container p c -> posok p -> good_start n c p (start_fenced_code p).
  Proof.
    intros Hm Hc Hp. unfold start_fenced_code. destruct (p_indented p); [apply good_none; assumption|].
    destruct (re_search reCodeFence (rest_nonspace p)) as [m|] eqn:E; [|apply good_none; assumption].
    apply search_nonempty in E; [|vm_compute; reflexivity|vm_compute; reflexivity]. apply hd_error_nonempty in E as [x E].
    pose proof (close_unmatched_spec n p Hm) as H. destruct (close_unmatched_blocks _) as [p2|e]; cbn [bind]; [|exact H].
    destruct H as (M3 & A3 & P3 & _). pose proof (add_child_spec n code_block (p_next_nonspace p2) p2 eq_refl M3) as H. destruct (add_child _ _ p2) as [p4|e]; cbn [bind]; [|exact H].
    destruct H as (q1 & -> & (R1 & R2 & R3 & fr & st & R4 & R5)). rewrite E. cbn [of_option bind]. rewrite on_tip_push. cbn [bind good_start].
    set (d := set_n_fence_offset _ _). rewrite advance_next_nonspace_mv.
    destruct (advance_offset_mv (length (rm_group m)) false (mv (p_next_nonspace (push d q1)) (p_next_nonspace_column (push d q1)) false (push d q1))) as (off & col & pct & -> & _). rewrite mv_mv.
    apply leafy_mv; [exists (F d []), (p_stack q1); split; [reflexivity|split; [reflexivity|discriminate]]|].
    eapply push_leafy; try eassumption; try reflexivity; [congruence| |discriminate].
    destruct (open_new code_block n (p_next_nonspace p2) (core_n _ _ R1) ltac:(auto 6)) as (O1 & O2 & O3 & O4 & O5 & O6 & O7).
    split; [exact O1|]. split; [exact O2|]. split; [exact O3|]. split; [|auto]. intros _. eexists. reflexivity.
  Qed.

  Lemma html_good n c p : mid n p -> container p c -> posok p -> good_start n c p (start_html_block c p).
  Proof.
    intros Hm Hc Hp. unfold start_html_block. destruct (negb _ && _); [|apply good_none; assumption].
    destruct (html_type _ _) as [ty|]; [|apply good_none; assumption].
    pose proof (close_unmatched_spec n p Hm) as H. destruct (close_unmatched_blocks _) as [p2|e]; cbn [bind]; [|exact H].
    destruct H as (M3 & A3 & P3 & _). pose proof (add_child_spec n html_block (p_offset p2) p2 eq_refl M3) as H. destruct (add_child _ _ p2) as [p4|e]; cbn [bind]; [|exact H].
    destruct H as (q1 & -> & (R1 & R2 & R3 & fr & st & R4 & R5)). rewrite on_tip_push. cbn [bind good_start].
    eapply push_leafy; try eassumption; try reflexivity; [congruence| |discriminate].
    split; [repeat split|]. split; [reflexivity|]. split; [reflexivity|]. split; [exists ty; reflexivity|]. split; [discriminate|]. split; [exact (core_n _ _ R1)|].
    exists []. split; [reflexivity|]. split; [apply ok_nil|]. intros _. left. reflexivity.
  Qed.

  Lemma thematic_good n c p : mid n p -> container p c -> posok p -> good_start n c p (start_thematic_break p).
  Proof.
    intros Hm Hc Hp. unfold start_thematic_break. destruct (negb _ && _); [|apply good_none; assumption].
    pose proof (close_unmatched_spec n p Hm) as H. destruct (close_unmatched_blocks _) as [p2|e]; cbn [bind]; [|exact H].
    destruct H as (M3 & A3 & P3 & _). pose proof (add_child_spec n thematic_break (p_next_nonspace p2) p2 eq_refl M3) as H. destruct (add_child _ _ p2) as [p4|e]; cbn [bind]; [|exact H].
    destruct H as (q1 & -> & (R1 & R2 & R3 & fr & st & R4 & R5)). cbn [good_start]. apply leafy_end.
    - eapply push_core; try eassumption; [apply open_new; [exact (core_n _ _ R1)|auto]|reflexivity].
    - change (p_all_closed q1 = true). congruence.
    - eexists _, _. split; [reflexivity|]. split; [|split]; intros G; discriminate.
  Qed.

  Lemma indented_good n c p : mid n p -> container p c -> posok p -> good_start n c p (start_indented_code p).
  Proof.
    intros Hm Hc Hp. unfold start_indented_code, tip. pose proof Hm as (_ & Ht & _). unfold BlockInv.tip_ok in Ht. destruct (p_stack p) as [|fr0 st0]; [destruct Ht|]. cbn [hd_error of_option bind].
    destruct (_ && _ && _); [|apply good_none; assumption].
    destruct (advance_offset_mv CODE_INDENT true p) as (off & col & pct & -> & _).
    pose proof (close_unmatched_spec n (mv off col pct p) (mid_mv _ _ _ _ _ Hm)) as H. destruct (close_unmatched_blocks _) as [p2|e]; cbn [bind]; [|exact H].
    destruct H as (M3 & A3 & P3 & _). pose proof (add_child_spec n code_block (p_offset p2) p2 eq_refl M3) as H. destruct (add_child _ _ p2) as [p4|e]; cbn [bind]; [|exact H].
    destruct H as (q1 & -> & (R1 & R2 & R3 & fr & st & R4 & R5)). cbn [good_start].
    eapply push_leafy; try eassumption; try reflexivity; [congruence| |discriminate]. apply open_new; [exact (core_n _ _ R1)|auto 6].
  Qed.

  (** the tip of a mid-line stack, replaced *)
  Lemma mid_tip n p : mid n p -> exists fr st, p_stack p = fr :: st /\ ready fr /\ fr_ok (n - 1) fr.
  Proof.
    intros (H1 & H2 & _). unfold BlockInv.tip_ok in H2. destruct (p_stack p) as [|fr st] eqn:E; [destruct H2|]. exists fr, st. split; [reflexivity|]. split; [exact H2|].
    destruct H1 as (H1 & _). rewrite E in H1. eapply stack_ok_hd; exact H1.
  Qed.
  Lemma setext_good n c p : mid n p -> container p c -> posok p -> good_start n c p (start_setext_heading c p).
  Proof.
    intros Hm Hc Hp. unfold start_setext_heading. destruct (negb (p_indented p) && ntype_eqb c paragraph) eqn:Ec; [|apply good_none; assumption].
    apply andb_prop in Ec as [_ Ec]. assert (Ecp : c = paragraph) by (destruct c; try discriminate; reflexivity). subst c.
    destruct (re_search reSetextHeadingLine (rest_nonspace p)) as [m|] eqn:E; [|apply good_none; assumption].
    apply search_nonempty in E; [|vm_compute; reflexivity|vm_compute; reflexivity]. apply hd_error_nonempty in E as [x E].
    pose proof (close_unmatched_spec n p Hm) as H. destruct (close_unmatched_blocks _) as [p1|e]; cbn [bind]; [|exact H].
    destruct H as (M1 & A1 & P1 & T1). destruct Hc as (d & l & Ed & Et). rewrite Ed in T1.
    destruct (mid_tip n p1 M1) as (fr & st & E1 & Hr & Hok). unfold tip. rewrite E1. cbn [hd_error of_option bind]. rewrite E1 in T1. cbn [map] in T1. injection T1 as T1 T2.
    destruct Hok as [Ho Hk]. pose proof Ho as (O1 & O2 & O3 & O4 & O5 & O6 & (sc & O7 & O8 & O9)). rewrite O7. cbn [of_option bind].
    pose proof M1 as (Hcore & _ & Hma & Hold). pose proof Hcore as (C1 & C2 & C3 & C4 & C5 & C6 & C7).
    pose proof (strip_refs_spec Q HQ HQc A sc p1 O8 C5) as H. destruct (strip_refs sc p1) as [[[c b] p2]|e]; cbn [bind]; [|exact H].
    destruct H as ((k & -> & Hk0) & S2 & S3 & S4 & S5 & S6). posn S3. rewrite E1 in S5.
    assert (Hold' : starts_le (n - 1) (fr :: st)).
    { rewrite E1 in Hold. destruct Hold as [Hold|(_ & fr' & st' & E' & Hold)]; [exact Hold|]. injection E' as <- <-. unfold f_type in Hold. rewrite T1, Et in Hold. destruct Hold; discriminate. }
    assert (Hfr : f_type fr = paragraph) by (unfold f_type; congruence).
    destruct (is_nil (skipn k sc)) eqn:En.
    - unfold on_tip. rewrite S5. cbn [bind good_start]. set (fr' := set_f_data _ fr).
      assert (Hst' : stack_ok (n - 1) (fr' :: st)).
      { rewrite E1 in C1. eapply stack_ok_replace; [exact C1| |reflexivity|reflexivity]. split; [|exact Hk].
        split; [exact O1|]. split; [exact O2|]. split; [exact O3|]. split; [exact O4|]. split; [exact O5|]. split; [exact O6|].
        exists (skipn k sc). split; [reflexivity|]. split; [eapply ok_infix; [apply infix_skipn|exact O8]|]. intros _. apply lines_ok_skipn. apply O9. change (n_t (f_data fr)) with (f_type fr). congruence. }
      split; [|split].
      + split.
        * unfold core. cbn [p_stack set_p_stack p_line_number p_refmap p_line p_matched]. rewrite E1 in C2. split; [exact Hst'|]. split; [eapply starts_le_replace; [exact C2|reflexivity|reflexivity]|]. split; [congruence|]. split; [exact C4|]. split; [exact S2|]. split; [congruence|]. replace (p_matched p2) with (p_matched p1) by congruence. exact C7.
        * split; [|split].
          -- unfold BlockInv.tip_ok. cbn [p_stack set_p_stack]. split; [|split]; intros G; [change (f_type fr = list_) in G; congruence|change (f_type fr = code_block) in G; congruence|].
             intros HA s Es. change (Some (skipn k sc) = Some s) in Es. apply Some_inj in Es as <-. rewrite (Hk0 HA). destruct Hr as (_ & _ & Hr). apply Hr; [exact Hfr|exact HA|exact O7].
          -- intros G. change (p_all_closed p2 = false) in G. congruence.
          -- left. cbn [p_stack set_p_stack]. eapply starts_le_replace; [exact Hold'|reflexivity|reflexivity].
      + unfold container, target. cbn [p_all_closed set_p_stack p_stack]. rewrite S4, A1. cbn [skipn map]. exists (set_n_string_content (Some (skipn k sc)) (f_data fr)), (map f_data st).
        split; [reflexivity|exact Hfr].
      + transitivity (pos_of p1); [exact S3|exact P1].
    - rewrite E. cbn [of_option bind good_start]. set (hd := set_n_string_content _ _).
      assert (Hd : open_data hd).
      { apply (open_heading n 0); [exact O6|exact O5|eapply ok_infix; [apply infix_skipn|exact O8]|destruct (N.eqb x 61); lia]. }
      rewrite S5. cbn [tl]. rewrite E1 in C1, C2.
      apply leafy_end.
      + unfold core. cbn [p_stack set_p_stack p_line_number p_refmap p_line p_matched]. split; [|split; [|split; [congruence|split; [exact C4|split; [exact S2|split; [congruence|replace (p_matched p2) with (p_matched p1) by congruence; exact C7]]]]]].
        * destruct st as [|par st]; [destruct C1 as [_ [C1 _]]; congruence|]. destruct C1 as [_ (D1 & D2 & D3)]. split; [split; [exact Hd|constructor]|].
          split; [|split; [exact D2|exact D3]]. rewrite Hfr in D1. change (block_holds (f_type par) heading = true). destruct (f_type par); try discriminate; reflexivity.
        * inversion C2 as [|x0 l0 D1 D2]; subst. constructor; [|exact D2]. right. destruct D1 as [D1|D1]; [congruence|exact D1].
      + change (p_all_closed p2 = true). congruence.
      + exists (F hd []), st. split; [reflexivity|]. split; [|split]; intros G; discriminate.
  Qed.

  (** list items *)
  Lemma list_marker_ok s para ind m ld : list_marker s para ind = Some (m, ld) ->
    (exists r, s = m ++ r) /\ m <> [] /\ ~ In TAB m /\ ld_ok ld.
  Proof.
    unfold list_marker. destruct (re_search reBulletListMarker s) as [x|] eqn:E.
    - intros H. apply Some_inj in H. injection H as <- <-. apply bullet_shape in E as (c & E1 & E2 & E3). rewrite E1.
      split; [exists (rm_after x); exact E3|]. split; [discriminate|]. split.
      + intros [G|[]]. subst c. cbn in E2. unfold TAB in E2. intuition discriminate.
      + unfold ld_ok. cbn. split; [reflexivity|]. split; [reflexivity|]. exists c. auto.
    - destruct (re_search reOrderedListMarker s) as [x|] eqn:E2; [|discriminate]. destruct (_ || _); [|discriminate]. intros H. apply Some_inj in H. injection H as <- <-.
      apply ordered_shape in E2 as (ds & d & E3 & E4 & E5 & E6 & E7 & E8 & E9). rewrite E3, E8, E9.
      split; [exists (rm_after x); rewrite <- app_assoc; exact E4|]. split; [destruct ds; discriminate|]. split.
      + intros G. apply in_app_or in G as [G|[G|[]]].
        * rewrite Forall_forall in E6. apply E6 in G. discriminate.
        * subst d. cbn in E7. unfold TAB in E7. intuition discriminate.
      + unfold ld_ok. cbn [ld_type ld_bullet_char ld_start ld_delimiter or_empty hd_error]. split; [reflexivity|]. split; [|exists d; auto].
        exists (int_of_digits ds). split; [reflexivity|]. pose proof (int_of_digits_bound ds) as B.
        assert (10 ^ N.of_nat (length ds) <= 10 ^ 9)%N by (apply N.pow_le_mono_r; lia). change (10 ^ 9)%N with 1000000000%N in *. lia.
  Qed.
  Lemma marker_spaces_spec : forall f start p, 1 <= f -> start + 6 <= p_column p + f -> p_offset p <= length (p_line p) ->
    exists off col pct, marker_spaces f start p = Ok (mv off col pct p) /\ p_offset p <= off /\ off <= length (p_line p).
  Proof.
    induction f as [|f IH]; intros start p Hf Hs Hp; [lia|]. cbn [marker_spaces].
    destruct (peek (p_line p) (p_offset p)) as [x|] eqn:E.
    - destruct (advance_one_col p) as (off & pct & E1 & H1); [congruence|]. rewrite E1.
      assert (Hoff : off <= length (p_line p)). { apply peek_some_lt in E. lia. }
      destruct (Nat.ltb _ 5 && _) eqn:Eb.
      + apply andb_prop in Eb as [Eb _]. apply Nat.ltb_lt in Eb. cbn [mv p_column] in Eb.
        destruct (IH start (mv off (S (p_column p)) pct p)) as (o2 & c2 & t2 & E2 & H2 & H3); [cbn [mv p_column]; lia|cbn [mv p_column]; lia|exact Hoff|].
        exists o2, c2, t2. rewrite E2, mv_mv. cbn [mv p_offset p_line] in H2, H3. split; [reflexivity|]. lia.
      + exists off, (S (p_column p)), pct. split; [reflexivity|]. lia.
    - assert (E1 : advance_offset 1 true p = p) by (unfold advance_offset; cbn [advance_loop]; rewrite E; reflexivity).
      rewrite E1, E. cbn [is_space_or_tab]. rewrite andb_false_r. exists (p_offset p), (p_column p), (p_pct p). split; [f_equal; apply mv_id|]. lia.
  Qed.
  Lemma ld_ok_padding v ld : ld_ok ld -> ld_ok (set_ld_padding v ld).
  Proof. intros H. exact H. Qed.
  Lemma parse_list_marker_spec c p : posok p ->
    match parse_list_marker c p with
    | Ok (None, q) => q = p
    | Ok (Some ld, q) => (ld_ok ld /\ 1 <= ld_padding ld) /\ exists off col pct, q = mv off col pct p /\ p_offset p < off /\ off <= length (p_line p)
    | Err _ => False
    end.
  Proof.
    intros [Hp1 Hp2]. unfold parse_list_marker. destruct (Nat.leb 4 (p_indent p)); [reflexivity|].
    destruct (list_marker (rest_nonspace p) (ntype_eqb c paragraph) (p_indent p)) as [[m ld]|] eqn:E; [|reflexivity].
    apply list_marker_ok in E as ((r & E) & Hne & Htab & Hld). destruct (negb _); [reflexivity|]. destruct (_ && _); [reflexivity|].
    rewrite advance_next_nonspace_mv. rewrite (advance_nontab m true (mv (p_next_nonspace p) (p_next_nonspace_column p) false p) r E Htab Hne). rewrite mv_mv.
    cbn [mv p_offset p_column]. set (p1 := mv _ _ _ p). cbn [p1 mv p_column p_offset].
    assert (Hlen : p_next_nonspace p + length m <= length (p_line p)).
    { unfold rest_nonspace in E. assert (G : length (skipn (p_next_nonspace p) (p_line p)) = length m + length r) by (rewrite E; apply app_length). rewrite skipn_length in G. lia. }
    assert (Hm1 : 1 <= length m) by (destruct m; [congruence|cbn; lia]).
    destruct (marker_spaces_spec 6 (p_next_nonspace_column p + length m) p1) as (off & col & pct & -> & H1 & H2); [lia|cbn [p1 mv p_column]; lia|exact Hlen|]. cbn [bind].
    cbn [p1 mv p_offset p_line] in H1, H2. unfold p1. rewrite mv_mv. destruct (_ || _).
    - set (p3 := set_p_offset _ _). assert (E3 : p3 = mv (p_next_nonspace p + length m) (p_next_nonspace_column p + length m) pct p) by reflexivity. rewrite E3.
      destruct (is_space_or_tab _).
      + destruct (advance_offset_mv 1 true (mv (p_next_nonspace p + length m) (p_next_nonspace_column p + length m) pct p)) as (o2 & c2 & t2 & E4 & H3 & H4). rewrite E4, mv_mv. cbn [mv p_offset p_line] in H3, H4.
        split; [split; [exact Hld|cbn [set_ld_padding ld_padding]; clear -Hm1; lia]|]. exists o2, c2, t2. split; [reflexivity|]. lia.
      + split; [split; [exact Hld|cbn [set_ld_padding ld_padding]; clear -Hm1; lia]|]. do 3 eexists. split; [reflexivity|]. lia.
    - split; [split; [exact Hld|cbn [set_ld_padding ld_padding]; clear -Hm1; lia]|]. exists off, col, pct. split; [reflexivity|]. lia.
  Qed.
  Lemma open_listy n tag off ld : tag = list_ \/ tag = item -> 1 <= n -> ld_ok ld /\ 1 <= ld_padding ld -> open_data (set_n_list_data (Some ld) (fresh tag n off)).
  Proof.
    intros Ht Hn Hld. split; [repeat split|]. split; [reflexivity|]. split; [reflexivity|].
    split; [unfold kind_ok; cbn [n_t set_n_list_data fresh new_node]; destruct Ht as [->| ->]; exists ld; auto|]. split; [discriminate|]. split; [exact Hn|].
    exists []. split; [reflexivity|]. split; [apply ok_nil|]. intros _. left. reflexivity.
  Qed.
  Lemma add_item n off p fr st : core n p -> p_stack p = fr :: st -> f_type fr = list_ -> add_child item off p = Ok (push (fresh item n off) p).
  Proof.
    intros Hc E Et. unfold add_child. cbn [make_room]. unfold tip. rewrite E. cbn [hd_error of_option bind]. rewrite Et. cbn [can_contain is_block_type ntype_eqb bind].
    replace (p_line_number p) with n by (symmetry; apply Hc). unfold push. rewrite E. reflexivity.
  Qed.
  Lemma list_item_good n c p : mid n p -> container p c -> posok p -> good_start n c p (start_list_item c p).
  Proof.
    intros Hm Hc Hp. unfold start_list_item. destruct (_ || _); [|apply good_none; assumption].
    pose proof (parse_list_marker_spec c p Hp) as H. destruct (parse_list_marker c p) as [[[ld|] p1]|e]; cbn [bind]; [| |destruct H].
    2:{ subst p1. apply good_none; assumption. }
    destruct H as (Hld & off & col & pct & -> & H1 & H2).
    pose proof (close_unmatched_spec n (mv off col pct p) (mid_mv _ _ _ _ _ Hm)) as H. destruct (close_unmatched_blocks _) as [p2|e]; cbn [bind]; [|exact H].
    destruct H as (M2 & A2 & P2 & _). destruct (mid_tip n p2 M2) as (fr & st & E & Hr & Hok). unfold tip. rewrite E. cbn [hd_error of_option bind].
    assert (Hlast : forall q fr st, core n q -> p_all_closed q = true -> pos_of q = pos_of (mv off col pct p) -> p_stack q = fr :: st -> f_type fr = list_ ->
       good_start n c p (let* p4 := add_child item (p_next_nonspace q) q in let* p5 := on_tip (set_n_list_data (Some ld)) p4 in Ok (SContainer, p5))).
    { intros q fr' st' Hq Ha Hpos Eq Et. rewrite (add_item n (p_next_nonspace q) q fr' st' Hq Eq Et). cbn [bind]. rewrite on_tip_push. cbn [bind good_start]. posn Hpos. cbn [mv p_offset p_line p_line_number p_next_nonspace p_matched] in *. cbn [good_start push p_offset p_line p_all_closed set_p_stack].
      split; [|split; [exact Ha|split; [congruence|split; lia]]].
      eapply push_mid; try eassumption; [rewrite Et; reflexivity|apply open_listy; [right; reflexivity|exact (core_n _ _ Hq)|exact Hld]|reflexivity|right; reflexivity]. }
    destruct (negb (ntype_eqb (f_type fr) list_) || negb (lists_match (n_list_data (f_data fr)) ld)) eqn:Eb.
    - pose proof (add_child_spec n list_ (p_next_nonspace p2) p2 eq_refl M2) as H. destruct (add_child list_ _ p2) as [q|e]; cbn [bind]; [|exact H].
      destruct H as (q1 & -> & (R1 & R2 & R3 & fr' & st' & R4 & R5)). rewrite on_tip_push. cbn [bind].
      eapply Hlast; [|..|reflexivity|reflexivity].
      + eapply push_core; try eassumption; [apply open_listy; [left; reflexivity|exact (core_n _ _ R1)|exact Hld]|reflexivity].
      + change (p_all_closed q1 = true). congruence.
      + change (pos_of q1 = pos_of (mv off col pct p)). congruence.
    - cbn [bind]. apply orb_false_iff in Eb as [Eb _]. apply negb_false_iff in Eb. destruct (f_type fr) eqn:Et; try discriminate.
      eapply Hlast; try eassumption. apply M2.
  Qed.

  Lemma try_starts_good n c : forall l, (forall f, In f l -> forall p, mid n p -> container p c -> posok p -> good_start n c p (f c p)) ->
    forall p, mid n p -> container p c -> posok p -> good_start n c p (try_starts l c p).
  Proof.
    induction l as [|f l IH]; intros Hl p H1 H2 H3; cbn [try_starts]; [apply good_none; assumption|].
    pose proof (Hl f (or_introl eq_refl) p H1 H2 H3) as H. destruct (f c p) as [[[| |] q]|e]; cbn [bind]; try exact H.
    destruct H as (G1 & G2 & G3). posn G3. assert (G4 : posok q). { unfold posok in *. replace (p_offset q) with (p_offset p) by congruence. replace (p_next_nonspace q) with (p_next_nonspace p) by congruence. replace (p_line q) with (p_line p) by congruence. exact H3. }
    assert (G5 := IH (fun f Hf => Hl f (or_intror Hf)) q G1 G2 G4).
    unfold good_start in *. destruct (try_starts l c q) as [[[| |] q2]|e]; try exact G5.
    - destruct G5 as (I1 & I2 & I3). split; [exact I1|]. split; [exact I2|congruence].
    - destruct G5 as (I1 & I2 & I3 & I4 & I5). split; [exact I1|]. split; [exact I2|]. split; [congruence|]. replace (p_offset p) with (p_offset q) by congruence. replace (p_line p) with (p_line q) by congruence. auto.
  Qed.
  Lemma block_starts_good n c p : mid n p -> container p c -> posok p -> good_start n c p (try_starts block_starts c p).
  Proof.
    apply try_starts_good. intros f Hf. cbn [block_starts In] in Hf.
    destruct Hf as [<-|[<-|[<-|[<-|[<-|[<-|[<-|[<-|[]]]]]]]]]; intros q.
    - apply block_quote_good.
    - apply atx_good.
    - apply fenced_good.
    - apply html_good.
    - apply setext_good.
    - apply thematic_good.
    - apply list_item_good.
    - apply indented_good.
  Qed.
End S.
