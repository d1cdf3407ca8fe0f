(** * A line that interrupts a paragraph, read with the paragraph open and with it closed *)
From Verif Require Import Base Regex Common NormRef Node Inlines Blocks RegexFacts StrFacts StrProp Spec SpecTree SpecSame InlineFacts BlockFacts BlockInv BlockRun LineFacts ParseFacts Sim SimFacts EmptyLine JoinLine JoinClose JoinStep.
From Verif Require DocFacts.
From Coq Require Import ZifyBool ZifyNat ZifyN.

(** the line [l], from its first character that is no blank, starts a block, and the same one in a
    paragraph as elsewhere *)
Definition fires (c : N) (l : str) : Prop :=
  c = 62%N \/ re_search reATXHeadingMarker l <> None \/ re_search reCodeFence l <> None \/ (c = 60%N /\ html_type l true <> None) \/ re_test reThematicBreak l = true \/
  exists m, (forall i, exists dt, list_marker l true i = Some (m, dt)) /\ (forall x, nth_error l (length m) = Some x -> x = TAB \/ x = SP).
Definition strong (c : N) (l : str) : Prop :=
  re_test reMaybeSpecial l = true /\ re_search reSetextHeadingLine l = None /\ (c = 60%N -> html_type l true = html_type l false) /\
  (forall i, list_marker l true i = list_marker l false i) /\
  (forall i m dt, list_marker l true i = Some (m, dt) -> re_test reNonSpace (skipn (length m) l) = true) /\ fires c l.

Section Break.
  Variables x w : parser.
  Hypothesis H : closed_to x x w.
  Variables (c : N) (l : str).
  Hypothesis Hin : p_indented x = false.
  Hypothesis Hi : p_indent x <= 3.
  Hypothesis Hl : rest_nonspace x = l.
  Hypothesis Hc : peek (p_line x) (p_next_nonspace x) = Some c.
  Hypothesis Hs : strong c l.
  Variables tx tw : frame.
  Hypothesis Htx : tip x = Ok tx.
  Hypothesis Hpx : f_type tx = paragraph.
  Hypothesis Htw : tip w = Ok tw.
  Hypothesis Hpw : f_type tw = document.
  Ltac none := left; split; reflexivity.
  Lemma skip_l k : skipn (p_next_nonspace x + k) (p_line x) = skipn k l.
  Proof. rewrite <- Hl. unfold rest_nonspace. rewrite skipn_skipn. f_equal. lia. Qed.
  Lemma marker_par : parse_list_marker paragraph x = parse_list_marker document x.
  Proof.
    destruct Hs as (_ & _ & _ & H1 & H2 & _). unfold parse_list_marker. destruct (Nat.leb 4 (p_indent x)); [reflexivity|]. rewrite Hl. change (ntype_eqb paragraph paragraph) with true. change (ntype_eqb document paragraph) with false.
    rewrite <- H1. specialize (H2 (p_indent x)). destruct (list_marker l true (p_indent x)) as [[m dt]|]; [|reflexivity]. cbn zeta. rewrite skip_l, (H2 m dt eq_refl). reflexivity.
  Qed.
  Lemma list_par : same_start (start_list_item paragraph x) (start_list_item document w) x w.
  Proof.
    destruct (w_pos _ _ _ H) as (E1 & _). unfold start_list_item. rewrite E1, Hin. cbn [negb orb]. rewrite marker_par.
    assert (Emw : parse_list_marker document w = rmap (fun b => (fst b, rel (snd b) w)) (parse_list_marker document x)) by (rewrite <- (marker_rel document w x ltac:(discriminate)), (c_rel _ _ _ H); reflexivity). rewrite Emw. clear Emw.
    pose proof (marker_rel document x x ltac:(discriminate)) as G. rewrite rel_id in G. destruct (parse_list_marker document x) as [[data a]|e] eqn:Em; [|right; split; [reflexivity|discriminate]]. cbn [rmap] in G. apply Ok_inj in G. injection G as G. cbn [rmap bind fst snd].
    destruct data as [data|].
    - right. rewrite G, rel_rel, (at_close _ _ _ H), (at_closew _ _ _ H). cbn [bind]. change (tip (rel a x)) with (tip x). change (tip (rel a w)) with (tip w). rewrite Htx, Htw. cbn [bind]. rewrite Hpx, Hpw.
      change (negb (ntype_eqb paragraph list_)) with true. change (negb (ntype_eqb document list_)) with true. cbn [orb]. change (p_next_nonspace (rel a x)) with (p_next_nonspace a). change (p_next_nonspace (rel a w)) with (p_next_nonspace a).
      rewrite (at_add _ _ _ H) by discriminate. split; [reflexivity|]. intros p. destruct (add_child list_ _ _) as [p2|]; [|discriminate]. cbn [bind]. destruct (on_tip _ p2) as [p3|]; [|discriminate]. cbn [bind]. destruct (add_child item _ p3) as [p4|]; [|discriminate]. cbn [bind]. destruct (on_tip _ p4); discriminate.
    - assert (a = x) as -> by (eapply marker_none; exact Em). rewrite (c_rel _ _ _ H). none.
  Qed.
  Lemma html_par : same_start (start_html_block paragraph x) (start_html_block document w) x w.
  Proof.
    destruct (w_pos _ _ _ H) as (E1 & E2 & E3 & E4 & _ & _ & E5). unfold start_html_block. rewrite E1, E2, E3, E4, Hin, Hl, Hc. cbn [negb andb]. destruct (opt_is 60 (Some c)) eqn:E60; [|none].
    assert (Hc60 : c = 60%N) by (cbn in E60; lia). change (ntype_eqb paragraph paragraph) with true. change (ntype_eqb document paragraph) with false. destruct Hs as (_ & _ & Hh & _). rewrite <- (Hh Hc60). destruct (html_type l true) as [ty|]; [|none]. right.
    rewrite (c_close _ _ _ H), (close_w _ _ _ H). cbn [bind]. rewrite E5, (c_add _ _ _ H) by discriminate. split; [reflexivity|].
    intros p. destruct (add_child _ _ _) as [p3|]; [|discriminate]. cbn [bind]. destruct (on_tip _ p3); discriminate.
  Qed.
  Lemma setext_par : same_start (start_setext_heading paragraph x) (start_setext_heading document w) x w.
  Proof. destruct Hs as (_ & Hu & _). unfold start_setext_heading. change (ntype_eqb paragraph paragraph) with true. change (ntype_eqb document paragraph) with false. rewrite Hin, Hl, Hu, andb_false_r. none. Qed.
  Lemma code_par : same_start (start_indented_code x) (start_indented_code w) x w.
  Proof. destruct (w_pos _ _ _ H) as (E1 & _). unfold start_indented_code. rewrite Htx, Htw, E1, Hin. cbn [bind andb]. none. Qed.
  Lemma starts_par f : In f block_starts -> same_start (f paragraph x) (f document w) x w.
  Proof.
    unfold block_starts. cbn [In]. intros [<-|[<-|[<-|[<-|[<-|[<-|[<-|[<-|[]]]]]]]]].
    - apply (quote_closes _ _ _ H).
    - apply (atx_closes _ _ _ H).
    - apply (fence_closes _ _ _ H).
    - apply html_par.
    - apply setext_par.
    - apply (rule_closes _ _ _ H).
    - apply list_par.
    - apply code_par.
  Qed.
  (** one of them does start a block *)
  Lemma one_fires : exists f, In f block_starts /\ forall q, f paragraph x <> Ok (SNone, q).
  Proof.
    destruct Hs as (_ & _ & _ & _ & Hn & Hf). unfold block_starts. destruct Hf as [Hf|[Hf|[Hf|[[Hf Hf']|[Hf|(m & Hf & Hf')]]]]].
    - exists (fun _ => start_block_quote). split; [left; reflexivity|]. intros q. unfold start_block_quote. rewrite Hin, Hc, Hf. cbn [negb andb opt_is N.eqb]. change (N.eqb 62 62) with true. cbn iota zeta. destruct (close_unmatched_blocks _) as [p|]; [|discriminate]. cbn [bind]. destruct (add_child _ _ p); discriminate.
    - exists (fun _ => start_atx_heading). split; [do 1 right; left; reflexivity|]. intros q. unfold start_atx_heading. rewrite Hin, Hl. destruct (re_search _ l) as [m|]; [|congruence]. cbn zeta. destruct (close_unmatched_blocks _) as [p|]; [|discriminate]. cbn [bind]. destruct (add_child _ _ p) as [p2|]; [|discriminate]. cbn [bind]. destruct (on_tip _ p2); discriminate.
    - exists (fun _ => start_fenced_code). split; [do 2 right; left; reflexivity|]. intros q. unfold start_fenced_code. rewrite Hin, Hl. destruct (re_search _ l) as [m|]; [|congruence]. cbn zeta. destruct (close_unmatched_blocks _) as [p|]; [|discriminate]. cbn [bind]. destruct (add_child _ _ p) as [p2|]; [|discriminate]. cbn [bind]. destruct (of_option _ _); [|discriminate]. cbn [bind]. destruct (on_tip _ p2); discriminate.
    - exists start_html_block. split; [do 3 right; left; reflexivity|]. intros q. unfold start_html_block. rewrite Hin, Hl, Hc, Hf. change (negb false && opt_is 60 (Some 60%N))%bool with true. change (ntype_eqb paragraph paragraph) with true. cbn iota. destruct (html_type l true); [|congruence]. destruct (close_unmatched_blocks _) as [p|]; [|discriminate]. cbn [bind]. destruct (add_child _ _ p) as [p2|]; [|discriminate]. cbn [bind]. destruct (on_tip _ p2); discriminate.
    - exists (fun _ => start_thematic_break). split; [do 5 right; left; reflexivity|]. intros q. unfold start_thematic_break. rewrite Hin, Hl, Hf. cbn [negb andb]. destruct (close_unmatched_blocks _) as [p|]; [|discriminate]. cbn [bind]. destruct (add_child _ _ p) as [p2|]; discriminate.
    - exists start_list_item. split; [do 6 right; left; reflexivity|]. intros q. unfold start_list_item. rewrite Hin. cbn [negb orb].
      assert (Hm : forall a, parse_list_marker paragraph x <> Ok (None, a)).
      { intros a. unfold parse_list_marker. assert (Nat.leb 4 (p_indent x) = false) as -> by lia. rewrite Hl. destruct (Hf (p_indent x)) as (dt & E). change (ntype_eqb paragraph paragraph) with true. rewrite E. cbn zeta. rewrite skip_l, (Hn _ _ _ E). cbn [negb andb].
        assert (En : peek (p_line x) (p_next_nonspace x + length m) = nth_error l (length m)) by (unfold peek; rewrite <- Hl; unfold rest_nonspace; rewrite DocFacts.nth_error_skipn; reflexivity). rewrite En.
        assert (Eb : match nth_error l (length m) with Some c0 => (N.eqb c0 TAB || N.eqb c0 SP)%bool | None => true end = true) by (destruct (nth_error l (length m)) as [y|]; [destruct (Hf' y eq_refl) as [-> | ->]; reflexivity|reflexivity]). rewrite Eb. cbn [negb].
        destruct (marker_spaces _ _ _); [|discriminate]. cbn [bind]. destruct (_ || _)%bool; [destruct (is_space_or_tab _)|]; discriminate. }
      destruct (parse_list_marker paragraph x) as [[[data|] a]|]; [|destruct (Hm a eq_refl)|discriminate]. cbn [bind]. destruct (close_unmatched_blocks _) as [p|]; [|discriminate]. cbn [bind]. destruct (tip p) as [t|]; [|discriminate]. cbn [bind].
      match goal with |- context [bind (if ?b then ?u else ?v) _] => destruct (if b then u else v) as [p3|] end; [|discriminate]. cbn [bind]. destruct (add_child _ _ p3) as [p4|]; [|discriminate]. cbn [bind]. destruct (on_tip _ p4); discriminate.
  Qed.
  Lemma try_par : forall ls, (forall f, In f ls -> same_start (f paragraph x) (f document w) x w) -> (exists f, In f ls /\ forall q, f paragraph x <> Ok (SNone, q)) ->
    try_starts ls paragraph x = try_starts ls document w /\ forall q, try_starts ls paragraph x <> Ok (SNone, q).
  Proof.
    induction ls as [|f ls IH]; intros Ha (g & Hg & Hq); [destruct Hg|]. cbn [try_starts]. destruct (Ha f (or_introl eq_refl)) as [[E1 E2]|[E Hn]].
    - rewrite E1, E2. cbn [bind]. apply IH; [intros h Hh; apply Ha; right; exact Hh|]. exists g. destruct Hg as [<-|Hg]; [destruct (Hq x E1)|]. split; assumption.
    - rewrite <- E. destruct (f paragraph x) as [[r p]|e]; [|split; [reflexivity|discriminate]]. cbn [bind]. destruct r; [destruct (Hn p eq_refl)| |]; (split; [reflexivity|intros q X; apply Ok_inj in X; discriminate]).
  Qed.
  Lemma loop_par f : find_next_nonspace x = x -> block_at 2 x = Ok tx -> block_at 1 w = Ok tw ->
    match starts_loop (S f) 2 x with
    | Ok (_, p) => exists k, starts_loop (S f) 1 w = Ok (k, p)
    | Err e => starts_loop (S f) 1 w = Err e
    end.
  Proof.
    intros Ex Ec Ec'. assert (Ew : find_next_nonspace w = w) by (rewrite <- (c_rel _ _ _ H), fnn_rel, Ex; reflexivity). destruct (w_pos _ _ _ H) as (E1 & E2 & _).
    cbn [starts_loop]. rewrite Ex, Ew, E1, E2, Hl. destruct Hs as (Hm & _). rewrite Hm. cbn [negb]. rewrite andb_false_r, Ec, Ec'. cbn [bind]. rewrite Hpx, Hpw.
    destruct (try_par block_starts starts_par one_fires) as (E & Hn). rewrite <- E. destruct (try_starts _ _ x) as [[r p]|e]; [|reflexivity]. cbn [bind].
    destruct r; [destruct (Hn p eq_refl)| |exists (length (p_stack p)); reflexivity]. destruct (starts_loop f _ p) as [[k y]|e]; [exists k; reflexivity|reflexivity].
  Qed.
End Break.
