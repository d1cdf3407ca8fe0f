(** * The reference map: C25 and C26 for every text *)
From Verif Require Import Base Regex Common NormRef Node Inlines Blocks Main Spec SpecTree StrFacts RegexFacts BlockFacts BlockSteps DocFacts TreeFacts.
From Verif Require Sim.
From Coq Require Import ZifyBool ZifyNat ZifyN.

(** ** Maps that only gain entries, with new keys *)
Definition keys {A B} (m : list (A * B)) : list A := map fst m.
Inductive extends : refmap_t -> refmap_t -> Prop :=
| ext_refl m : extends m m
| ext_add m m' k v : extends m m' -> ~ In k (keys m') -> extends m (m' ++ [(k, v)]).
Lemma ext_trans a b c : extends a b -> extends b c -> extends a c.
Proof. intros H H'. induction H' as [|m m' k v H1 IH H2]; [exact H|]. apply ext_add; auto. Qed.

Lemma assoc_none k (m : refmap_t) : assoc_str k m = None <-> ~ In k (keys m).
Proof.
  unfold assoc_str. induction m as [|[x v] m IH]; cbn [find fst keys map In]; [tauto|]. destruct (str_eqb x k) eqn:E.
  - apply str_eqb_eq in E. subst x. split; [discriminate|]. intros H. exfalso. apply H. left. reflexivity.
  - rewrite IH. unfold keys. split; [intros H [X|X]; [subst x; rewrite str_eqb_refl in E; discriminate|auto]|intros H X; apply H; right; exact X].
Qed.
Lemma assoc_app k (m m' : refmap_t) : assoc_str k (m ++ m') = match assoc_str k m with Some v => Some v | None => assoc_str k m' end.
Proof. unfold assoc_str. induction m as [|[x v] m IH]; cbn [app find]; [reflexivity|]. destruct (str_eqb _ _); [reflexivity|exact IH]. Qed.
Lemma ext_keeps m m' : extends m m' -> forall k v, assoc_str k m = Some v -> assoc_str k m' = Some v.
Proof. induction 1 as [|m m' k0 v0 H IH Hn]; intros k v E; [exact E|]. rewrite assoc_app, (IH _ _ E). reflexivity. Qed.
Lemma ext_nodup m m' : extends m m' -> NoDup (keys m) -> NoDup (keys m').
Proof.
  induction 1 as [|m m' k v H IH Hn]; intros N; [exact N|]. specialize (IH N). unfold keys in *. rewrite map_app. cbn [map fst].
  clear - IH Hn. revert IH Hn. generalize (map fst m') as l0. induction l0 as [|x l IHl]; intros IH Hn; cbn [app]; [constructor; [intros []|constructor]|]. inversion IH; subst. constructor.
  - rewrite in_app_iff. intros [X|[X|[]]]; [auto|]. apply Hn. left. congruence.
  - apply IHl; [assumption|]. intros X. apply Hn. right. exact X.
Qed.
Lemma ext_prefix m m' : extends m m' -> exists new, m' = m ++ new.
Proof. induction 1 as [m|m m' k v H (new & ->) Hn]; [exists []; rewrite app_nil_r; reflexivity|]. exists (new ++ [(k, v)]). rewrite app_assoc. reflexivity. Qed.

(** ** One definition, one paragraph *)
Lemma reference_extends subj rm s n s' rm' : parseReference subj rm s = Ok (n, s', rm') -> extends rm rm'.
Proof.
  unfold parseReference. destruct (parseLinkLabel _) as [nl s1]. assert (F : forall x, Ok (0, set_ip_pos 0 x, rm) = Ok (n, s', rm') -> extends rm rm') by (intros x E; apply Ok_inj in E; injection E as _ _ <-; constructor).
  destruct (_ || _); [intros E; apply Ok_inj in E; injection E as _ _ <-; constructor|]. destruct (negb (peek_is 58 s1)); [apply F|].
  destruct (parseLinkDestination _) as [[dest s3]|e]; cbn [bind]; [|discriminate]. destruct dest as [dest|]; [|apply F].
  destruct (if Nat.eqb _ _ then _ else _) as [title0 s5]. destruct (match title0 with None => _ | Some t => _ end) as [title s6]. destruct (match ip_match reSpaceAtEndOfLine s6 with Some _ => _ | None => _ end) as [ale s7].
  destruct (negb ale); [apply F|]. cbv zeta. destruct (is_nil _); [apply F|]. intros E. apply Ok_inj in E. injection E as _ _ <-.
  destruct (assoc_str _ rm) as [v|] eqn:Ea; [constructor|]. apply ext_add; [constructor|]. apply assoc_none, Ea.
Qed.
Lemma ref_loop_extends : forall f content found s rm c b s' rm', ref_loop f content found s rm = Ok (c, b, s', rm') -> extends rm rm'.
Proof.
  induction f as [|f IH]; intros content found s rm c b s' rm' E; cbn [ref_loop] in E; [discriminate|]. destruct (opt_is 91 _); [|apply Ok_inj in E; injection E as _ _ _ <-; constructor].
  destruct (parseReference content rm s) as [[[pos s1] rm1]|e] eqn:E1; cbn [bind] in E; [|discriminate]. apply reference_extends in E1.
  destruct (Nat.eqb pos 0); [apply Ok_inj in E; injection E as _ _ _ <-; exact E1|]. eapply ext_trans; [exact E1|eauto].
Qed.

(** ** The block parser *)
Definition grows (p q : parser) : Prop := extends (p_refmap p) (p_refmap q) /\ p_smart q = p_smart p.
Lemma grows_same p q : p_refmap q = p_refmap p -> p_smart q = p_smart p -> grows p q.
Proof. intros H1 H2. unfold grows. rewrite H1. split; [constructor|exact H2]. Qed.
Lemma grows_refl p : grows p p.
Proof. apply grows_same; reflexivity. Qed.
Lemma grows_trans p q r : grows p q -> grows q r -> grows p r.
Proof. intros (A1 & A2) (B1 & B2). split; [eapply ext_trans; eauto|congruence]. Qed.
Lemma keeps_grows p q : keeps p q -> grows p q.
Proof. intros (_ & _ & _ & _ & _ & K1 & _ & K2). apply grows_same; assumption. Qed.
Lemma attach_grows t p : grows p (attach t p).
Proof. unfold attach. destruct (p_stack p); apply grows_same; reflexivity. Qed.
Lemma strip_refs_grows content p c b q : strip_refs content p = Ok (c, b, q) -> grows p q.
Proof.
  unfold strip_refs. destruct (ref_loop _ _ _ _ _) as [[[[? ?] ?] ?]|e] eqn:E1; cbn [bind]; [|discriminate]. apply ref_loop_extends in E1. intros E. apply Ok_inj in E. injection E as _ _ <-. split; [exact E1|reflexivity].
Qed.
Lemma finalize_tip_grows ln p q : finalize_tip ln p = Ok q -> grows p q.
Proof.
  unfold finalize_tip. destruct (p_stack p) as [|fr st]; [discriminate|]. destruct (n_sourcepos _) as [[sp0 x]|]; cbn [of_option bind]; [|discriminate].
  assert (S0 : forall t, grows p (attach t (set_p_stack st p))) by (intros t; eapply grows_trans; [|apply attach_grows]; apply grows_same; reflexivity).
  cbv zeta. match goal with |- context [match n_t ?d with _ => _ end] => destruct (n_t d) end; try discriminate; try (intros E; apply Ok_inj in E as <-; apply S0).
  - destruct (finalize_list _ _) as [d' items]. intros E. apply Ok_inj in E as <-. apply S0.
  - unfold finalize_paragraph. destruct (n_string_content _) as [c|]; cbn [of_option bind]; [|discriminate]. destruct (strip_refs c _) as [[[c' b] p1]|e] eqn:E1; cbn [bind]; [|discriminate].
    apply strip_refs_grows in E1. intros E. apply Ok_inj in E as <-. assert (H : grows p p1) by (eapply grows_trans; [|exact E1]; apply grows_same; reflexivity).
    destruct (b && is_blank c'); [exact H|]. eapply grows_trans; [exact H|apply attach_grows].
  - destruct (finalize_code _) as [d'|e]; cbn [bind]; [|discriminate]. intros E. apply Ok_inj in E as <-. apply S0.
  - destruct (finalize_html _) as [d'|e]; cbn [bind]; [|discriminate]. intros E. apply Ok_inj in E as <-. apply S0.
Qed.
Lemma make_room_grows tag : forall f p q, make_room f tag p = Ok q -> grows p q.
Proof.
  induction f as [|f IH]; intros p q; cbn [make_room]; [discriminate|]. destruct (tip p) as [t|e]; cbn [bind]; [|discriminate]. destruct (can_contain _ _) as [b|e]; cbn [bind]; [|discriminate].
  destruct b; [intros E; apply Ok_inj in E as <-; apply grows_refl|]. destruct (finalize_tip _ p) as [p1|e] eqn:E1; cbn [bind]; [|discriminate]. intros E. eapply grows_trans; [eapply finalize_tip_grows; exact E1|eauto].
Qed.
Lemma add_child_grows tag off p q : add_child tag off p = Ok q -> grows p q.
Proof. unfold add_child. destruct (make_room _ _ _) as [p1|e] eqn:E1; cbn [bind]; [|discriminate]. intros E. apply Ok_inj in E as <-. eapply grows_trans; [eapply make_room_grows; exact E1|]. apply grows_same; reflexivity. Qed.
Lemma close_loop_grows : forall f p q, close_loop f p = Ok q -> grows p q.
Proof.
  induction f as [|f IH]; intros p q; cbn [close_loop]; (destruct (Nat.leb _ _); [intros E; apply Ok_inj in E as <-; apply grows_refl|]); [discriminate|].
  destruct (finalize_tip _ p) as [p1|e] eqn:E1; cbn [bind]; [|discriminate]. intros E. eapply grows_trans; [eapply finalize_tip_grows; exact E1|eauto].
Qed.
Lemma close_unmatched_grows p q : close_unmatched_blocks p = Ok q -> grows p q.
Proof.
  unfold close_unmatched_blocks. destruct (p_all_closed p); [intros E; apply Ok_inj in E as <-; apply grows_refl|]. destruct (close_loop _ p) as [p1|e] eqn:E1; cbn [bind]; [|discriminate].
  intros E. apply Ok_inj in E as <-. eapply grows_trans; [eapply close_loop_grows; exact E1|]. apply grows_same; reflexivity.
Qed.
Lemma on_tip_grows f p q : on_tip f p = Ok q -> grows p q.
Proof. unfold on_tip. destruct (p_stack p); [discriminate|]. intros E. apply Ok_inj in E as <-. apply grows_same; reflexivity. Qed.
Lemma adv_grows n b p : grows p (advance_offset n b p).
Proof. apply keeps_grows, keeps_adv. Qed.
Lemma ann_grows p : grows p (advance_next_nonspace p).
Proof. apply keeps_grows, keeps_ann. Qed.
Lemma fnn_grows p : grows p (find_next_nonspace p).
Proof. apply keeps_grows, keeps_fnn. Qed.
Lemma fence_grows : forall i p, grows p (skip_fence_offset i p).
Proof. induction i as [|i IH]; intros p; cbn [skip_fence_offset]; [apply grows_refl|]. destruct (is_space_or_tab _); [|apply grows_refl]. eapply grows_trans; [apply adv_grows|apply IH]. Qed.
Lemma add_line_grows p q : add_line p = Ok q -> grows p q.
Proof.
  unfold add_line. destruct (tip p) as [t|e]; cbn [bind]; [|discriminate]. destruct (n_string_content _) as [sc|]; cbn [of_option bind]; [|discriminate].
  destruct (p_pct p); intros E; apply on_tip_grows in E; (eapply grows_trans; [|exact E]); apply grows_same; reflexivity.
Qed.
Ltac gr := repeat first
  [ apply grows_refl
  | match goal with
    | H : finalize_tip _ ?p = Ok ?q |- grows _ ?q => eapply grows_trans; [|eapply finalize_tip_grows; exact H]
    | H : add_child _ _ ?p = Ok ?q |- grows _ ?q => eapply grows_trans; [|eapply add_child_grows; exact H]
    | H : close_unmatched_blocks ?p = Ok ?q |- grows _ ?q => eapply grows_trans; [|eapply close_unmatched_grows; exact H]
    | H : on_tip _ ?p = Ok ?q |- grows _ ?q => eapply grows_trans; [|eapply on_tip_grows; exact H]
    | H : add_line ?p = Ok ?q |- grows _ ?q => eapply grows_trans; [|eapply add_line_grows; exact H]
    | H : strip_refs _ ?p = Ok (_, _, ?q) |- grows _ ?q => eapply grows_trans; [|eapply strip_refs_grows; exact H]
    | |- grows _ (advance_offset _ _ _) => eapply grows_trans; [|apply adv_grows]
    | |- grows _ (advance_to_end _) => unfold advance_to_end
    | |- grows _ (advance_next_nonspace _) => eapply grows_trans; [|apply ann_grows]
    | |- grows _ (find_next_nonspace _) => eapply grows_trans; [|apply fnn_grows]
    | |- grows _ (skip_fence_offset _ _) => eapply grows_trans; [|apply fence_grows]
    | |- grows _ (if ?b then _ else _) => destruct b
    | |- grows _ (set_p_stack _ ?p) => apply (grows_trans _ p); [|apply grows_same; reflexivity]
    | |- grows _ (set_p_offset _ ?p) => apply (grows_trans _ p); [|apply grows_same; reflexivity]
    | |- grows _ (set_p_column _ ?p) => apply (grows_trans _ p); [|apply grows_same; reflexivity]
    | |- grows _ (set_p_matched _ ?p) => apply (grows_trans _ p); [|apply grows_same; reflexivity]
    | |- grows _ (set_p_all_closed _ ?p) => apply (grows_trans _ p); [|apply grows_same; reflexivity]
    end ].
Lemma continue_grows d b p r q : continue_ d b p = Ok (r, q) -> grows p q.
Proof.
  intros E. unfold continue_ in E.
  assert (Done : forall x, Ok (x, p) = Ok (r, q) -> grows p q) by (intros x X; apply Ok_inj in X; injection X as _ <-; apply grows_refl).
  destruct (n_t d); try discriminate E; try (eapply Done; exact E).
  - destruct (_ && _); [|eapply Done; exact E]. apply Ok_inj in E. injection E as _ <-. gr.
  - destruct (p_blank p).
    + destruct b; [|eapply Done; exact E]. apply Ok_inj in E. injection E as _ <-. gr.
    + destruct (item_indent d) as [n|e]; cbn [bind] in E; [|discriminate]. destruct (Nat.leb _ _); [|eapply Done; exact E]. apply Ok_inj in E. injection E as _ <-. gr.
  - destruct (n_is_fenced d).
    + assert (X : (let* i := of_option TypeError (n_fence_offset d) in Ok (CMatch, skip_fence_offset i p)) = Ok (r, q) -> grows p q).
      { destruct (n_fence_offset d) as [i|]; cbn [of_option bind]; [|discriminate]. intros X. apply Ok_inj in X. injection X as _ <-. gr. }
      match type of E with match ?x with _ => _ end = _ => destruct x as [m|] end; [|exact (X E)]. destruct (Nat.leb _ _); [|exact (X E)].
      destruct (finalize_tip _ p) as [p'|e] eqn:E1; cbn [bind] in E; [|discriminate]. apply Ok_inj in E. injection E as _ <-. gr.
    + destruct (Nat.leb _ _); [apply Ok_inj in E; injection E as _ <-; gr|]. destruct (p_blank p); [apply Ok_inj in E; injection E as _ <-; gr|eapply Done; exact E].
  - destruct (n_html_block_type d) as [ty|]; cbn [of_option bind] in E; [|discriminate]. destruct (_ && _); eapply Done; exact E.
Qed.
Lemma descend_grows : forall path depth p r q, descend path depth p = Ok (r, q) -> grows p q.
Proof.
  induction path as [|fr path IH]; intros depth p r q E; cbn [descend] in E; [apply Ok_inj in E; injection E as _ <-; apply grows_refl|].
  destruct (continue_ _ _ _) as [[rv p2]|e] eqn:E1; cbn [bind] in E; [|discriminate]. apply continue_grows in E1. assert (H : grows p p2) by (eapply grows_trans; [apply fnn_grows|exact E1]).
  destruct rv; [eapply grows_trans; [exact H|eapply IH; eauto]| |]; apply Ok_inj in E; injection E as _ <-; exact H.
Qed.
Lemma marker_spaces_grows : forall f sc p q, marker_spaces f sc p = Ok q -> grows p q.
Proof.
  induction f as [|f IH]; intros sc p q E; cbn [marker_spaces] in E; [discriminate|]. destruct (_ && _).
  - eapply grows_trans; [apply adv_grows|eapply IH; exact E].
  - apply Ok_inj in E as <-. apply adv_grows.
Qed.
Lemma parse_list_marker_grows c p r q : parse_list_marker c p = Ok (r, q) -> grows p q.
Proof.
  intros E. unfold parse_list_marker in E. assert (Done : Ok (None, p) = Ok (r, q) -> grows p q) by (intros X; apply Ok_inj in X; injection X as _ <-; apply grows_refl).
  destruct (Nat.leb 4 (p_indent p)); [exact (Done E)|]. destruct (list_marker _ _ _) as [[m data]|]; [|exact (Done E)]. destruct (negb _); [exact (Done E)|]. destruct (_ && _); [exact (Done E)|].
  destruct (marker_spaces 6 _ _) as [p2|e] eqn:E2; cbn [bind] in E; [|discriminate]. apply marker_spaces_grows in E2. assert (H : grows p p2) by (eapply grows_trans; [|exact E2]; gr).
  destruct (_ || _); apply Ok_inj in E; injection E as _ <-; [|exact H]. eapply grows_trans; [exact H|]. gr.
Qed.
Lemma start_grows f c p r q : In f block_starts -> f c p = Ok (r, q) -> grows p q.
Proof.
  intros Hf E. assert (Done : Ok (SNone, p) = Ok (r, q) -> grows p q) by (intros X; apply Ok_inj in X; injection X as <- <-; apply grows_refl).
  repeat (destruct Hf as [<-|Hf]); [..|destruct Hf].
  - unfold start_block_quote in E. destruct (_ && _); [|exact (Done E)]. destruct (close_unmatched_blocks _) as [p3|e] eqn:E3; cbn [bind] in E; [|discriminate]. destruct (add_child _ _ _) as [p4|e] eqn:E4; cbn [bind] in E; [|discriminate].
    apply Ok_inj in E. injection E as <- <-. gr.
  - unfold start_atx_heading in E. destruct (p_indented p); [exact (Done E)|]. destruct (re_search _ _) as [m|]; [|exact (Done E)].
    destruct (close_unmatched_blocks _) as [p3|e] eqn:E3; cbn [bind] in E; [|discriminate]. destruct (add_child _ _ _) as [p4|e] eqn:E4; cbn [bind] in E; [|discriminate]. destruct (on_tip _ _) as [p5|e] eqn:E5; cbn [bind] in E; [|discriminate].
    apply Ok_inj in E. injection E as <- <-. gr.
  - unfold start_fenced_code in E. destruct (p_indented p); [exact (Done E)|]. destruct (re_search _ _) as [m|]; [|exact (Done E)].
    destruct (close_unmatched_blocks _) as [p3|e] eqn:E3; cbn [bind] in E; [|discriminate]. destruct (add_child _ _ _) as [p4|e] eqn:E4; cbn [bind] in E; [|discriminate]. destruct (hd_error _) as [x|]; cbn [of_option bind] in E; [|discriminate]. destruct (on_tip _ _) as [p5|e] eqn:E5; cbn [bind] in E; [|discriminate].
    apply Ok_inj in E. injection E as <- <-. gr.
  - unfold start_html_block in E. destruct (_ && _); [|exact (Done E)]. destruct (html_type _ _) as [ty|]; [|exact (Done E)].
    destruct (close_unmatched_blocks _) as [p3|e] eqn:E3; cbn [bind] in E; [|discriminate]. destruct (add_child _ _ _) as [p4|e] eqn:E4; cbn [bind] in E; [|discriminate]. destruct (on_tip _ _) as [p5|e] eqn:E5; cbn [bind] in E; [|discriminate].
    apply Ok_inj in E. injection E as <- <-. gr.
  - unfold start_setext_heading in E. destruct (_ && _); [|exact (Done E)]. destruct (re_search _ _) as [m|]; [|exact (Done E)].
    destruct (close_unmatched_blocks _) as [p3|e] eqn:E3; cbn [bind] in E; [|discriminate]. destruct (tip p3) as [t|e]; cbn [bind] in E; [|discriminate]. destruct (n_string_content _) as [ct|]; cbn [of_option bind] in E; [|discriminate].
    destruct (strip_refs ct p3) as [[[ct' b] p4]|e] eqn:E4; cbn [bind] in E; [|discriminate]. destruct (is_nil ct').
    + destruct (on_tip _ _) as [p5|e] eqn:E5; cbn [bind] in E; [|discriminate]. apply Ok_inj in E. injection E as <- <-. gr.
    + destruct (hd_error _) as [x|]; cbn [of_option bind] in E; [|discriminate]. apply Ok_inj in E. injection E as <- <-. gr.
  - unfold start_thematic_break in E. destruct (_ && _); [|exact (Done E)].
    destruct (close_unmatched_blocks _) as [p3|e] eqn:E3; cbn [bind] in E; [|discriminate]. destruct (add_child _ _ _) as [p4|e] eqn:E4; cbn [bind] in E; [|discriminate].
    apply Ok_inj in E. injection E as <- <-. gr.
  - unfold start_list_item in E. destruct (_ || _); [|exact (Done E)]. destruct (parse_list_marker c p) as [[data p1]|e] eqn:E1; cbn [bind] in E; [|discriminate].
    apply parse_list_marker_grows in E1. destruct data as [data|]; [|apply Ok_inj in E; injection E as _ <-; exact E1].
    destruct (close_unmatched_blocks _) as [p3|e] eqn:E3; cbn [bind] in E; [|discriminate]. destruct (tip p3) as [t|e]; cbn [bind] in E; [|discriminate].
    match type of E with (let* p3 := ?x in _) = _ => destruct x as [p4|e] eqn:E4; cbn [bind] in E; [|discriminate] end.
    assert (S4 : grows p3 p4). { destruct (_ || _) in E4; [|apply Ok_inj in E4 as <-; apply grows_refl]. destruct (add_child _ _ _) as [p5|e] eqn:E5; cbn [bind] in E4; [|discriminate]. gr. }
    clear E4.
    destruct (add_child _ _ _) as [p5|e] eqn:E5; cbn [bind] in E; [|discriminate]. destruct (on_tip _ _) as [p6|e] eqn:E6; cbn [bind] in E; [|discriminate]. apply Ok_inj in E. injection E as <- <-.
    gr. eapply grows_trans; [|exact S4]. gr. exact E1.
  - unfold start_indented_code in E. destruct (tip p) as [t|e]; cbn [bind] in E; [|discriminate]. destruct (_ && _); [|exact (Done E)].
    destruct (close_unmatched_blocks _) as [p3|e] eqn:E3; cbn [bind] in E; [|discriminate]. destruct (add_child _ _ _) as [p4|e] eqn:E4; cbn [bind] in E; [|discriminate].
    apply Ok_inj in E. injection E as <- <-. gr.
Qed.
Lemma try_starts_grows c : forall l p r q, (forall f, In f l -> In f block_starts) -> try_starts l c p = Ok (r, q) -> grows p q.
Proof.
  induction l as [|f l IH]; intros p r q Hl E; cbn [try_starts] in E; [apply Ok_inj in E; injection E as <- <-; apply grows_refl|].
  destruct (f c p) as [[r1 p1]|e] eqn:E1; cbn [bind] in E; [|discriminate]. apply start_grows in E1; [|apply Hl; left; reflexivity].
  destruct r1; [eapply grows_trans; [exact E1|]; eapply IH; [|exact E]; intros g Hg; apply Hl; right; exact Hg| |]; apply Ok_inj in E; injection E as <- <-; exact E1.
Qed.
Lemma starts_loop_grows : forall fu depth p r q, starts_loop fu depth p = Ok (r, q) -> grows p q.
Proof.
  induction fu as [|fu IH]; intros depth p r q E; cbn [starts_loop] in E; [discriminate|].
  destruct (_ && _); [apply Ok_inj in E; injection E as _ <-; gr|].
  destruct (block_at _ _) as [c|e]; cbn [bind] in E; [|discriminate]. destruct (try_starts _ _ _) as [[s p2]|e] eqn:E2; cbn [bind] in E; [|discriminate].
  apply try_starts_grows in E2; [|auto]. assert (H : grows p p2) by (eapply grows_trans; [apply fnn_grows|exact E2]). destruct s.
  - apply Ok_inj in E. injection E as _ <-. gr. exact H.
  - eapply grows_trans; [exact H|eapply IH; eauto].
  - apply Ok_inj in E. injection E as _ <-. exact H.
Qed.
Lemma add_text_grows p q : add_text p = Ok q -> grows p q.
Proof.
  unfold add_text. destruct (close_unmatched_blocks p) as [p1|e] eqn:E1; cbn [bind]; [|discriminate]. destruct (tip p1) as [c|e]; cbn [bind]; [|discriminate]. cbv zeta.
  match goal with |- (let* _ := ?x in _) = _ -> _ => destruct x as [fl|e]; cbn [bind]; [|discriminate] end. destruct (accepts_lines _) as [acc|e]; cbn [bind]; [|discriminate]. destruct acc.
  - destruct (add_line _) as [p3|e] eqn:E3; cbn [bind]; [|discriminate]. destruct (ntype_eqb (f_type c) html_block); [|intros E; apply Ok_inj in E as <-; gr].
    destruct (n_html_block_type _) as [ty|]; cbn [of_option bind]; [|discriminate]. match goal with |- (if ?b then _ else _) = _ -> _ => destruct b end; [|intros E; apply Ok_inj in E as <-; gr]. intros E. gr.
  - match goal with |- (if ?b then _ else _) = _ -> _ => destruct b end; [|intros E; apply Ok_inj in E as <-; gr]. destruct (add_child _ _ _) as [p3|e] eqn:E3; cbn [bind]; [|discriminate]. intros E. gr.
Qed.
Theorem incorporate_line_grows l p q : incorporate_line l p = Ok q -> grows p q.
Proof.
  unfold incorporate_line. set (p1 := set_p_line _ _). assert (H1 : grows p p1) by (apply grows_same; reflexivity). clearbody p1.
  destruct (descend _ _ p1) as [[m p2]|e] eqn:E2; cbn [bind]; [|discriminate]. apply descend_grows in E2. pose proof (grows_trans _ _ _ H1 E2) as H2.
  assert (Hd : forall n x y, grows p x -> Ok (set_p_last_line_length n x) = Ok y -> grows p y) by (intros n x y H E; apply Ok_inj in E as <-; eapply grows_trans; [exact H|apply grows_same; reflexivity]).
  destruct m as [depth|]; [|apply Hd; exact H2]. destruct (block_at _ _) as [c|e]; cbn [bind]; [|discriminate]. destruct (accepts_lines _) as [acc|e]; cbn [bind]; [|discriminate].
  match goal with |- (let* _ := ?x in _) = _ -> _ => destruct x as [[r p4]|e] eqn:E4; cbn [bind]; [|discriminate] end.
  assert (H4 : grows p p4). { eapply grows_trans; [exact H2|]. destruct (_ && acc); [apply Ok_inj in E4; injection E4 as _ <-; gr|]. apply starts_loop_grows in E4. eapply grows_trans; [|exact E4]. gr. }
  destruct (tip p4) as [t|e]; cbn [bind]; [|discriminate]. match goal with |- (let* _ := ?x in _) = _ -> _ => destruct x as [p5|e] eqn:E5; cbn [bind]; [|discriminate] end.
  apply Hd. eapply grows_trans; [exact H4|]. match type of E5 with (if ?b then _ else _) = _ => destruct b end; [eapply add_line_grows|eapply add_text_grows]; exact E5.
Qed.
Theorem incorporate_lines_grows : forall ls p q, incorporate_lines ls p = Ok q -> grows p q.
Proof.
  induction ls as [|l ls IH]; intros p q E; cbn [incorporate_lines] in E; [apply Ok_inj in E as <-; apply grows_refl|].
  destruct (incorporate_line l p) as [p1|e] eqn:E1; cbn [bind] in E; [|discriminate]. apply incorporate_line_grows in E1. eapply grows_trans; [exact E1|eauto].
Qed.
Lemma finalize_all_grows : forall f n p q, finalize_all f n p = Ok q -> grows p q.
Proof.
  induction f as [|f IH]; intros n p q; cbn [finalize_all]; (destruct (p_stack p); [intros E; apply Ok_inj in E as <-; apply grows_refl|]); [discriminate|].
  destruct (finalize_tip n p) as [p1|e] eqn:E1; cbn [bind]; [|discriminate]. intros E. eapply grows_trans; [eapply finalize_tip_grows; exact E1|eauto].
Qed.

(** ** Inline parsing uses the final map *)
From Verif Require Import StrProp CommonFacts EmphFacts InlineFacts InlineInv BlockInv BlockRun ParseFacts.
Definition inlined (Q : N -> Prop) (A : str -> Prop) (m : refmap_t) (smart : bool) (t : tree) : Prop :=
  t_type t = paragraph \/ t_type t = heading ->
  exists content s', n_string_content (t_data t) = Some content /\ ok_str Q A content /\ parseInlines content (IP [] 0 m smart [] [] [] 0) = Ok (t_kids t, s').
Lemma parseInlines_map content s m smart : ip_refmap s = m -> ip_smart s = smart -> parseInlines content s = parseInlines content (IP [] 0 m smart [] [] [] 0).
Proof. intros <- <-. unfold parseInlines. reflexivity. Qed.
Section Final.
  Variable Q : N -> Prop.
  Hypothesis HQ : forall c, StrProp.plain_char c -> Q c.
  Hypothesis HQc : forall c, Q c -> code_point c.
  Variable A : str -> Prop.
  Lemma inline_inlined m smart t : BlockRun.inline_tree Q t -> tree_every (inlined Q A m smart) t.
  Proof.
    induction t as [d kids IH] using tree_ind'. intros H. apply inline_unfold in H as [H1 H2]. apply tree_every_unfold. split.
    - apply inl_type in H1. intros [E|E]; rewrite E in H1; discriminate.
    - clear H1. revert H2. induction IH as [|x l Hx _ IHl]; intros H2; [constructor|]. inversion H2 as [|x0 l0 K1 K2]; subst. constructor; [exact (Hx K1)|exact (IHl K2)].
  Qed.
  Theorem process_inlines_final t : closed Q A t -> forall s t' s', refs_ok Q (ip_refmap s) -> process_inlines t s = Ok (t', s') -> tree_every (inlined Q A (ip_refmap s) (ip_smart s)) t'.
  Proof.
    induction t as [d kids IH] using tree_ind'. intros Hc s t' s' Hs. pose proof Hc as Hc0. apply tree_every_unfold in Hc as [(C1 & C2 & C3 & C4 & C5 & C6 & C7 & C8 & C9) Hk]. rewrite Sim.process_inlines_eq.
    assert (Hgo : forall s ks' s', refs_ok Q (ip_refmap s) -> Sim.process_all kids s = Ok (ks', s') -> Forall (tree_every (inlined Q A (ip_refmap s) (ip_smart s))) ks' /\ length ks' = length kids /\ ip_refmap s' = ip_refmap s /\ ip_smart s' = ip_smart s).
    { clear -IH Hk HQ HQc. induction IH as [|k ks H1 _ IHl]; intros s ks' s' Hs E; cbn [Sim.process_all] in E.
      - apply Ok_inj in E. injection E as <- <-. auto.
      - inversion Hk as [|x l K1 K2]; subst. pose proof (process_inlines_spec Q HQ HQc A k K1 s Hs) as Hsp. specialize (H1 K1 s). destruct (process_inlines k s) as [[k' s1]|e]; cbn [bind] in E; [|discriminate].
        destruct Hsp as (_ & _ & G3 & G4). specialize (IHl K2 s1). destruct (Sim.process_all ks s1) as [[l s2]|e]; cbn [bind] in E; [|discriminate].
        apply Ok_inj in E. injection E as <- <-. destruct (IHl l s2 ltac:(rewrite G3; exact Hs) eq_refl) as (I1 & I2 & I3 & I4). rewrite G3, G4 in *. split; [constructor; [eapply H1; eauto|exact I1]|]. cbn [length]. auto. }
    destruct (is_container (n_t d)) eqn:Econ.
    - destruct (Sim.process_all kids s) as [[kids' s1]|e] eqn:E1; cbn [bind]; [|discriminate]. destruct (Hgo _ _ _ Hs E1) as (G1 & G2 & G3 & G4).
      destruct (ntype_eqb (n_t d) paragraph || ntype_eqb (n_t d) heading) eqn:Eph.
      + assert (Hty : n_t d = paragraph \/ n_t d = heading) by (destruct (n_t d); try discriminate; auto).
        assert (Hnil : kids = []) by (apply (no_kids d kids C7); intros c; destruct Hty as [->| ->]; reflexivity).
        subst kids. destruct kids' as [|x l]; [|discriminate]. cbn [app]. destruct (n_string_content d) as [sc|] eqn:Esc; cbn [of_option bind]; [|discriminate].
        assert (Hok : ok_str Q A sc). { unfold content_ok in C9. rewrite Esc in C9. destruct Hty as [E|E]; rewrite E in C9; [destruct C9 as (x & K1 & K2 & _)|destruct C9 as (x & K1 & K2)]; injection K1 as <-; exact K2. }
        pose proof (proj1 Hok : Forall Q sc) as Hsc.
        pose proof (parseInlines_spec Q HQ HQc sc s1 Hsc ltac:(rewrite G3; exact Hs)) as H. destruct (parseInlines sc s1) as [[inls s2]|e] eqn:Epi; cbn [bind]; [|discriminate].
        intros E. apply Ok_inj in E. injection E as <- <-. destruct H as (H1 & _). apply tree_every_unfold. split; [|eapply Forall_impl; [|exact H1]; intros a; apply inline_inlined].
        intros _. exists sc, s2. split; [exact Esc|]. split; [exact Hok|]. rewrite <- (parseInlines_map sc s1); assumption.
      + intros E. apply Ok_inj in E. injection E as <- <-. apply tree_every_unfold. split; [|exact G1]. unfold inlined, t_type. cbn [t_data]. intros [E|E]; rewrite E in Eph; discriminate.
    - intros E. apply Ok_inj in E. injection E as <- <-. assert (kids = []) as ->. { apply (no_kids d kids C7). intros c. unfold kind_ok in C2. destruct (n_t d); try (destruct C2; fail); try discriminate; reflexivity. }
      apply tree_every_unfold. split; [|constructor]. unfold inlined, t_type. cbn [t_data]. intros [E|E]; rewrite E in Econ; discriminate.
  Qed.
End Final.
Theorem parse_inlined p s t p' : Forall code_point s -> parse p s = Ok (t, p') ->
  refs_ok (doc_char s) (p_refmap p') /\
  forall x, In x (subtrees t) -> inlined (doc_char s) (fun w => infix w (replace_char 0 65533 s)) (p_refmap p') (p_smart p) x.
Proof.
  intros Hs. assert (Hok : ok_str (doc_char s) (fun w => infix w (replace_char 0 65533 s)) (replace_char 0 65533 s)).
  { split; [|auto]. unfold replace_char. apply Forall_forall. intros x Hx. apply in_map_iff in Hx as (y & <- & Hy).
    destruct (N.eqb_spec y 0); [apply plain_doc_char; unfold StrProp.plain_char; lia|]. rewrite Forall_forall in Hs. split; [apply Hs, Hy|]. split; [assumption|]. intros Hsu. exists y. auto. }
  unfold parse. pose proof (parse_blocks_spec (doc_char s) (plain_doc_char s) (doc_char_code s) (fun w => infix w (replace_char 0 65533 s)) s p Hok) as H.
  destruct (parse_blocks s (reset p)) as [q|e] eqn:E0; cbn [bind]; [|discriminate]. destruct H as (t0 & E & H1 & _ & _ & _ & H5). rewrite E. cbn [of_option bind].
  assert (Hsm : p_smart q = p_smart p).
  { unfold parse_blocks in E0. destruct (incorporate_lines _ _) as [p1|e] eqn:E1; cbn [bind] in E0; [|discriminate]. apply incorporate_lines_grows in E1 as (_ & E1). apply finalize_all_grows in E0 as (_ & E0). rewrite E0, E1. reflexivity. }
  destruct (process_inlines t0 _) as [[t' s']|e] eqn:E2; cbn [bind]; [|discriminate]. intros X. apply Ok_inj in X. injection X as <- <-.
  pose proof (process_inlines_final (doc_char s) (plain_doc_char s) (doc_char_code s) _ t0 H1 (IP (ip_subject (p_ip q)) (ip_pos (p_ip q)) (p_refmap q) (p_smart q) (ip_delims (p_ip q)) (ip_brackets (p_ip q)) (ip_kids (p_ip q)) (ip_next (p_ip q))) _ _ H5 E2) as G. cbn [ip_refmap ip_smart] in G. rewrite Hsm in G.
  split; [exact H5|]. intros x Hx. apply (proj1 (tree_every_subtrees _ _) G x Hx).
Qed.
Theorem parse_final p s t p' : Forall code_point s -> parse p s = Ok (t, p') -> forall x, In x (subtrees t) -> t_type x = paragraph \/ t_type x = heading ->
  exists content s', n_string_content (t_data x) = Some content /\ parseInlines content (IP [] 0 (p_refmap p') (p_smart p) [] [] [] 0) = Ok (t_kids x, s').
Proof.
  intros Hs E x Hx Ht. destruct (parse_inlined _ _ _ _ Hs E) as [_ H]. destruct (H x Hx Ht) as (c & s' & H1 & _ & H2). eauto.
Qed.
(** the map of the parser afterwards: no key twice; every map on the way is a part of it *)
Theorem parse_map p s t p' : parse p s = Ok (t, p') -> NoDup (keys (p_refmap p')) /\
  forall ls1 ls2 p1, input_lines s = ls1 ++ ls2 -> incorporate_lines ls1 (reset p) = Ok p1 ->
    NoDup (keys (p_refmap p1)) /\ exists new, p_refmap p' = p_refmap p1 ++ new.
Proof.
  intros E. unfold parse in E. destruct (parse_blocks s (reset p)) as [q|e] eqn:E0; cbn [bind] in E; [|discriminate]. destruct (p_doc q) as [d|]; cbn [of_option bind] in E; [|discriminate].
  destruct (process_inlines _ _) as [[t' s']|e]; cbn [bind] in E; [|discriminate]. apply Ok_inj in E. injection E as _ <-. cbn [p_refmap set_p_doc set_p_ip].
  unfold parse_blocks in E0. destruct (incorporate_lines _ _) as [p2|e] eqn:E1; cbn [bind] in E0; [|discriminate]. apply finalize_all_grows in E0 as (G1 & _).
  assert (N0 : NoDup (keys (p_refmap (reset p)))) by constructor. split.
  - apply (ext_nodup (p_refmap (reset p))); [|exact N0]. eapply ext_trans; [|exact G1]. apply (incorporate_lines_grows _ _ _ E1).
  - intros ls1 ls2 p1 El Ep. split; [apply (ext_nodup (p_refmap (reset p))); [|exact N0]; apply (incorporate_lines_grows _ _ _ Ep)|].
    apply ext_prefix. eapply ext_trans; [|exact G1]. assert (X : incorporate_lines ls2 p1 = Ok p2).
    { rewrite El in E1. clear - E1 Ep. revert Ep E1. generalize (reset p). induction ls1 as [|l ls1 IH]; intros r Ep E1; cbn [app incorporate_lines] in *; [apply Ok_inj in Ep as <-; exact E1|].
      destruct (incorporate_line l r) as [r1|e]; cbn [bind] in *; [|discriminate]. exact (IH _ Ep E1). }
    apply (incorporate_lines_grows _ _ _ X).
Qed.
Theorem entries_stay p s t p' : parse p s = Ok (t, p') -> NoDup (map fst (p_refmap p')) /\
  forall before after q label v, input_lines s = before ++ after -> incorporate_lines before (reset p) = Ok q ->
    assoc_str label (p_refmap q) = Some v -> assoc_str label (p_refmap p') = Some v.
Proof.
  intros H. destruct (parse_map p s t p' H) as [H1 H2]. split; [exact H1|]. intros before after q label v E1 E2 E3. destruct (H2 before after q E1 E2) as (_ & new & ->). rewrite assoc_app, E3. reflexivity.
Qed.
