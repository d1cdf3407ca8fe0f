(** * A paragraph that is open after a line holds that line (C65) *)
From Verif Require Import Base Regex Common NormRef Node Inlines Blocks Html Main RegexFacts RegexLang StrFacts StrProp Spec SpecTree SpecSame SpecLines SpecParas SpecLazy SpecWeak TreeFacts
  InlineFacts BlockFacts BlockInv BlockSteps BlockRun LineFacts ParseFacts Sim SimFacts DocFacts TextFacts RuleFacts WordFacts FenceFacts ParaFacts ParaDoc LazyInv LazyFacts LazySim.
From Verif Require LeafFacts.
Import SpecParas.

(** an open paragraph without children has text *)
Definition holds_text (p : parser) : Prop :=
  forall fr st, p_stack p = fr :: st -> f_type fr = paragraph -> f_kids fr = [] -> exists sc, n_string_content (f_data fr) = Some sc /\ sc <> [].

Lemma add_line_holds p q : add_line p = Ok q -> holds_text q.
Proof.
  unfold add_line. destruct (tip p) as [t|]; [|discriminate]. cbn [bind]. destruct (n_string_content (f_data t)) as [sc|]; [|discriminate]. cbn [of_option bind].
  destruct (if p_pct p then _ else _) as [p1 pad]. unfold on_tip. destruct (p_stack p1) as [|fr0 st0]; [discriminate|]. intros E. apply Ok_inj in E as <-.
  intros fr st Es _ _. cbn [p_stack set_p_stack] in Es. injection Es as <- _. destruct fr0 as [d0 k0]. eexists. split; [reflexivity|]. destruct sc; [|discriminate]. destruct pad; [|discriminate]. destruct (rest_offset p1); discriminate.
Qed.
Lemma add_line_type p q : add_line p = Ok q -> map f_type (p_stack q) = map f_type (p_stack p).
Proof.
  unfold add_line. destruct (tip p) as [t|]; [|discriminate]. cbn [bind]. destruct (n_string_content (f_data t)) as [sc|]; [|discriminate]. cbn [of_option bind].
  destruct (p_pct p); cbv beta iota; unfold on_tip; cbn [p_stack set_p_offset]; destruct (p_stack p) as [|[d k] st]; try discriminate; intros E; apply Ok_inj in E as <-; reflexivity.
Qed.
(** closing an HTML block leaves a parent with a child *)
Lemma finalize_html_holds n p q fr st : p_stack p = fr :: st -> f_type fr = html_block -> finalize_tip n p = Ok q -> holds_text q.
Proof.
  intros Es Ht. unfold finalize_tip. rewrite Es. cbv zeta. destruct (of_option _ _) as [[sp0 e]|]; [|discriminate]. cbn [bind].
  change (n_t (set_n_sourcepos _ _)) with (f_type fr). rewrite Ht. destruct (finalize_html _) as [d'|]; [|discriminate]. cbn [bind]. intros E. apply Ok_inj in E as <-.
  intros fr1 st1 Es1 _ Hk. unfold attach in Es1. cbn [p_stack set_p_stack] in Es1. destruct st as [|f st]; [discriminate|]. cbn [p_stack set_p_stack] in Es1. injection Es1 as <- _. cbn [f_kids] in Hk. destruct (f_kids f); discriminate.
Qed.
Lemma finalize_tip_data n p q fr st : p_stack p = fr :: st -> finalize_tip n p = Ok q -> map f_type (p_stack q) = map f_type st.
Proof.
  intros Es. unfold finalize_tip. rewrite Es. cbv zeta. destruct (of_option _ _) as [[sp0 e]|]; [|discriminate]. cbn [bind].
  assert (Ha : forall t x, p_stack x = st -> map f_type (p_stack (attach t x)) = map f_type st).
  { intros t x Ex. unfold attach. rewrite Ex. destruct st as [|[d k] st]; [cbn; rewrite Ex; reflexivity|reflexivity]. }
  destruct (n_t _); try discriminate; try (intros E; apply Ok_inj in E as <-; apply Ha; reflexivity).
  all: try (destruct (finalize_list _ _) as [d' items]; intros E; apply Ok_inj in E as <-; apply Ha; reflexivity).
  all: try (match goal with |- (let* _ := ?y in _) = _ -> _ => destruct y as [d'|] end; [|discriminate]; cbn [bind]; intros E; apply Ok_inj in E as <-; apply Ha; reflexivity).
  unfold finalize_paragraph. destruct (of_option _ _) as [c|]; [|discriminate]. cbn [bind]. unfold strip_refs. destruct (ref_loop _ _ _ _ _) as [[[[c0 g] s] rm]|]; [|discriminate]. cbn [bind]. intros E. apply Ok_inj in E as <-.
  destruct (g && is_blank c0); [reflexivity|apply Ha; reflexivity].
Qed.
Lemma line_end_holds ln p q : line_end ln p = Ok q -> holds_text q.
Proof.
  unfold line_end. destruct (tip p) as [t|]; [|discriminate]. cbn [bind].
  assert (G : forall x, (x = add_line p \/ x = add_text p) -> (let* p5 := x in Ok (set_p_last_line_length (length ln) p5)) = Ok q -> holds_text q).
  2:{ destruct (_ && _); intros E; (eapply G; [|exact E]); tauto. }
  intros x Hx E. destruct x as [p5|] eqn:Ex; [|discriminate]. cbn [bind] in E. apply Ok_inj in E as <-. enough (holds_text p5) by (intros fr st Es; apply (H fr st); exact Es).
  destruct Hx as [Hx|Hx]; symmetry in Hx; [eapply add_line_holds; exact Hx|]. clear Ex t. revert Hx. unfold add_text. destruct (close_unmatched_blocks p) as [p1|]; [|discriminate]. cbn [bind].
  unfold tip. destruct (p_stack p1) as [|c st1] eqn:E1; [discriminate|]. cbn [hd_error of_option bind]. cbv zeta.
  match goal with |- (let* _ := ?y in _) = _ -> _ => destruct y as [fl|]; [|discriminate] end. cbn [bind].
  match goal with |- context [set_p_stack ?s p1] => set (p2 := set_p_stack s p1) end.
  assert (Et : map f_type (p_stack p2) = f_type c :: map f_type st1).
  { unfold p2. cbn [p_stack set_p_stack map tl]. rewrite map_map. reflexivity. }
  clearbody p2. destruct (accepts_lines (f_type c)) as [acc|] eqn:Ea; [|discriminate]. cbn [bind]. destruct acc.
  - destruct (add_line p2) as [p3|] eqn:E3; [|discriminate]. cbn [bind]. destruct (ntype_eqb (f_type c) html_block) eqn:Eh; [|intros E; apply Ok_inj in E as <-; eapply add_line_holds; exact E3].
    destruct (of_option _ _) as [ty|]; [|discriminate]. cbn [bind]. destruct (_ && _); [|intros E; apply Ok_inj in E as <-; eapply add_line_holds; exact E3].
    pose proof (add_line_type _ _ E3) as Et3. rewrite Et in Et3. destruct (p_stack p3) as [|f3 st3] eqn:Es3; [discriminate|]. cbn [map] in Et3. injection Et3 as Et3 _.
    apply (finalize_html_holds _ _ _ f3 st3 Es3). rewrite Et3. destruct (f_type c); try discriminate; reflexivity.
  - destruct (_ && _).
    + destruct (add_child _ _ _) as [p3|]; [|discriminate]. cbn [bind]. apply add_line_holds.
    + intros E. apply Ok_inj in E as <-. intros fr st Es Hty. rewrite Es in Et. cbn [map] in Et. injection Et as Et _. rewrite <- Et, Hty in Ea. discriminate.
Qed.
Lemma descend_none : forall path depth p q, descend path depth p = Ok (None, q) -> exists fr st, p_stack p = fr :: st /\ map f_type (p_stack q) = map f_type st.
Proof.
  induction path as [|f path IH]; intros depth p q E; cbn [descend] in E; [discriminate|].
  destruct (continue_ _ _ _) as [[rv p2]|e] eqn:Ec; [|discriminate]. cbn [bind] in E.
  assert (En : p_stack (find_next_nonspace p) = p_stack p) by (unfold find_next_nonspace; destruct (skip_spaces _ _ _); reflexivity).
  destruct rv; [|discriminate|].
  - apply IH in E as (fr & st & E1 & E2). exists fr, st. rewrite (continue_stack _ _ _ _ _ Ec ltac:(discriminate)), En in E1. auto.
  - injection E as <-. revert Ec. unfold continue_.
    destruct (n_t (f_data f)); try discriminate;
      repeat first [discriminate | match goal with
        | |- (let* _ := finalize_tip _ _ in _) = _ -> _ => fail 1
        | |- (if ?b then _ else _) = _ -> _ => destruct b
        | |- match ?b with Some _ => _ | None => _ end = _ -> _ => destruct b
        | |- (let* _ := ?b in _) = _ -> _ => destruct b; cbn [bind] end | cbv zeta].
    all: try (destruct (finalize_tip _ _) as [p'|] eqn:Ef; [|discriminate]; cbn [bind]; intros E; injection E as <-;
      destruct (p_stack p) as [|fr st] eqn:Es; [unfold finalize_tip in Ef; rewrite En in Ef; discriminate|]; exists fr, st; split; [reflexivity|]; eapply finalize_tip_data; [rewrite En; reflexivity|exact Ef]).
    all: destruct (p_blank _); discriminate.
Qed.
Lemma line_holds l p q E Q A : stack_ok Q A E (p_stack p) -> incorporate_line l p = Ok q -> holds_text q.
Proof.
  intros Hok. rewrite incorporate_line_eq. cbv zeta. destruct (descend _ _ _) as [[m p2]|] eqn:Ed; [|discriminate]. cbn [bind line_rest]. destruct m as [n|].
  - destruct (block_at _ _) as [c|]; [|discriminate]. cbn [bind]. destruct (accepts_lines _) as [acc|]; [|discriminate]. cbn [bind]. destruct (_ && acc); [apply line_end_holds|].
    unfold line_tail. destruct (starts_loop _ _ _) as [[n1 p4]|]; [|discriminate]. cbn [bind]. apply line_end_holds.
  - intros Eq. apply Ok_inj in Eq as <-. apply descend_none in Ed as (fr & st & E1 & E2). cbn [line_start p_stack] in E1. change (p_stack (line_start _ p)) with (p_stack p) in E1. rewrite E1 in Hok.
    intros f1 st1 Es Ht _. cbn [p_stack set_p_last_line_length] in Es. change (p_stack p2 = f1 :: st1) in Es. rewrite Es in E2. destruct st as [|par st]; [discriminate|]. cbn [map] in E2. injection E2 as E2 _.
    destruct Hok as (_ & Hh & _). exfalso. eapply block_holds_leaf; [|exact Hh]. right. right. congruence.
Qed.
Lemma lines_hold smart ls p : Forall (Forall code_point) ls -> ls <> [] -> incorporate_lines ls (reset (new_parser smart)) = Ok p -> holds_text p.
Proof.
  intros Hc Hn E. destruct (exists_last Hn) as (l0 & l & ->). apply Forall_app in Hc as [Hc _]. rewrite snoc_one in E. destruct (incorporate_lines l0 _) as [p0|] eqn:E0; [|discriminate]. cbn [bind] in E.
  pose proof (code_lines_edge smart l0 p0 Hc E0) as ((Hok & _) & _). eapply line_holds; [exact Hok|exact E].
Qed.
