(** * Links below links: C27 *)
From Verif Require Import Base Regex Common NormRef Node Inlines Blocks Main Spec SpecTree SpecRefs StrFacts StrProp RegexFacts TreeFacts CommonFacts EmphFacts AngleFacts InlineFacts InlineInv BlockFacts BlockInv BlockRun ParseFacts RefMapFacts.
From Coq Require Import ZifyBool ZifyNat ZifyN.

(** ** Predicates that emphasis keeps *)
Lemma split_kid_eq id : forall ks a x b, split_kid id ks = Some (a, x, b) -> ks = a ++ (id, x) :: b.
Proof.
  induction ks as [|[i t] ks IH]; intros a x b E; cbn [split_kid] in E; [discriminate|]. destruct (Nat.eqb_spec i id) as [->|].
  - injection E as <- <- <-. reflexivity.
  - destruct (split_kid id ks) as [[[a' x'] b']|]; [|discriminate]. injection E as <- <- <-. cbn [app]. rewrite (IH a' x' b' eq_refl) at 1. reflexivity.
Qed.
Section Keep.
  Variable P : tree -> Prop.
  Hypothesis Plit : forall v t, P t -> P (put_literal v t).
  Hypothesis Pwrap : forall b kids, Forall P kids -> P (T (new_node (if b : bool then emph else strong) None) kids).
  Notation all ks := (Forall P (map snd ks)).
  Lemma all_app (a b : list (nat * tree)) : all (a ++ b) <-> all a /\ all b.
  Proof. rewrite map_app, Forall_app. tauto. Qed.
  Lemma all_cons i x (b : list (nat * tree)) : all ((i, x) :: b) <-> P x /\ all b.
  Proof. cbn [map snd]. rewrite Forall_cons_iff. tauto. Qed.
  Lemma put_kid_all id v ks ks' : put_kid_literal id v ks = Ok ks' -> all ks -> all ks'.
  Proof.
    unfold put_kid_literal. destruct (split_kid id ks) as [[[a x] b]|] eqn:E; [|discriminate]. apply split_kid_eq in E as ->. intros H. apply Ok_inj in H as <-.
    rewrite !all_app, !all_cons. intros (H1 & H2 & H3). auto.
  Qed.
  Lemma cut_all n t t' : cut_literal n t = Ok t' -> P t -> P t'.
  Proof. unfold cut_literal. destruct (n_literal _); [|discriminate]. intros E. apply Ok_inj in E as <-. apply Plit. Qed.
  Lemma wrap_all use o c e d1 d2 ks ks' : wrap_emph use o c e d1 d2 ks = Ok ks' -> all ks -> all ks'.
  Proof.
    unfold wrap_emph. destruct (split_kid o ks) as [[[a x] b]|] eqn:E; [|discriminate]. apply split_kid_eq in E as ->. destruct (split_kid c b) as [[[b1 y] b2]|] eqn:E; [|discriminate]. apply split_kid_eq in E as ->.
    destruct (cut_literal use x) as [x'|] eqn:E1; cbn [bind]; [|discriminate]. destruct (cut_literal use y) as [y'|] eqn:E2; cbn [bind]; [|discriminate]. intros H. apply Ok_inj in H as <-.
    rewrite !all_app, !all_cons, !all_app, !all_cons. intros (H1 & H2 & H3 & H4 & H5). split; [exact H1|]. split; [|split; [|split; [|exact H5]]].
    - destruct d1; [constructor|]. rewrite all_cons. split; [eapply cut_all; eauto|constructor].
    - split; [apply (Pwrap (Nat.eqb use 1)), H3|constructor].
    - destruct d2; [constructor|]. rewrite all_cons. split; [eapply cut_all; eauto|constructor].
  Qed.
  Lemma pe_step_all bottom c rgt p p' : pe_step bottom c rgt p = Ok p' -> all (pe_kids p) -> all (pe_kids p').
  Proof.
    unfold pe_step. destruct (negb (d_can_close c)); [intros E; apply Ok_inj in E as <-; auto|]. destruct (find_opener _ _ _ _ _) as [found odd].
    destruct (_ || _).
    - destruct found as [[o below]|].
      + cbv zeta. match goal with |- (let* _ := ?x in _) = _ -> _ => destruct x as [ks|] eqn:E1 end; cbn [bind]; [|discriminate]. intros E. apply Ok_inj in E as <-. cbn [pe_kids]. eapply wrap_all; eassumption.
      + destruct (negb odd); intros E; apply Ok_inj in E as <-; auto.
    - destruct (if N.eqb (d_cc c) 39 then _ else _) as [qc qo]. destruct (put_kid_literal _ _ _) as [ks|] eqn:E1; cbn [bind]; [|discriminate]. intros E H. apply put_kid_all in E1; [|exact H]. destruct found as [[o below]|].
      + destruct (put_kid_literal (d_node o) _ _) as [ks'|] eqn:E2; cbn [bind] in E; [|discriminate]. apply Ok_inj in E as <-. cbn [pe_kids]. eapply put_kid_all; eassumption.
      + destruct (negb odd); apply Ok_inj in E as <-; exact E1.
  Qed.
  Lemma pe_loop_all bottom : forall f p p', pe_loop f bottom p = Ok p' -> all (pe_kids p) -> all (pe_kids p').
  Proof.
    induction f as [|f IH]; intros p p' E H; cbn [pe_loop] in E; (destruct (pe_cur p) as [|c rgt]; [apply Ok_inj in E as <-; exact H|]); [discriminate|].
    destruct (pe_step bottom c rgt p) as [p1|] eqn:E1; cbn [bind] in E; [|discriminate]. eapply IH; [exact E|]. eapply pe_step_all; eassumption.
  Qed.
  Lemma emphasis_all bottom ds ks nx ds' ks' nx' : processEmphasis bottom ds ks nx = Ok (ds', ks', nx') -> all ks -> all ks'.
  Proof.
    unfold processEmphasis. destruct (first_closer bottom ds []) as [lft cur]. destruct cur as [|c cur]; [intros E; apply Ok_inj in E; injection E as _ <- _; auto|].
    destruct (pe_loop _ _ _) as [p|] eqn:E1; cbn [bind]; [|discriminate]. intros E. apply Ok_inj in E. injection E as _ <- _. intros H. eapply pe_loop_all; [exact E1|exact H].
  Qed.
End Keep.

(** ** Links that may stand in links *)
Section Nest.
  Variable ok : tree -> Prop.
  Hypothesis ok_lit : forall v t, ok t -> ok (put_literal v t).
  Definition clean : tree -> Prop := tree_every (fun x => t_type x = link -> ok x).
  Definition nest : tree -> Prop := tree_every (fun x => t_type x = link -> Forall clean (t_kids x)).
  Lemma clean_lit v t : clean t -> clean (put_literal v t).
  Proof.
    destruct t as [d kids]. unfold clean, put_literal. cbn [t_data t_kids]. rewrite !tree_every_unfold. intros [H1 H2]. split; [|exact H2]. intros E. apply (ok_lit v (T d kids)), H1. exact E.
  Qed.
  Lemma nest_lit v t : nest t -> nest (put_literal v t).
  Proof. destruct t as [d kids]. unfold nest, put_literal. cbn [t_data t_kids]. rewrite !tree_every_unfold. intros [H1 H2]. split; [|exact H2]. exact H1. Qed.
  Lemma plain_clean d kids : n_t d <> link -> Forall clean kids -> clean (T d kids).
  Proof. intros H1 H2. apply tree_every_unfold. split; [|exact H2]. intros E. contradiction. Qed.
  Lemma plain_nest d kids : n_t d <> link -> Forall nest kids -> nest (T d kids).
  Proof. intros H1 H2. apply tree_every_unfold. split; [|exact H2]. intros E. contradiction. Qed.
  Lemma link_nest d kids : Forall nest kids -> Forall clean kids -> nest (T d kids).
  Proof. intros H1 H2. apply tree_every_unfold. split; [|exact H1]. intros _. exact H2. Qed.
  Lemma wrap_clean b kids : Forall clean kids -> clean (T (new_node (if b : bool then emph else strong) None) kids).
  Proof. apply plain_clean. destruct b; discriminate. Qed.
  Lemma wrap_nest b kids : Forall nest kids -> nest (T (new_node (if b : bool then emph else strong) None) kids).
  Proof. apply plain_nest. destruct b; discriminate. Qed.
  Lemma text_clean l : clean (text_node l).
  Proof. apply plain_clean; [discriminate|constructor]. Qed.
  Lemma text_nest l : nest (text_node l).
  Proof. apply plain_nest; [discriminate|constructor]. Qed.

  Variable Q : N -> Prop.
  Hypothesis HQ : forall c, plain_char c -> Q c.
  Hypothesis HQc : forall c, Q c -> code_point c.
  Variable subj : str.
  Hypothesis ok_auto : forall dest url, angle_word dest subj -> normalize_uri dest = Ok url \/ normalize_uri (u "mailto:" ++ dest) = Ok url -> ok (autolink_node dest url).

  (** an open link bracket that may still become a link has no unwelcome link behind it *)
  Definition open_clean (bs : list bracket) (ks : list (nat * tree)) : Prop :=
    forall b, In b bs -> b_active b = true -> b_image b = false ->
      forall pre tb post, ks = pre ++ (b_node b, tb) :: post -> Forall clean (map snd post).
  Definition fit (s : ip) : Prop := Forall nest (map snd (ip_kids s)) /\ open_clean (ip_brackets s) (ip_kids s).

  Lemma snoc_split {A} (pre : list A) x post ks y : pre ++ x :: post = ks ++ [y] -> (post = [] /\ pre = ks /\ x = y) \/ exists post', post = post' ++ [y] /\ ks = pre ++ x :: post'.
  Proof.
    intros E. destruct (exists_last (l := x :: post)) as (l & z & El); [discriminate|]. rewrite El, app_assoc in E. apply app_inj_tail in E as [E1 E2]. subst z.
    destruct l as [|w l]; cbn [app] in El; injection El as -> ->.
    - left. rewrite app_nil_r in E1. auto.
    - right. exists l. auto.
  Qed.
  Lemma open_snoc bs ks i t : open_clean bs ks -> clean t -> open_clean bs (ks ++ [(i, t)]).
  Proof.
    intros H Ht b Hb Ha Hi pre tb post E. symmetry in E. apply snoc_split in E as [(-> & _ & _)|(post' & -> & E)]; [constructor|].
    rewrite map_app. apply Forall_app. split; [eapply H; eauto|]. constructor; [exact Ht|constructor].
  Qed.
  (** the same siblings with another last one, no less clean *)
  Lemma open_last bs ks i t t' : open_clean bs (ks ++ [(i, t)]) -> (clean t -> clean t') -> open_clean bs (ks ++ [(i, t')]).
  Proof.
    intros H Ht b Hb Ha Hi pre tb post E. symmetry in E. apply snoc_split in E as [(-> & _ & _)|(post' & -> & E)]; [constructor|].
    specialize (H b Hb Ha Hi pre tb (post' ++ [(i, t)])). rewrite E, <- app_assoc in H. specialize (H eq_refl). rewrite map_app, Forall_app in H |- *. destruct H as [H1 H2]. split; [exact H1|].
    constructor; [|constructor]. apply Ht. inversion H2; assumption.
  Qed.
  Lemma open_less bs bs' ks : open_clean bs ks -> (forall b, In b bs' -> In b bs) -> open_clean bs' ks.
  Proof. intros H Hi b Hb. apply H, Hi, Hb. Qed.

  Lemma leaf_fit s t : ip_subject s = subj -> leaf Q s t -> nest t /\ clean t.
  Proof.
    intros Es [(l & -> & _)|[(l & ty & -> & Hty & _)|[->|(dest & url & -> & _ & _ & Hu & Ha)]]].
    - split; [apply text_nest|apply text_clean].
    - split; [apply plain_nest|apply plain_clean]; try (destruct Hty as [-> | ->]; discriminate); constructor.
    - split; [apply plain_nest|apply plain_clean]; try discriminate; constructor.
    - rewrite Es in Ha. assert (K : Forall clean [text_node dest]) by (constructor; [apply text_clean|constructor]). split.
      + apply link_nest; [constructor; [apply text_nest|constructor]|exact K].
      + apply tree_every_unfold. split; [|exact K]. intros _. apply ok_auto; assumption.
  Qed.
  Lemma istep_fit s s' : inv Q s -> ip_subject s = subj -> istep Q s s' -> fit s -> fit s'.
  Proof.
    intros Hinv Es Hst [F1 F2]. destruct Hst as [t p Hl _ _|ty p ks Hty _ _ Hks|d l p _ _ _ _ _|b p Hb _ _ _ _|b bs p Hb _ _|b bs p dest title pre tb post ds ks nx Hb Ha _ _ _ _ Esp Ee]; unfold fit; cbn [ip_kids ip_brackets].
    - destruct (leaf_fit s t Es Hl) as [L1 L2]. split; [rewrite map_app; apply Forall_app; split; [exact F1|constructor; [exact L1|constructor]]|apply open_snoc; assumption].
    - assert (G : Forall nest (map snd ks) /\ open_clean (ip_brackets s) ks).
      { destruct Hks as [->|(k & id & l & Ek & _ & ->)]; [auto|]. rewrite Ek in F1, F2. split.
        - rewrite map_app, Forall_app in F1 |- *. destruct F1 as [K1 _]. split; [exact K1|]. constructor; [apply text_nest|constructor].
        - eapply open_last; [exact F2|]. intros _. apply text_clean. }
      destruct G as [G1 G2]. split.
      + rewrite map_app. apply Forall_app. split; [exact G1|]. constructor; [|constructor]. apply plain_nest; [destruct Hty as [-> | ->]; discriminate|constructor].
      + apply open_snoc; [exact G2|]. apply plain_clean; [destruct Hty as [-> | ->]; discriminate|constructor].
    - split; [rewrite map_app; apply Forall_app; split; [exact F1|constructor; [apply text_nest|constructor]]|apply open_snoc; [exact F2|apply text_clean]].
    - split; [rewrite map_app; apply Forall_app; split; [exact F1|constructor; [apply text_nest|constructor]]|].
      intros b' [<-|Hb'] Ha Hi pre tb post E; [|eapply (open_snoc _ _ _ _ F2 (text_clean _)); eassumption].
      symmetry in E. apply snoc_split in E as [(-> & _ & _)|(post' & -> & E)]; [constructor|].
      exfalso. pose proof (iv_ids _ _ Hinv) as K. rewrite E, ids_app in K. apply Forall_app in K as [_ K]. inversion K as [|x l K1 _]; subst. cbn in K1. lia.
    - split; [rewrite map_app; apply Forall_app; split; [exact F1|constructor; [apply text_nest|constructor]]|].
      apply open_snoc; [|apply text_clean]. eapply open_less; [exact F2|]. intros x Hx. rewrite Hb. right. exact Hx.
    - apply split_kid_eq in Esp. rewrite Esp in F1. rewrite map_app, Forall_app in F1. cbn [map snd] in F1. destruct F1 as [F1 F3]. inversion F3 as [|x l F4 F5]; subst x l.
      pose proof (emphasis_all nest nest_lit wrap_nest _ _ _ _ _ _ _ Ee F5) as N1. split.
      + rewrite map_app. apply Forall_app. split; [exact F1|]. constructor; [|constructor]. cbn [snd]. destruct (b_image b) eqn:Ei.
        * apply plain_nest; [discriminate|exact N1].
        * apply link_nest; [exact N1|]. apply (emphasis_all clean clean_lit wrap_clean _ _ _ _ _ _ _ Ee). eapply (F2 b); [rewrite Hb; left; reflexivity|exact Ha|exact Ei|exact Esp].
      + destruct (b_image b) eqn:Ei.
        * intros b' Hb' Ha' Hi' pre' tb' post' E. symmetry in E. apply snoc_split in E as [(-> & _ & _)|(post2 & -> & E)]; [constructor|].
          assert (G : Forall clean (map snd (post2 ++ (b_node b, tb) :: post))).
          { apply (F2 b' ltac:(rewrite Hb; right; exact Hb') Ha' Hi' pre' tb'). rewrite Esp, E, <- app_assoc. reflexivity. }
          rewrite map_app, Forall_app in G |- *. destruct G as [G1 G2]. cbn [map snd] in G2. inversion G2 as [|x l G3 G4]; subst x l. split; [exact G1|]. constructor; [|constructor]. cbn [snd].
          apply plain_clean; [discriminate|]. apply (emphasis_all clean clean_lit wrap_clean _ _ _ _ _ _ _ Ee G4).
        * intros b' Hb' Ha' Hi'. exfalso. apply in_map_iff in Hb' as (b0 & <- & _). destruct (b_image b0) eqn:E0; cbn in Ha', Hi'; congruence.
  Qed.
  Lemma isteps_fit s s' : inv Q s -> ip_subject s = subj -> isteps Q s s' -> fit s -> fit s'.
  Proof.
    intros Hi Es H Hf. induction H as [|s1 s2 H IH H2]; [exact Hf|]. destruct (isteps_inv Q HQ HQc _ _ Hi H) as (I1 & _ & I3 & _).
    eapply istep_fit; [exact I1|congruence|exact H2|exact IH].
  Qed.
  Theorem inlines_nest content s kids s' : subj = strip content -> Forall Q content -> refs_ok Q (ip_refmap s) ->
    parseInlines content s = Ok (kids, s') -> Forall nest kids.
  Proof.
    intros Hsub Hc Hr E. pose proof (ip0_inv Q content s Hc Hr) as Hi. unfold parseInlines in E. fold (ip0 content s) in E.
    pose proof (inline_loop_spec Q HQ HQc (S (length (strip content))) (ip0 content s) Hi) as H. cbn [ip0 ip_subject ip_pos] in H.
    specialize (H ltac:(lia)). fold (ip0 content s) in H. destruct (inline_loop _ (ip0 content s)) as [s1|e]; cbn [bind] in E; [|discriminate].
    destruct H as (H1 & H2 & _). assert (F0 : fit (ip0 content s)) by (split; [constructor|intros b []]).
    destruct (isteps_fit _ _ Hi (eq_sym Hsub) H1 F0) as [G _]. destruct (processEmphasis _ _ _ _) as [[[ds ks] nx]|e] eqn:Ee; cbn [bind] in E; [|discriminate].
    apply Ok_inj in E. injection E as <- _. eapply emphasis_all; [apply nest_lit|apply wrap_nest|exact Ee|exact G].
  Qed.
End Nest.

(** ** Documents *)
Lemma angle_word_infix dest a b : infix a b -> angle_word dest a -> angle_word dest b.
Proof. intros H (H1 & H2). split; [eapply infix_trans; eassumption|exact H2]. Qed.
Lemma angle_is_word dest : ~ In SP dest -> ~ In LF dest -> word (60%N :: dest ++ [62%N]).
Proof.
  intros H1 H2. split; [discriminate|]. split; intros [X|X]; try discriminate; apply in_app_iff in X as [X|[X|[]]]; try discriminate; contradiction.
Qed.
(** a link whose text is an address that stands between angle brackets in the text *)
Definition auto_in (s : str) (y : tree) : Prop := autolink_of y s.
Lemma auto_lit s v t : auto_in s t -> auto_in s (put_literal v t).
Proof. destruct t as [d kids]. intros H. exact H. Qed.
Lemma auto_node s dest url : infix (60%N :: dest ++ [62%N]) s -> normalize_uri dest = Ok url \/ normalize_uri (u "mailto:" ++ dest) = Ok url -> auto_in s (autolink_node dest url).
Proof.
  intros (a & b & ->) Hu. split; [reflexivity|]. exists dest, url, a, b. split; [reflexivity|]. split; [reflexivity|]. split; [exact Hu|]. cbn [app]. rewrite <- app_assoc. reflexivity.
Qed.
Lemma doc_nest s t p p' : Forall code_point s -> parse p s = Ok (t, p') -> nest (auto_in (replace_char 0 65533 s)) t.
Proof.
  intros Hs E. destruct (parse_inlined _ _ _ _ Hs E) as [Hr Hp]. pose proof (parse_facts p s Hs) as Hf. rewrite E in Hf. destruct Hf as (_ & Hd & _). pose proof (proj2 (parsed_nesting _ _ _ _ Hs E)) as Hst.
  assert (Hpar : forall x, In x (subtrees t) -> t_type x = paragraph \/ t_type x = heading -> Forall (nest (auto_in (replace_char 0 65533 s))) (t_kids x)).
  { intros x Hx Ht. destruct (Hp x Hx Ht) as (content & s' & _ & Hok & Ei). 
    eapply (inlines_nest (auto_in (replace_char 0 65533 s)) (auto_lit _) (doc_char s) (plain_doc_char s) (doc_char_code s) (strip content)); [|reflexivity|apply Hok| |exact Ei]; [|exact Hr].
    intros dest url (Ha & Hb & Hc) Hu. apply auto_node; [|exact Hu]. apply (proj2 Hok); [apply angle_is_word; assumption|]. eapply infix_trans; [exact Ha|apply infix_strip]. }
  assert (Hin : inline_type (t_type t) = false) by (rewrite Hd; reflexivity). clear Hp E Hd Hr. revert Hst Hpar Hin. generalize (auto_in (replace_char 0 65533 s)) as ok. intros ok.
  induction t as [d kids IH] using tree_ind'. intros Hst Hpar Hin.
  assert (Hkids : Forall (nest ok) kids).
  { destruct (t_type (T d kids)) eqn:Ety; try discriminate Hin; try (solve [apply (Hpar (T d kids)); [left; reflexivity|auto]]);
      (rewrite Forall_forall in IH |- *; intros k Hk; assert (Hsub : forall x, In x (subtrees k) -> In x (subtrees (T d kids))) by (intros x Hx; right; apply in_flat_map; eauto);
       apply IH; [exact Hk|intros x Hx; apply Hst; auto|intros x Hx; apply Hpar; auto|];
       pose proof (proj1 (Hst (T d kids) (or_introl eq_refl)) k Hk) as Hm; rewrite Ety in Hm; cbn in Hm; destruct (t_type k); try discriminate; reflexivity). }
  apply plain_nest; [|exact Hkids]. unfold t_type in Hin. cbn [t_data] in Hin. intros X. rewrite X in Hin. discriminate.
Qed.

Lemma nest_below ok t : nest ok t -> forall x y, In x (subtrees t) -> t_type x = link -> lies_below x y -> t_type y = link -> ok y.
Proof.
  intros H x y Hx Ex (k & Hk & Hy) Ey. apply (proj1 (tree_every_subtrees _ _) H x Hx) in Ex. rewrite Forall_forall in Ex. apply (proj1 (tree_every_subtrees _ _) (Ex k Hk) y Hy Ey).
Qed.
Theorem only_autolinks p s t p' : Forall code_point s -> parse p s = Ok (t, p') ->
  forall x y, In x (subtrees t) -> t_type x = link -> lies_below x y -> t_type y = link -> autolink_of y (replace_char 0 65533 s).
Proof. intros Hs E. apply nest_below. eapply doc_nest; eassumption. Qed.
Theorem no_nested_links p s t p' : Forall code_point s -> ~ In 60%N s -> parse p s = Ok (t, p') ->
  forall x y, In x (subtrees t) -> t_type x = link -> lies_below x y -> t_type y <> link.
Proof.
  intros Hs Hn E x y Hx Ex Hb Ey. destruct (only_autolinks _ _ _ _ Hs E x y Hx Ex Hb Ey) as (_ & w & dest & a & b & _ & _ & _ & Es).
  apply Hn. assert (H : In 60%N (replace_char 0 65533 s)) by (rewrite Es; apply in_or_app; right; left; reflexivity).
  unfold replace_char in H. apply in_map_iff in H as (z & Ez & Hz). destruct (N.eqb z 0); [discriminate|]. subst z. exact Hz.
Qed.

(** ** A link in a link *)
Definition is_link (x : tree) : bool := ntype_eqb (t_type x) link.
Definition nested (t : tree) : bool := existsb (fun x => is_link x && existsb (fun k => existsb is_link (subtrees k)) (t_kids x)) (subtrees t).
Lemma is_link_type x : is_link x = true -> t_type x = link.
Proof. unfold is_link. destruct (t_type x); try discriminate. reflexivity. Qed.
Lemma nested_links t : nested t = true -> exists x y, In x (subtrees t) /\ t_type x = link /\ lies_below x y /\ t_type y = link.
Proof.
  intros H. apply existsb_exists in H as (x & Hx & H). apply andb_prop in H as [H1 H2]. apply existsb_exists in H2 as (k & Hk & H2). apply existsb_exists in H2 as (y & Hy & H2).
  exists x, y. split; [exact Hx|]. split; [apply is_link_type, H1|]. split; [exists k; auto|apply is_link_type, H2].
Qed.
Definition sample : str := u "[a <http://b.c> d](/u)".
Lemma nested_sample : exists s t p' x y, Forall code_point s /\ parse (new_parser false) s = Ok (t, p') /\
    In x (subtrees t) /\ t_type x = link /\ lies_below x y /\ t_type y = link.
Proof.
  assert (Hs : Forall code_point sample) by (apply Forall_forall; intros c Hc; cbn in Hc; unfold code_point; repeat (destruct Hc as [<-|Hc]; [lia|]); destruct Hc).
  assert (Hb : match parse (new_parser false) sample with Ok (t, _) => nested t | Err _ => false end = true) by (vm_compute; reflexivity).
  destruct (parse (new_parser false) sample) as [[t p']|e] eqn:E; [|discriminate]. apply nested_links in Hb as (x & y & H). exists sample, t, p', x, y. auto.
Qed.
