(** * Facts about the renderers and dump.py *)
From Verif Require Import Base Regex Entities Common NormRef Node Inlines Blocks Html Rst Dump Main RegexFacts StrFacts TreeFacts Spec SpecTree HtmlFacts.
From Coq Require Import ZifyBool ZifyNat ZifyN.

(** ** Renderer state (C03) *)
Lemma lit_dis s st : h_dis (h_lit s st) = h_dis st.
Proof. reflexivity. Qed.
Lemma out_dis s st : h_dis (h_out s st) = h_dis st.
Proof. reflexivity. Qed.
#[local] Hint Rewrite dis_cr dis_tag dis_tag0 lit_dis out_dis : dis.

Lemma custom_inline_dis d e st : h_dis (h_custom_inline d e st) = h_dis st.
Proof. unfold h_custom_inline. destruct (truthy _); reflexivity. Qed.
#[local] Hint Rewrite custom_inline_dis : dis.

Lemma html_inline_dis o d st st' : h_html_inline o d st = Ok st' -> h_dis st' = h_dis st.
Proof.
  unfold h_html_inline. destruct (ho_safe o); [intros H; injection H as <-; reflexivity|].
  destruct (n_literal d); cbn; [|discriminate]. intros H; injection H as <-; reflexivity.
Qed.

Lemma html_node_dis o d anc e st st' :
  html_node o d anc e st = Ok st' ->
  h_dis st' = if ntype_eqb (n_t d) image then (if e then h_dis st + 1 else h_dis st - 1)%Z else h_dis st.
Proof.
  unfold html_node. destruct (n_t d); cbn [ntype_eqb]; intros H;
    try (injection H as <-; autorewrite with dis; reflexivity).
  - injection H as <-. destruct e; autorewrite with dis; reflexivity.
  - unfold h_list in H. destruct (n_list_data d); cbn [bind of_option] in H; [|discriminate].
    injection H as <-. destruct e; autorewrite with dis; reflexivity.
  - injection H as <-. destruct e; autorewrite with dis; reflexivity.
  - unfold h_paragraph in H. destruct anc as [|pa gp]; [discriminate|].
    match type of H with (let* tight := ?X in _) = _ => destruct X as [tight|] end; cbn [bind] in H; [|discriminate].
    injection H as <-. destruct tight, e; autorewrite with dis; reflexivity.
  - injection H as <-. destruct e; autorewrite with dis; reflexivity.
  - unfold h_html_block in H. destruct (h_html_inline o d (h_cr st)) as [s1|] eqn:E; cbn [bind] in H; [|discriminate].
    injection H as <-. apply html_inline_dis in E. rewrite dis_cr, E, dis_cr. reflexivity.
  - apply html_inline_dis in H. exact H.
  - unfold h_link in H. destruct e.
    + destruct (unsafe_dest _ _); cbn [bind] in H; [|discriminate]. injection H as <-. autorewrite with dis. reflexivity.
    + injection H as <-. autorewrite with dis. reflexivity.
  - unfold h_image in H. destruct e.
    + destruct (Z.eqb (h_dis st) 0).
      * destruct (unsafe_dest _ _) as [uns|]; cbn [bind] in H; [|discriminate]. injection H as <-. destruct uns; reflexivity.
      * cbn [bind] in H. injection H as <-. reflexivity.
    + injection H as <-. cbn [set_h_dis h_dis]. destruct (Z.eqb (h_dis st - 1) 0); [|reflexivity].
      destruct (truthy _); reflexivity.
  - injection H as <-. unfold h_custom_block. autorewrite with dis. reflexivity.
Qed.

Lemma html_tree_dis o : forall t anc st st', html_events o (events anc t) st = Ok st' -> h_dis st' = h_dis st.
Proof.
  induction t as [d kids IH] using tree_ind'. intros anc st st' H. cbn [events] in H.
  destruct (is_container (n_t d)) eqn:Hc.
  - cbn [html_events] in H.
    destruct (html_node o d anc true st) as [s1|] eqn:E1; cbn [bind] in H; [|discriminate].
    rewrite html_events_app in H.
    destruct (html_events o (flat_map _ kids) s1) as [s2|] eqn:E2; cbn [bind] in H; [|discriminate].
    cbn [html_events] in H.
    destruct (html_node o d anc false s2) as [s3|] eqn:E3; cbn [bind] in H; [|discriminate].
    injection H as <-. apply html_node_dis in E1, E3.
    assert (D : h_dis s2 = h_dis s1).
    { clear E1 E3. revert IH s1 E2. generalize (d :: anc). induction kids as [|x kids IHk]; intros l IH s1 E2.
      - cbn in E2. injection E2 as <-. reflexivity.
      - inversion IH; subst. cbn [flat_map] in E2. rewrite html_events_app in E2.
        destruct (html_events o (events l x) s1) as [s4|] eqn:E4; cbn [bind] in E2; [|discriminate].
        rewrite (IHk l H2 s4 E2). eapply H1. exact E4. }
    rewrite E3, D, E1. destruct (ntype_eqb (n_t d) image); lia.
  - cbn [html_events] in H. destruct (html_node o d anc true st) as [s1|] eqn:E1; cbn [bind] in H; [|discriminate].
    injection H as <-. apply html_node_dis in E1. rewrite E1.
    destruct (n_t d); try reflexivity. vm_compute in Hc. discriminate Hc.
Qed.

Lemma html_render_dis o r ast s r' : html_render o r ast = Ok (s, r') -> h_dis r' = h_dis r.
Proof.
  unfold html_render. destruct (html_events _ _ _) as [st|] eqn:E; cbn [bind]; [|discriminate].
  intros H. injection H as <- <-. apply html_tree_dis in E. exact E.
Qed.
Lemma html_render_same o r r' ast : h_dis r = h_dis r' -> html_render o r ast = html_render o r' ast.
Proof. unfold html_render. intros ->. reflexivity. Qed.

(** Rendering a list of documents, one after the other, with the same object *)
Fixpoint html_renders (o : hopts) (r : hst) (docs : list tree) : res (list str * hst) :=
  match docs with
  | [] => Ok ([], r)
  | d :: docs' =>
      let* (s, r1) := html_render o r d in
      let* (l, r2) := html_renders o r1 docs' in Ok (s :: l, r2)
  end.
Lemma html_renders_dis o : forall docs r l r', html_renders o r docs = Ok (l, r') -> h_dis r' = h_dis r.
Proof.
  induction docs as [|d docs IH]; intros r l r' H; cbn in H.
  - injection H as _ <-. reflexivity.
  - destruct (html_render o r d) as [[s r1]|] eqn:E; cbn in H; [|discriminate].
    destruct (html_renders o r1 docs) as [[l1 r2]|] eqn:E2; cbn in H; [|discriminate].
    injection H as _ <-. rewrite (IH _ _ _ E2). eapply html_render_dis. exact E.
Qed.

(** ** Unsafe URLs (C07) *)
(** [lit_re icase w]: the pattern of a literal word *)
Fixpoint lit_re (ic : bool) (c : N) (w : str) : regex :=
  match w with
  | [] => RChr (CS false ic [CRange c c])
  | d :: w' => RSeq (RChr (CS false ic [CRange c c])) (lit_re ic d w')
  end.
Lemma icase_lower c x : in_range 0 126 x = true -> ascii_lower c = x ->
  cmatch (CS false true [CRange x x]) c = true.
Proof.
  unfold ascii_lower. intros Hx H. cm_unfold. unfold in_range in *. unfold fold_icase, in_range.
  destruct ((65 <=? c) && (c <=? 90))%N eqn:E.
  - subst x. lia.
  - subst x. destruct (N.eqb c 304 || N.eqb c 305) eqn:E1; [lia|].
    destruct (N.eqb c 383) eqn:E2; [lia|]. destruct (N.eqb c 8490) eqn:E3; [lia|]. lia.
Qed.
Lemma lit_re_matches : forall w c a b prev caps,
  forallb (in_range 0 126) (c :: w) = true -> map ascii_lower a = c :: w ->
  results (lit_re true c w) (MS prev (a ++ b) caps) = [MS (last_opt a) b caps].
Proof.
  induction w as [|d w IH]; intros c a b prev caps Hw Ha; (destruct a as [|x a]; [discriminate|]);
    injection Ha as Hx Ha; cbn [forallb] in Hw; apply andb_prop in Hw as [Hc Hw].
  - destruct a; [|discriminate]. cbn [lit_re results ms_rest app ms_caps]. rewrite icase_lower by assumption. reflexivity.
  - cbn [lit_re results ms_rest app ms_caps]. rewrite icase_lower by assumption. cbn [flat_map].
    rewrite IH by assumption. rewrite app_nil_r. rewrite last_opt_cons. destruct a; [discriminate|].
    destruct (last_opt (n :: a)) eqn:E; [reflexivity|]. exfalso. clear -E. rewrite last_opt_cons in E.
    destruct (last_opt a); discriminate.
Qed.

Lemma results_seq_app a b st : results (RSeq a b) st = flat_map (results b) (results a st).
Proof. reflexivity. Qed.

Lemma unsafe_javascript d : ci_prefix (u "javascript:") d -> re_test reUnsafeProtocol d = true.
Proof.
  intros (a & b & -> & Ha). apply re_test_true. exists [], (a ++ b). split; [reflexivity|].
  change reUnsafeProtocol with
    (RAlt (RSeq RBol (lit_re true 106 (u "avascript:")))
       (RAlt (lit_re true 118 (u "bscript:")) (RAlt (lit_re true 102 (u "ile:")) (lit_re true 100 (u "ata:"))))).
  cbn [results ms_prev prev_of last_opt flat_map].
  rewrite (lit_re_matches (u "avascript:") 106%N) by (exact Ha || reflexivity). discriminate.
Qed.
Lemma unsafe_infix d w : In w [u "vbscript:"; u "file:"; u "data:"] -> ci_infix w d -> re_test reUnsafeProtocol d = true.
Proof.
  intros Hw (p & q & -> & a & b & -> & Ha). apply re_test_true. exists p, (a ++ b). split; [reflexivity|].
  change reUnsafeProtocol with
    (RAlt (RSeq RBol (lit_re true 106 (u "avascript:")))
       (RAlt (lit_re true 118 (u "bscript:")) (RAlt (lit_re true 102 (u "ile:")) (lit_re true 100 (u "ata:"))))).
  cbn [results]. intros H. apply app_eq_nil in H as [_ H]. apply app_eq_nil in H as [H1 H].
  apply app_eq_nil in H as [H2 H3].
  destruct Hw as [<-|[<-|[<-|[]]]].
  - rewrite (lit_re_matches (u "bscript:") 118%N) in H1 by (exact Ha || reflexivity). discriminate.
  - rewrite (lit_re_matches (u "ile:") 102%N) in H2 by (exact Ha || reflexivity). discriminate.
  - rewrite (lit_re_matches (u "ata:") 100%N) in H3 by (exact Ha || reflexivity). discriminate.
Qed.

(** a literal word followed by [r] *)
Fixpoint lit_seq (ic : bool) (w : str) (r : regex) : regex :=
  match w with [] => r | c :: w' => RSeq (RChr (CS false ic [CRange c c])) (lit_seq ic w' r) end.
Definition plain_letter (x : N) : bool :=
  in_range 0 126 x && negb (in_range 65 90 x) && negb (N.eqb x 115) && negb (N.eqb x 107).
Lemma icase_inv c x : plain_letter x = true -> cmatch (CS false true [CRange x x]) c = true -> lower_i c = x.
Proof.
  unfold plain_letter. intros Hx H. cm_unfold_in H. unfold in_range in *. unfold lower_i, ascii_lower, in_range.
  unfold fold_icase, in_range in H.
  destruct ((65 <=? c) && (c <=? 90))%N eqn:E.
  - destruct (N.eqb c 304 || N.eqb c 305) eqn:E1; lia.
  - destruct (N.eqb c 304 || N.eqb c 305) eqn:E1; [lia|].
    destruct (N.eqb c 383) eqn:E2; [lia|]. destruct (N.eqb c 8490) eqn:E3; lia.
Qed.
Lemma lit_seq_inv r : forall w prev s caps,
  forallb plain_letter w = true -> results (lit_seq true w r) (MS prev s caps) <> [] ->
  exists a b p, s = a ++ b /\ map lower_i a = w /\ results r (MS p b caps) <> [].
Proof.
  induction w as [|x w IH]; intros prev s caps Hw H.
  - exists [], s, prev. auto.
  - cbn [forallb] in Hw. apply andb_prop in Hw as [Hx Hw]. cbn [lit_seq results ms_rest ms_caps] in H.
    destruct s as [|c s]; [destruct H; reflexivity|]. destruct (cmatch _ c) eqn:E; [|destruct H; reflexivity].
    cbn [flat_map] in H. rewrite app_nil_r in H. destruct (IH _ _ _ Hw H) as (a & b & p & -> & Ha & Hr).
    exists (c :: a), b, p. cbn [map]. rewrite Ha, (icase_inv c x) by assumption. auto.
Qed.

Lemma lit_re_inv : forall w x prev s caps,
  forallb plain_letter (x :: w) = true -> results (lit_re true x w) (MS prev s caps) <> [] ->
  exists a b, s = a ++ b /\ map lower_i a = x :: w.
Proof.
  induction w as [|y w IH]; intros x prev s caps Hw H; cbn [forallb] in Hw; apply andb_prop in Hw as [Hx Hw];
    cbn [lit_re results ms_rest ms_caps] in H;
    (destruct s as [|c s]; [destruct H; reflexivity|]); (destruct (cmatch _ c) eqn:E; [|destruct H; reflexivity]).
  - exists [c], s. cbn [map]. rewrite (icase_inv c x) by assumption. auto.
  - cbn [flat_map] in H. rewrite app_nil_r in H. destruct (IH _ _ _ _ Hw H) as (a & b & -> & Ha).
    exists (c :: a), b. cbn [map]. rewrite Ha, (icase_inv c x) by assumption. auto.
Qed.

Lemma safe_data d : re_test reSafeDataProtocol d = true -> safe_data_url d.
Proof.
  intros H. apply re_test_true in H as (p & q & -> & H).
  change reSafeDataProtocol with
    (RSeq RBol (lit_seq true (u "data:image/")
       (RAlt (lit_re true 112 (u "ng")) (RAlt (lit_re true 103 (u "if"))
        (RAlt (lit_re true 106 (u "peg")) (lit_re true 119 (u "ebp"))))))) in H.
  rewrite results_seq_app in H. cbn [results ms_prev] in H.
  assert (p = []) as ->.
  { destruct p as [|c p]; [reflexivity|]. destruct (prev_of_cons None c p) as [x E]. rewrite E in H. destruct H; reflexivity. }
  cbn [prev_of last_opt flat_map] in H. rewrite app_nil_r in H.
  apply lit_seq_inv in H as (a & b & pr & -> & Ha & H); [|reflexivity].
  cbn [results] in H.
  assert (Hk : exists k a2 b2, In k [u "png"; u "gif"; u "jpeg"; u "webp"] /\ b = a2 ++ b2 /\ map lower_i a2 = k).
  { destruct (results (lit_re true 112 (u "ng")) (MS pr b [])) eqn:E1.
    2:{ destruct (lit_re_inv (u "ng") 112%N pr b []) as (a2 & b2 & -> & H2); [reflexivity|congruence|].
        exists (u "png"), a2, b2. split; [cbn; tauto|auto]. }
    destruct (results (lit_re true 103 (u "if")) (MS pr b [])) eqn:E2.
    2:{ destruct (lit_re_inv (u "if") 103%N pr b []) as (a2 & b2 & -> & H2); [reflexivity|congruence|].
        exists (u "gif"), a2, b2. split; [cbn; tauto|auto]. }
    destruct (results (lit_re true 106 (u "peg")) (MS pr b [])) eqn:E3.
    2:{ destruct (lit_re_inv (u "peg") 106%N pr b []) as (a2 & b2 & -> & H2); [reflexivity|congruence|].
        exists (u "jpeg"), a2, b2. split; [cbn; tauto|auto]. }
    destruct (lit_re_inv (u "ebp") 119%N pr b []) as (a2 & b2 & -> & H2); [reflexivity|exact H|].
    exists (u "webp"), a2, b2. split; [cbn; tauto|auto]. }
  destruct Hk as (k & a2 & b2 & Hk & -> & H2).
  exists k, (a ++ a2), b2. rewrite <- app_assoc, map_app, Ha, H2. auto.
Qed.

Lemma potentially_unsafe_safe d : potentially_unsafe d = false -> safe_url d.
Proof.
  unfold potentially_unsafe. intros H. split.
  - intros Hj. rewrite (unsafe_javascript _ Hj) in H. cbn in H. apply negb_false_iff in H.
    apply safe_data in H as (k & a & b & _ & -> & Ha).
    destruct Hj as (a' & b' & E & Ha'). destruct a as [|x a]; [discriminate|]. destruct a' as [|y a']; [discriminate|].
    injection E as <- _. injection Ha as Hx _. injection Ha' as Hy _. clear -Hx Hy.
    unfold lower_i in Hx. unfold ascii_lower in *. destruct (N.eqb x 304 || N.eqb x 305) eqn:E; [discriminate|].
    rewrite Hx in Hy. discriminate.
  - intros Hns. assert (Hu : re_test reUnsafeProtocol d = false).
    { destruct (re_test reUnsafeProtocol d); [|reflexivity]. cbn in H. apply negb_false_iff in H.
      destruct Hns. apply safe_data, H. }
    repeat split; intros Hi; eapply unsafe_infix in Hi; try congruence; cbn; tauto.
Qed.

(** ** Paragraphs in lists (C36) *)
Lemma bind_assoc {A B C} (x : res A) (f : A -> res B) (g : B -> res C) :
  bind (bind x f) g = bind x (fun a => bind (f a) g).
Proof. destruct x; reflexivity. Qed.

Lemma paragraph_in_list o d kids i l anc ld st st' :
  n_t d = paragraph -> n_t l = list_ -> n_list_data l = Some ld -> h_dis st = 0%Z ->
  html_events o (events (i :: l :: anc) (T d kids)) st = Ok st' ->
  exists st1 st2,
    html_events o (flat_map (events (d :: i :: l :: anc)) kids) st1 = Ok st2 /\
    if ld_tight ld then st1 = st /\ st2 = st'
    else h_buf st1 = h_buf st ++ cr_out st ++ u "<p" ++ attrs_str (attrs_of o d) ++ u ">" /\
         h_buf st' = h_buf st2 ++ u "</p>" ++ [LF].
Proof.
  intros Hd Hl Hld Hz H. cbn [events] in H. rewrite Hd in H.
  change (is_container paragraph) with true in H. cbn [html_events] in H.
  unfold html_node in H. rewrite Hd in H. unfold h_paragraph in H.
  rewrite Hl, Hld in H. cbn [ntype_eqb of_option bind] in H. rewrite html_events_app in H.
  destruct (ld_tight ld) eqn:Eti.
  - destruct (html_events o (flat_map _ kids) st) as [s2|] eqn:E2; cbn [bind] in H; [|discriminate].
    cbn [html_events] in H. unfold html_node in H. rewrite Hd in H. unfold h_paragraph in H.
    rewrite Hl, Hld in H. cbn [ntype_eqb of_option bind] in H. rewrite Eti in H.
    injection H as <-. exists st, s2. split; [exact E2|split; reflexivity].
  - destruct (html_events o (flat_map _ kids) (h_tag _ _ _ _)) as [s2|] eqn:E2; cbn [bind] in H; [|discriminate].
    exists (h_tag (u "p") (attrs_of o d) false (h_cr st)), s2. split; [exact E2|].
    assert (Hz2 : h_dis s2 = 0%Z).
    { assert (G : forall kids anc s s', html_events o (flat_map (events anc) kids) s = Ok s' -> h_dis s' = h_dis s).
      { clear. induction kids as [|x l IH]; intros anc s s' H; cbn in H; [congruence|].
        rewrite html_events_app in H. destruct (html_events o (events anc x) s) as [s1|] eqn:E; cbn [bind] in H; [|discriminate].
        rewrite (IH _ _ _ H). eapply html_tree_dis, E. }
      apply G in E2. rewrite E2, dis_tag, dis_cr. exact Hz. }
    cbn [html_events] in H. unfold html_node in H. rewrite Hd in H. unfold h_paragraph in H.
    rewrite Hl, Hld in H. cbn [ntype_eqb of_option bind] in H. rewrite Eti in H.
    apply Ok_inj in H as <-. split.
    + destruct (emits_tag (u "p") (attrs_of o d) false (h_cr st)) as [-> _].
      destruct (emits_cr st) as [-> ->]. unfold tag_str. rewrite Hz. cbn [Z.ltb Z.compare].
      rewrite <- !app_assoc. reflexivity.
    + destruct (emits_cr (h_tag0 (u "/p") s2)) as [-> _]. unfold h_tag0.
      destruct (emits_tag (u "/p") [] false s2) as [-> _]. unfold tag_str, cr_out, h_tag. rewrite Hz2. cbn [Z.ltb Z.compare h_last].
      rewrite <- !app_assoc. reflexivity.
Qed.

(** ** dump.py (C32) *)
Definition rep_data (r : rep) : ndata := let 'Rep d _ := r in d.
Definition rep_children (r : rep) : list rep := match r with Rep _ (Some l) => l | Rep _ None => [] end.
Definition rep_flat (r : rep) : list ndata := rep_data r :: map rep_data (rep_children r).
Definition has_children (r : rep) : bool := match r with Rep _ (Some _) => true | _ => false end.

Lemma prepare_loop_spec : forall evs a,
  (match a with [] => True | r :: _ => has_children r = true end) ->
  (forall ev, In ev evs -> ev_entering ev = false -> is_container (t_type (ev_node ev)) = true) ->
  (a = [] -> match evs with
             | [] => True
             | ev :: evs' => ev_entering ev = true /\ (is_container (t_type (ev_node ev)) = true \/ evs' = [])
             end) ->
  exists l, prepare_loop evs a = Ok l /\
    flat_map rep_flat l = flat_map rep_flat (rev a) ++ map (fun ev => t_data (ev_node ev)) evs.
Proof.
  induction evs as [|ev evs IH]; intros a Ha Hex Hroot; cbn [prepare_loop].
  - exists (rev a). rewrite app_nil_r. auto.
  - unfold prepare_step. destruct (ev_entering ev) eqn:Een.
    + destruct a as [|[d [ch|]] a'].
      * destruct (Hroot eq_refl) as [_ [Hc|Hev]].
        -- cbn [bind]. destruct (IH [rep_of (ev_node ev)]) as (l & El & Fl).
           ++ unfold rep_of. rewrite Hc. reflexivity.
           ++ intros e He. apply Hex. right. exact He.
           ++ discriminate.
           ++ exists l. split; [exact El|]. rewrite Fl. cbn. unfold rep_of. rewrite Hc. reflexivity.
        -- subst evs. cbn. exists [rep_of (ev_node ev)]. split; [reflexivity|]. cbn. unfold rep_of.
           destruct (is_container _); reflexivity.
      * cbn [bind]. destruct (IH (Rep d (Some (ch ++ [rep_of (ev_node ev)])) :: a')) as (l & El & Fl).
        -- reflexivity.
        -- intros e He. apply Hex. right. exact He.
        -- discriminate.
        -- exists l. split; [exact El|]. rewrite Fl. cbn [rev]. rewrite !flat_map_app. cbn.
           rewrite map_app, !app_nil_r, <- !app_assoc. cbn. rewrite <- !app_assoc. reflexivity.
      * discriminate Ha.
    + cbn [bind]. destruct (IH (rep_of (ev_node ev) :: a)) as (l & El & Fl).
      * cbn. unfold rep_of. rewrite (Hex ev); auto. left. reflexivity.
      * intros e He. apply Hex. right. exact He.
      * discriminate.
      * exists l. split; [exact El|]. rewrite Fl. cbn [rev]. rewrite flat_map_app. cbn.
        unfold rep_of. rewrite (Hex ev) by (auto; left; reflexivity). cbn. rewrite <- app_assoc. reflexivity.
Qed.

Lemma events_exit_container : forall t anc ev, In ev (events anc t) -> ev_entering ev = false ->
  is_container (t_type (ev_node ev)) = true.
Proof.
  induction t as [d kids IH] using tree_ind'. intros anc ev Hin Hen. cbn [events] in Hin.
  destruct (is_container (n_t d)) eqn:Hc.
  - destruct Hin as [<-|Hin]; [discriminate|]. apply in_app_or in Hin as [Hin|[<-|[]]].
    + apply in_flat_map in Hin as (x & Hx & Hin). rewrite Forall_forall in IH. eapply IH; eauto.
    + exact Hc.
  - destruct Hin as [<-|[]]. discriminate.
Qed.

Lemma prepare_events t :
  exists l, prepare t = Ok l /\ flat_map rep_flat l = map (fun ev => t_data (ev_node ev)) (walker t).
Proof.
  unfold prepare. destruct (prepare_loop_spec (walker t) []) as (l & El & Fl).
  - exact I.
  - apply events_exit_container.
  - intros _. destruct t as [d kids]. unfold walker. cbn [events].
    destruct (is_container (n_t d)) eqn:Hc.
    + split; [reflexivity|]. left. exact Hc.
    + split; [reflexivity|]. right. reflexivity.
  - exists l. auto.
Qed.

(** ** RST renderer (C33, C34) *)
Section RstFacts.
  Variable ic : str.

  Lemma rst_events_app a : forall b st,
    rst_events ic (a ++ b) st = let* st1 := rst_events ic a st in rst_events ic b st1.
  Proof.
    induction a as [|[t e anc] a IH]; intros b st; cbn; [reflexivity|].
    destruct (rst_node ic t anc e st); cbn; [apply IH|reflexivity].
  Qed.

  Lemma r_lit_ind s st : r_ind (r_lit ic s st) = r_ind st.
  Proof. reflexivity. Qed.
  Lemma r_cr_ind st : r_ind (r_cr ic st) = r_ind st.
  Proof. reflexivity. Qed.

  (** what entering and leaving a node does to the indentation *)
  Definition node_ind (d : ndata) : Z :=
    match n_t d with
    | image | block_quote => 4
    | item => match n_list_data d with
              | Some ld => match ld_type ld with bullet => 2 | ordered => 3 end
              | None => 0
              end
    | _ => 0
    end.

  Lemma rst_node_ind d kids anc e st st' :
    rst_node ic (T d kids) anc e st = Ok st' ->
    r_ind st' = (if e then r_ind st + node_ind d else r_ind st - node_ind d)%Z.
  Proof.
    unfold rst_node, node_ind. destruct (n_t d); intros H.
    1: injection H as <-; destruct e; lia.
    - injection H as <-. destruct e; cbn [add_ind r_ind]; lia.
    - injection H as <-. destruct e; cbn; lia.
    - unfold r_item in H. destruct (n_list_data d) as [ld|]; cbn [of_option bind] in H; [|discriminate].
      injection H as <-. destruct e, (ld_type ld); cbn; lia.
    - destruct anc; [discriminate|]. injection H as <-. destruct (ntype_eqb _ _), e; cbn; lia.
    - unfold r_heading in H. destruct (heading_char _); cbn [bind] in H; [|discriminate].
      destruct (hd_error kids); cbn [of_option bind] in H; [|discriminate].
      destruct (n_literal _); cbn [of_option bind] in H; [|discriminate].
      injection H as <-. destruct e; cbn; lia.
    - injection H as <-. destruct e; lia.
    - unfold r_code_block in H. destruct (n_literal d); cbn [of_option bind] in H; [|discriminate].
      injection H as <-. destruct e; cbn; lia.
    - injection H as <-. destruct e; lia.
    - unfold r_out_opt in H. destruct (n_literal d); cbn [of_option bind] in H; [|discriminate].
      injection H as <-. destruct e; cbn; lia.
    - injection H as <-. destruct e; cbn; lia.
    - injection H as <-. destruct e; cbn; lia.
    - unfold r_out_opt in H. destruct (n_literal d); cbn [of_option bind] in H; [|discriminate].
      injection H as <-. destruct e; cbn; lia.
    - injection H as <-. destruct e; lia.
    - injection H as <-. destruct e; cbn; lia.
    - injection H as <-. destruct e; cbn; lia.
    - injection H as <-. destruct e; cbn; lia.
    - unfold r_image in H. destruct (n_destination d); cbn [of_option bind] in H; [|discriminate].
      injection H as <-. destruct e; cbn; lia.
    - injection H as <-. destruct e; lia.
    - injection H as <-. destruct e; lia.
  Qed.

  Lemma rst_tree_ind : forall t anc st st', rst_events ic (events anc t) st = Ok st' -> r_ind st' = r_ind st.
  Proof.
    induction t as [d kids IH] using tree_ind'. intros anc st st' H. cbn [events] in H.
    destruct (is_container (n_t d)) eqn:Hc.
    - cbn [rst_events] in H.
      destruct (rst_node ic (T d kids) anc true st) as [s1|] eqn:E1; cbn [bind] in H; [|discriminate].
      rewrite rst_events_app in H.
      destruct (rst_events ic (flat_map _ kids) s1) as [s2|] eqn:E2; cbn [bind] in H; [|discriminate].
      cbn [rst_events] in H.
      destruct (rst_node ic (T d kids) anc false s2) as [s3|] eqn:E3; cbn [bind] in H; [|discriminate].
      injection H as <-. apply rst_node_ind in E1, E3.
      assert (D : r_ind s2 = r_ind s1).
      { clear E1 E3. revert IH s1 E2. generalize (d :: anc). clear Hc. induction kids as [|x kids IHk]; intros l IH s1 E2.
        - cbn in E2. injection E2 as <-. reflexivity.
        - inversion IH; subst. cbn [flat_map] in E2. rewrite rst_events_app in E2.
          destruct (rst_events ic (events l x) s1) as [s4|] eqn:E4; cbn [bind] in E2; [|discriminate].
          rewrite (IHk l H2 s4 E2). eapply H1. exact E4. }
      rewrite E3, D, E1. lia.
    - cbn [rst_events] in H. destruct (rst_node ic (T d kids) anc true st) as [s1|] eqn:E1; cbn [bind] in H; [|discriminate].
      injection H as <-. apply rst_node_ind in E1. rewrite E1. unfold node_ind.
      destruct (n_t d); try lia; vm_compute in Hc; discriminate Hc.
  Qed.
  Lemma rst_render_ind r ast s r' : rst_render ic r ast = Ok (s, r') -> r_ind r' = r_ind r.
  Proof.
    unfold rst_render. destruct (rst_events _ _ _) as [st|] eqn:E; cbn [bind]; [|discriminate].
    intros H. injection H as <- <-. apply rst_tree_ind in E. exact E.
  Qed.
  Lemma rst_render_same r r' ast : r_ind r = r_ind r' -> rst_render ic r ast = rst_render ic r' ast.
  Proof. unfold rst_render. intros ->. reflexivity. Qed.

  Fixpoint rst_renders (r : rst) (docs : list tree) : res (list str * rst) :=
    match docs with
    | [] => Ok ([], r)
    | d :: docs' =>
        let* (s, r1) := rst_render ic r d in
        let* (l, r2) := rst_renders r1 docs' in Ok (s :: l, r2)
    end.
  Lemma rst_renders_ind : forall docs r l r', rst_renders r docs = Ok (l, r') -> r_ind r' = r_ind r.
  Proof.
    induction docs as [|d docs IH]; intros r l r' H; cbn in H.
    - injection H as _ <-. reflexivity.
    - destruct (rst_render ic r d) as [[s r1]|] eqn:E; cbn in H; [|discriminate].
      destruct (rst_renders r1 docs) as [[l1 r2]|] eqn:E2; cbn in H; [|discriminate].
      injection H as _ <-. rewrite (IH _ _ _ E2). eapply rst_render_ind. exact E.
  Qed.

  (** What the RST renderer needs of a node *)
  Definition rst_ok (t : tree) : Prop :=
    let '(T d kids) := t in
    match n_t d with
    | text | code | code_block => n_literal d <> None
    | image => n_destination d <> None
    | item => n_list_data d <> None
    | heading => n_level d <> None /\ exists k ks, kids = k :: ks /\ n_literal (t_data k) <> None
    | _ => True
    end.

  Lemma rst_node_total d kids anc e st :
    rst_ok (T d kids) -> (n_t d = paragraph -> anc <> []) -> exists st', rst_node ic (T d kids) anc e st = Ok st'.
  Proof.
    unfold rst_ok, rst_node. destruct (n_t d); intros H Hp; try (eexists; reflexivity).
    - unfold r_item. destruct (n_list_data d); [eexists; reflexivity|congruence].
    - destruct anc; [destruct Hp; reflexivity|eexists; reflexivity].
    - unfold r_heading. destruct H as [Hl (k & ks & -> & Hk)]. cbn [hd_error of_option bind].
      destruct (n_literal (t_data k)); [|congruence]. unfold heading_char.
      destruct (n_level d) as [[|n]|]; [| |congruence]; eexists; reflexivity.
    - unfold r_code_block. destruct (n_literal d); [eexists; reflexivity|congruence].
    - unfold r_out_opt. destruct (n_literal d); [eexists; reflexivity|congruence].
    - unfold r_out_opt. destruct (n_literal d); [eexists; reflexivity|congruence].
    - unfold r_image. destruct (n_destination d); [eexists; reflexivity|congruence].
  Qed.

  Lemma rst_tree_total : forall t, tree_every rst_ok t -> forall anc st,
    (t_type t = paragraph -> anc <> []) -> exists st', rst_events ic (events anc t) st = Ok st'.
  Proof.
    induction t as [d kids IH] using tree_ind'. rewrite tree_every_unfold. intros [Hd Hk] anc st Hp.
    cbn [events]. destruct (is_container (n_t d)) eqn:Hc; cbn [rst_events].
    - destruct (rst_node_total d kids anc true st Hd Hp) as [s1 ->]. cbn [bind]. rewrite rst_events_app.
      assert (G : exists s2, rst_events ic (flat_map (events (d :: anc)) kids) s1 = Ok s2).
      { assert (Hne : d :: anc <> []) by discriminate. revert Hne s1 IH Hk. generalize (d :: anc). clear.
        induction kids as [|x kids IHk]; intros l Hne s1 IH Hk; [eexists; reflexivity|].
        inversion IH; subst. inversion Hk; subst. cbn [flat_map]. rewrite rst_events_app.
        destruct (H1 H3 l s1 (fun _ => Hne)) as [s2 ->]. cbn [bind]. apply IHk; auto. }
      destruct G as [s2 ->]. cbn [bind rst_events].
      destruct (rst_node_total d kids anc false s2 Hd Hp) as [s3 ->]. eexists. reflexivity.
    - destruct (rst_node_total d kids anc true st Hd Hp) as [s1 ->]. eexists. reflexivity.
  Qed.
  Lemma rst_render_total r t : tree_every rst_ok t -> t_type t <> paragraph -> exists x, rst_render ic r t = Ok x.
  Proof.
    intros H Hp. unfold rst_render. destruct (rst_tree_total t H [] (RS [] [LF] (r_ind r))) as [s E]; [tauto|].
    unfold walker. rewrite E. eexists. reflexivity.
  Qed.
End RstFacts.

(** ** The HTML renderer does not raise on well-formed trees *)
Definition html_ok (o : hopts) (t : tree) : Prop :=
  let '(T d kids) := t in
  match n_t d with
  | html_inline | html_block => ho_safe o = false -> n_literal d <> None
  | link | image => ho_safe o = true -> n_destination d <> None
  | list_ => n_list_data d <> None
  | _ => True
  end.
Lemma html_node_total o d kids anc e st :
  html_ok o (T d kids) -> (n_t d = paragraph -> anc <> []) ->
  Forall (fun a => n_t a = list_ -> n_list_data a <> None) anc ->
  exists st', html_node o d anc e st = Ok st'.
Proof.
  unfold html_ok, html_node. destruct (n_t d); intros H Hp Ha; try (eexists; reflexivity).
  - unfold h_list. destruct (n_list_data d); [eexists; reflexivity|congruence].
  - unfold h_paragraph. destruct anc as [|pa gp]; [destruct Hp; reflexivity|].
    destruct gp as [|g gp]; [eexists; reflexivity|].
    inversion Ha as [|? ? _ Ha2]; subst. inversion Ha2 as [|? ? Hg _]; subst.
    destruct (ntype_eqb (n_t g) list_) eqn:E; [|eexists; reflexivity].
    assert (n_t g = list_) as Eg by (destruct (n_t g); discriminate || reflexivity).
    destruct (n_list_data g); [eexists; reflexivity|destruct (Hg Eg); reflexivity].
  - unfold h_html_block, h_html_inline. destruct (ho_safe o); [eexists; reflexivity|].
    destruct (n_literal d); [eexists; reflexivity|destruct H; reflexivity].
  - unfold h_html_inline. destruct (ho_safe o); [eexists; reflexivity|].
    destruct (n_literal d); [eexists; reflexivity|destruct H; reflexivity].
  - unfold h_link, unsafe_dest. destruct e; [|eexists; reflexivity]. destruct (ho_safe o); [|eexists; reflexivity].
    destruct (n_destination d); [eexists; reflexivity|destruct H; reflexivity].
  - unfold h_image, unsafe_dest. destruct e; [|eexists; reflexivity]. destruct (Z.eqb _ _); [|eexists; reflexivity].
    destruct (ho_safe o); [|eexists; reflexivity].
    destruct (n_destination d); [eexists; reflexivity|destruct H; reflexivity].
Qed.
Lemma html_tree_total o : forall t, tree_every (html_ok o) t -> forall anc st,
  (t_type t = paragraph -> anc <> []) ->
  Forall (fun a => n_t a = list_ -> n_list_data a <> None) anc ->
  exists st', html_events o (events anc t) st = Ok st'.
Proof.
  induction t as [d kids IH] using tree_ind'. rewrite tree_every_unfold. intros [Hd Hk] anc st Hp Ha.
  cbn [events]. destruct (is_container (n_t d)) eqn:Hc; cbn [html_events].
  - destruct (html_node_total o d kids anc true st Hd Hp Ha) as [s1 ->]. cbn [bind]. rewrite html_events_app.
    assert (G : exists s2, html_events o (flat_map (events (d :: anc)) kids) s1 = Ok s2).
    { assert (Hne : d :: anc <> []) by discriminate.
      assert (Ha' : Forall (fun a => n_t a = list_ -> n_list_data a <> None) (d :: anc)).
      { constructor; [|exact Ha]. intros E. unfold html_ok in Hd. rewrite E in Hd. exact Hd. }
      revert Hne Ha' s1 IH Hk. generalize (d :: anc). clear.
      induction kids as [|x kids IHk]; intros l Hne Ha s1 IH Hk; [eexists; reflexivity|].
      inversion IH; subst. inversion Hk; subst. cbn [flat_map]. rewrite html_events_app.
      destruct (H1 H3 l s1 (fun _ => Hne) Ha) as [s2 ->]. cbn [bind]. apply IHk; auto. }
    destruct G as [s2 ->]. cbn [bind html_events].
    destruct (html_node_total o d kids anc false s2 Hd Hp Ha) as [s3 ->]. eexists. reflexivity.
  - destruct (html_node_total o d kids anc true st Hd Hp Ha) as [s1 ->]. eexists. reflexivity.
Qed.
Lemma html_render_total o r t : tree_every (html_ok o) t -> t_type t <> paragraph -> exists x, html_render o r t = Ok x.
Proof.
  intros H Hp. unfold html_render. destruct (html_tree_total o t H [] (HS [] [LF] (h_dis r))) as [s E]; [tauto|constructor|].
  unfold walker. rewrite E. eexists. reflexivity.
Qed.

(** ** The statements about whole renders *)
Lemma safe_render_balanced o r t s r' :
  ho_safe o = true -> escaped (ho_softbreak o) -> h_dis r = 0%Z ->
  (forall d, In d (nodes t) -> standard_node d) ->
  html_render o r t = Ok (s, r') ->
  balanced (fun x => x = omitted_comment)
           (fun v => v = [] \/ exists d, v = escape_xml d /\ safe_url d) s.
Proof.
  intros Hs Hsb Hz Hn H.
  refine (proj1 (render_balanced o (fun x => x = omitted_comment)
           (fun v => v = [] \/ exists d, v = escape_xml d /\ safe_url d) _ _ _ _ r t s r' _ H Hz)).
  - right. exact Hsb.
  - intros dest Hd. unfold unsafe_dest in Hd. rewrite Hs in Hd. destruct dest as [d|]; [|discriminate Hd].
    cbn in Hd. right. exists d. split; [reflexivity|]. apply potentially_unsafe_safe. injection Hd as Hd. exact Hd.
  - left. reflexivity.
  - intros _. reflexivity.
  - apply tree_all_nodes. intros d Hd. destruct (Hn d Hd) as (A & B & C). repeat split; auto. congruence.
Qed.

Lemma render_balanced_raw o r t s r' :
  h_dis r = 0%Z ->
  (forall d, In d (nodes t) -> standard_node d) ->
  html_render o r t = Ok (s, r') ->
  balanced (fun x => x = ho_softbreak o \/ raw_literal t x \/ (ho_safe o = true /\ x = omitted_comment))
           (fun _ => True) s.
Proof.
  intros Hz Hn H.
  refine (proj1 (render_balanced o (fun x => x = ho_softbreak o \/ raw_literal t x \/ (ho_safe o = true /\ x = omitted_comment))
           (fun _ => True) _ _ _ _ r t s r' _ H Hz)).
  - left. left. reflexivity.
  - auto.
  - exact I.
  - intros Hs. right. right. auto.
  - apply tree_all_nodes. intros d Hd. destruct (Hn d Hd) as (A & B & C). repeat split; auto.
    intros Hs Ht l Hl. right. left. exists d. auto.
Qed.

(** The attribute list of a link's start tag in safe mode *)
Lemma unsafe_link_dropped o d st st' dest :
  ho_safe o = true -> n_t d = link -> n_destination d = Some dest -> potentially_unsafe dest = true ->
  html_node o d [] true st = Ok st' ->
  h_dis st = 0%Z ->
  h_buf st' = h_buf st ++ u "<a" ++ attrs_str (attrs_of o d) ++
              (if truthy (n_title d) then u " title=""" ++ escape_xml_opt (n_title d) ++ u """" else []) ++ u ">".
Proof.
  intros Hs Ht Hd Hu H Hz. unfold html_node in H. rewrite Ht in H. unfold h_link, unsafe_dest in H.
  rewrite Hs, Hd in H. cbn [of_option bind] in H. rewrite Hu in H. apply Ok_inj in H as <-.
  destruct (emits_tag (u "a") (attrs_of o d ++ [] ++ (if truthy (n_title d) then [(u "title", escape_xml_opt (n_title d))] else [])) false st) as [-> _].
  unfold tag_str. rewrite Hz. cbn [Z.ltb Z.compare]. unfold attrs_str. rewrite !flat_map_app. cbn [flat_map app].
  destruct (truthy (n_title d)); cbn [flat_map]; unfold attr_str; cbn [fst snd]; rewrite ?app_nil_r, <- ?app_assoc; reflexivity.
Qed.

Lemma escape_xml_none_plain :
  escape_xml_opt None = [] /\
  forall s, (forall c, In c s -> c <> 38 /\ c <> 60 /\ c <> 62 /\ c <> 34)%N -> escape_xml s = s.
Proof.
  split; [reflexivity|]. intros s H. apply escape_xml_plain. apply forallb_forall. intros c Hc.
  apply H in Hc. unfold plain. lia.
Qed.

Lemma balanced_mono raw (U V : str -> Prop) : (forall x, U x -> V x) -> forall s, balanced raw U s -> balanced raw V s.
Proof.
  intros HUV.
  assert (G : forall l, good_attrs U l -> good_attrs V l).
  { intros l. apply Forall_impl. intros a (A & B & C). split; [exact A|]. split; [exact B|]. auto. }
  intros s H. induction H.
  - constructor.
  - apply bal_text; auto.
  - apply bal_raw; auto.
  - apply bal_void; auto.
  - apply bal_img; auto.
  - apply bal_img_no_title; auto.
  - apply bal_elem; auto.
Qed.
Lemma safe_render_own_markup o r t s r' :
  ho_safe o = true -> escaped (ho_softbreak o) -> h_dis r = 0%Z ->
  (forall d, In d (nodes t) -> standard_node d) ->
  html_render o r t = Ok (s, r') ->
  balanced (fun x => x = omitted_comment) (fun _ => True) s.
Proof.
  intros H1 H2 H3 H4 H5. eapply balanced_mono; [|eapply safe_render_balanced; eassumption]. auto.
Qed.

Lemma destination_tests d :
  (potentially_unsafe d = false -> safe_url d) /\
  (ci_prefix (u "javascript:") d -> potentially_unsafe d = true) /\
  (forall w, In w [u "vbscript:"; u "file:"; u "data:"] -> ci_infix w d -> ~ safe_data_url d ->
             potentially_unsafe d = true).
Proof.
  pose proof (potentially_unsafe_safe d) as H.
  destruct (potentially_unsafe d); [repeat split; auto; discriminate|].
  split; [exact H|]. destruct (H eq_refl) as [A B]. split; [tauto|].
  intros w Hw Hi Hs. destruct (B Hs) as (B1 & B2 & B3). cbn in Hw. intuition (subst; tauto).
Qed.

Lemma commonmark_dispatch s :
  commonmark s (u "html") = (let* ast := parse_doc false s in
                             let* h := render_html default_opts ast in Ok (Out (Some h) [])) /\
  commonmark s (u "rst") = (let* ast := parse_doc false s in
                            let* h := render_rst ast in Ok (Out (Some h) [])) /\
  commonmark s (u "json") = (let* ast := parse_doc false s in
                             let* h := dumpJSON ast in Ok (Out (Some h) [])) /\
  commonmark s (u "ast") = (let* ast := parse_doc false s in Ok (Out None (dumpAST ast))) /\
  (forall fmt, fmt <> u "html" -> fmt <> u "rst" -> fmt <> u "json" -> fmt <> u "ast" ->
     forall ast, parse_doc false s = Ok ast -> commonmark s fmt = Err ValueError).
Proof.
  unfold commonmark. destruct (parse_doc false s) as [ast|e]; cbn [bind].
  - repeat (split; [reflexivity|]). intros fmt H1 H2 H3 H4 ast' _.
    assert (E : existsb (str_eqb fmt) [u "html"; u "json"; u "ast"; u "rst"] = false).
    { cbn [existsb]. apply str_eqb_neq in H1, H2, H3, H4. rewrite H1, H2, H3, H4. reflexivity. }
    rewrite E. reflexivity.
  - repeat (split; [reflexivity|]). discriminate.
Qed.

Lemma json_children_wrong :
  exists s t r0 l, parse_doc false s = Ok t /\ prepare t = Ok (r0 :: l) /\
    map rep_data (rep_children r0) <> map t_data (t_kids t).
Proof.
  exists (u "a"). eexists. eexists. eexists. split; [vm_compute; reflexivity|].
  split; [vm_compute; reflexivity|]. vm_compute. discriminate.
Qed.
