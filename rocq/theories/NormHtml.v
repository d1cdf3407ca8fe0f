(** * Rendering after merging texts: C11 *)
From Verif Require Import Base Regex Common Node Html Main RegexFacts StrFacts HtmlFacts NodeHeap SpecHeap HeapFacts HeapWalk NormFacts.
From Coq Require Import ZifyBool ZifyNat.

(** Two renderers that go on alike *)
Definition alike (a b : hst) : Prop := h_buf a = h_buf b /\ h_dis a = h_dis b /\ str_eqb (h_last a) [LF] = str_eqb (h_last b) [LF].
Definition alike_res (a b : res hst) : Prop := match a, b with Ok x, Ok y => alike x y | Err x, Err y => x = y | _, _ => False end.
Lemma alike_refl a : alike a a.
Proof. repeat split. Qed.
Lemma alike_trans a b c : alike a b -> alike b c -> alike a c.
Proof. intros (A1 & A2 & A3) (B1 & B2 & B3). repeat split; congruence. Qed.
Lemma alike_sym a b : alike a b -> alike b a.
Proof. intros (A1 & A2 & A3). repeat split; congruence. Qed.
Lemma alike_res_trans a b c : alike_res a b -> alike_res b c -> alike_res a c.
Proof. destruct a, b, c; cbn; try tauto; try congruence. apply alike_trans. Qed.
Lemma alike_lit s a b : alike a b -> alike (h_lit s a) (h_lit s b).
Proof. intros (A1 & A2 & A3). unfold h_lit. repeat split; cbn; congruence. Qed.
Lemma alike_cr a b : alike a b -> alike (h_cr a) (h_cr b).
Proof. intros H. pose proof H as (A1 & A2 & A3). unfold h_cr. rewrite A3. destruct (str_eqb (h_last b) [LF]); [exact H|apply alike_lit, H]. Qed.
Lemma alike_tag n l sc a b : alike a b -> alike (h_tag n l sc a) (h_tag n l sc b).
Proof. intros H. pose proof H as (A1 & A2 & A3). unfold h_tag. rewrite A1, A2. destruct (Z.ltb 0 (h_dis b)); [exact H|repeat split]. Qed.
Lemma alike_tag0 n a b : alike a b -> alike (h_tag0 n a) (h_tag0 n b).
Proof. apply alike_tag. Qed.
Lemma alike_out s a b : alike a b -> alike (h_out s a) (h_out s b).
Proof. apply alike_lit. Qed.
Lemma alike_set z a b : alike a b -> alike (set_h_dis z a) (set_h_dis z b).
Proof. intros (A1 & A2 & A3). repeat split; assumption. Qed.
Lemma alike_node o d anc e a b : alike a b -> alike_res (html_node o d anc e a) (html_node o d anc e b).
Proof.
  intros H. pose proof H as (A1 & A2 & A3). unfold html_node. destruct (n_t d).
  all: try exact H.
  all: try (cbn [alike_res]; repeat first [apply alike_cr|apply alike_out|apply alike_lit|apply alike_tag0|apply alike_tag]; exact H).
  - unfold h_block_quote. destruct e; cbn [alike_res]; repeat first [apply alike_cr|apply alike_tag0|apply alike_tag]; exact H.
  - unfold h_list. destruct (n_list_data d); cbn [of_option bind]; [|reflexivity]. destruct e; cbn [alike_res]; repeat first [apply alike_cr|apply alike_tag0|apply alike_tag]; exact H.
  - unfold h_item. destruct e; cbn [alike_res]; repeat first [apply alike_cr|apply alike_tag0|apply alike_tag]; exact H.
  - unfold h_paragraph. destruct anc as [|x gp]; [reflexivity|]. match goal with |- alike_res (bind ?x _) _ => destruct x as [[]|] end; cbn [bind alike_res]; try exact H; try reflexivity.
    destruct e; repeat first [apply alike_cr|apply alike_tag0|apply alike_tag]; exact H.
  - unfold h_heading. destruct e; cbn [alike_res]; repeat first [apply alike_cr|apply alike_tag0|apply alike_tag]; exact H.
  - unfold h_html_block, h_html_inline. destruct (ho_safe o); [|destruct (n_literal d)]; cbn [of_option bind alike_res]; try reflexivity; repeat first [apply alike_cr|apply alike_lit]; exact H.
  - unfold h_html_inline. destruct (ho_safe o); [|destruct (n_literal d)]; cbn [of_option bind alike_res]; try reflexivity; repeat first [apply alike_cr|apply alike_lit]; exact H.
  - unfold h_link. destruct e; [destruct (unsafe_dest o (n_destination d)); cbn [bind alike_res]; [|reflexivity]|cbn [alike_res]]; repeat first [apply alike_cr|apply alike_tag0|apply alike_tag]; exact H.
  - unfold h_image. destruct e.
    + rewrite A2. destruct (Z.eqb (h_dis b) 0); cbn [bind].
      * destruct (unsafe_dest o (n_destination d)) as [[]|]; cbn [bind alike_res]; [| |reflexivity]; cbn [h_lit h_dis]; rewrite A2; apply alike_set, alike_lit, H.
      * cbn [alike_res]. rewrite A2. apply alike_set, H.
    + cbn zeta. cbn [h_dis set_h_dis]. rewrite A2. destruct (Z.eqb (h_dis b - 1) 0); cbn [alike_res]; [|apply alike_set, H]. apply alike_lit. destruct (truthy (n_title d)); [apply alike_lit|]; apply alike_set, H.
  - unfold h_custom_inline. destruct (truthy _); cbn [alike_res]; [apply alike_lit, H|exact H].
  - unfold h_custom_block, h_custom_inline. destruct (truthy _); cbn [alike_res]; [apply alike_cr, alike_lit, alike_cr, H|apply alike_cr, alike_cr, H].
Qed.
Lemma alike_events o : forall evs a b, alike a b -> alike_res (html_events o evs a) (html_events o evs b).
Proof.
  induction evs as [|[[d k] e anc] evs IH]; intros a b H; cbn [html_events]; [exact H|]. pose proof (alike_node o d anc e a b H) as Hn. destruct (html_node o d anc e a), (html_node o d anc e b); try contradiction; cbn [bind]; [apply IH, Hn|exact Hn].
Qed.

(** ** Texts in pieces *)
Definition not_lf (t : tree) : Prop := t_type t = text -> n_literal (t_data t) <> Some [LF].
Lemma escape_lf s : s <> [LF] -> str_eqb (escape_xml s) [LF] = false.
Proof.
  intros H. apply str_eqb_neq. intros E. apply H. rewrite <- (decode_escape_xml s), E. reflexivity.
Qed.
Lemma escape_opt d : escape_xml_opt (n_literal d) = escape_xml (lit_of d).
Proof. unfold lit_of. destruct (n_literal d); [reflexivity|]. rewrite escape_xml_flat_map. reflexivity. Qed.
Lemma lit_not_lf t : t_type t = text -> not_lf t -> lit_of (t_data t) <> [LF].
Proof. intros Ht H. specialize (H Ht). unfold lit_of. destruct (n_literal (t_data t)); [congruence|discriminate]. Qed.
Lemma app_not_lf (a b : str) : a <> [LF] -> b <> [LF] -> a ++ b <> [LF].
Proof. intros Ha Hb E. destruct a as [|x a]; [contradiction|]. cbn [app] in E. injection E as -> E. apply app_eq_nil in E as [-> ->]. contradiction. Qed.
Lemma events_text anc t : t_type t = text -> events anc t = [EV t true anc].
Proof. destruct t as [d k]. unfold t_type. cbn [t_data]. intros E. cbn [events]. rewrite E, text_leaf. reflexivity. Qed.
Lemma alike_join o anc x y st : t_type x = text -> t_type y = text -> not_lf x -> not_lf y ->
  alike_res (html_events o (events anc (join x y)) st) (html_events o (events anc x ++ events anc y) st).
Proof.
  intros Ex Ey Nx Ny. rewrite !events_text by (exact Ex || exact Ey). pose proof (lit_not_lf x Ex Nx) as Lx. pose proof (lit_not_lf y Ey Ny) as Ly. destruct x as [dx kx], y as [dy ky]. unfold t_type in Ex, Ey. cbn [t_data] in *. unfold join. cbn [t_data t_kids app html_events]. unfold html_node. cbn [n_t set_n_literal]. rewrite Ex, Ey. cbn [bind alike_res n_literal set_n_literal escape_xml_opt].
  unfold h_out, h_lit. rewrite !escape_opt. change (escape_xml_opt (Some (lit_of dx ++ lit_of dy))) with (escape_xml (lit_of dx ++ lit_of dy)). repeat split; cbn [h_buf h_dis h_last].
  - rewrite <- app_assoc. f_equal. rewrite !escape_xml_flat_map. apply flat_map_app.
  - rewrite !escape_lf; [reflexivity|exact Ly|apply app_not_lf; assumption].
Qed.
Lemma alike_app o e1 e1' e2 st : alike_res (html_events o e1 st) (html_events o e1' st) -> alike_res (html_events o (e1 ++ e2) st) (html_events o (e1' ++ e2) st).
Proof.
  intros H. rewrite !html_events_app. destruct (html_events o e1 st), (html_events o e1' st); try contradiction; cbn [bind]; [apply alike_events, H|exact H].
Qed.
Lemma alike_kids o (evs evs' : list event) e st : (forall st, alike_res (html_events o evs st) (html_events o evs' st)) -> alike_res (html_events o (e ++ evs) st) (html_events o (e ++ evs') st).
Proof. intros H. rewrite !html_events_app. destruct (html_events o e st); cbn [bind]; [apply H|reflexivity]. Qed.
Lemma join_not_lf x y : not_lf x -> not_lf y -> is_text x = true -> is_text y = true -> not_lf (join x y).
Proof.
  intros Hx Hy Ex Ey _. apply is_text_eq in Ex. apply is_text_eq in Ey. pose proof (lit_not_lf x Ex Hx) as Lx. pose proof (lit_not_lf y Ey Hy) as Ly. unfold join. cbn [t_data n_literal set_n_literal]. intros E. injection E as E. apply (app_not_lf _ _ Lx Ly E).
Qed.
Lemma merge_not_lf ts : Forall not_lf ts -> Forall not_lf (merge ts).
Proof.
  induction 1 as [|x r Hx Hr IH]; [constructor|]. cbn [merge]. destruct (merge r) as [|y m]; [constructor; auto|]. inversion IH; subst. destruct (is_text x && is_text y) eqn:E; constructor; auto. apply andb_true_iff in E as [E1 E2]. apply join_not_lf; assumption.
Qed.
Lemma alike_merge o anc : forall ts st, Forall not_lf ts -> alike_res (html_events o (flat_map (events anc) (merge ts)) st) (html_events o (flat_map (events anc) ts) st).
Proof.
  induction ts as [|x r IH]; intros st H; [apply alike_refl|]. inversion H as [|? ? Hx Hr]; subst. cbn [flat_map].
  apply alike_res_trans with (html_events o (events anc x ++ flat_map (events anc) (merge r)) st); [|apply alike_kids; intros st'; apply IH, Hr].
  pose proof (merge_not_lf r Hr) as Hm. cbn [merge]. assert (R : forall evs, alike_res (html_events o evs st) (html_events o evs st)) by (intros evs; apply alike_events, alike_refl).
  destruct (merge r) as [|y m]; [apply R|]. destruct (is_text x && is_text y) eqn:E; [|apply R]. apply andb_true_iff in E as [E1 E2]. inversion Hm; subst. cbn [flat_map]. rewrite app_assoc. apply alike_app. apply alike_join; try assumption; apply is_text_eq; assumption.
Qed.
Lemma norm_data t : t_data (norm t) = t_data t.
Proof. destruct t as [d ts]. cbn [norm]. destruct (is_container (n_t d)); reflexivity. Qed.
Lemma norm_events o : forall t anc st, no_lf t -> alike_res (html_events o (events anc (norm t)) st) (html_events o (events anc t) st).
Proof.
  induction t as [d ts IH] using tree_rect'. intros anc st H. inversion H as [? ? H1 H2]; subst. cbn [norm]. destruct (is_container (n_t d)) eqn:Ec; [|apply alike_events, alike_refl].
  cbn [events]. rewrite Ec. cbn [html_events]. destruct (html_node o d anc true st) as [s1|]; cbn [bind]; [|reflexivity].
  assert (E : forall st, alike_res (html_events o (flat_map (events (d :: anc)) (merge (map norm ts))) st) (html_events o (flat_map (events (d :: anc)) ts) st)).
  { intros s. apply alike_res_trans with (html_events o (flat_map (events (d :: anc)) (map norm ts)) s).
    - apply alike_merge. clear - H2. induction H2 as [|x l Hx _ IHl]; constructor; [|exact IHl]. unfold not_lf. rewrite norm_type, norm_data. inversion Hx; subst. assumption.
    - clear - IH H2. revert s. induction IH as [|x l Hx _ IHl]; intros s; [apply alike_refl|]. inversion H2; subst. cbn [map flat_map]. apply alike_res_trans with (html_events o (events (d :: anc) x ++ flat_map (events (d :: anc)) (map norm l)) s); [apply alike_app, Hx; assumption|apply alike_kids; intros s'; apply IHl; assumption]. }
  specialize (E s1). rewrite !html_events_app. destruct (html_events o (flat_map (events (d :: anc)) (merge (map norm ts))) s1) as [a|], (html_events o (flat_map (events (d :: anc)) ts) s1) as [b|]; try contradiction; cbn [bind]; [|exact E].
  cbn [html_events]. pose proof (alike_node o d anc false a b E) as Hn. destruct (html_node o d anc false a), (html_node o d anc false b); try contradiction; exact Hn.
Qed.
Theorem norm_html o t : no_lf t -> render_html o (norm t) = render_html o t.
Proof.
  intros H. unfold render_html, html_render, walker. pose proof (norm_events o t [] (HS [] [LF] (h_dis new_html)) H) as E.
  destruct (html_events o (events [] (norm t)) _) as [a|], (html_events o (events [] t) _) as [b|]; try contradiction; cbn [bind]; [|rewrite E; reflexivity]. destruct E as (E & _). rewrite E. reflexivity.
Qed.

(** ** On linked nodes, and for parsed documents *)
From Verif Require Import TreeFacts ParseFacts HeapBuild Spec SpecTree.
Theorem normalize_html o h k root t : forest h k -> stands h k root t -> texts_filled t -> no_lf t -> exists h' k' t' n,
  (forall fuel, n <= fuel -> normalize fuel root h = Ok h') /\ forest h' k' /\ stands h' k' root t' /\ render_html o t' = render_html o t.
Proof.
  intros Hf Hs Hl Hn. destruct (normalize_norm h k root t Hf Hs Hl) as (n & h' & k' & E & H1 & H2 & _). exists h', k', (norm t), n. split; [exact E|]. split; [exact H1|]. split; [exact H2|apply norm_html, Hn].
Qed.
Lemma parsed_filled smart s t : Forall code_point s -> parse_doc smart s = Ok t -> texts_filled t.
Proof.
  intros Hs E. apply (parse_doc_facts smart s t Hs) in E as (H & _). apply (tree_every_subtrees (node_of s)) in H. revert H. induction t as [d ts IH] using tree_rect'. intros H. apply tree_every_unfold in H as [H1 H2]. constructor.
  - intros Et. destruct H1 as (_ & _ & _ & H1). rewrite Et in H1. destruct H1 as (_ & l & ->). discriminate.
  - clear H1. induction IH as [|x l Hx _ IHl]; [constructor|]. inversion H2; subst. constructor; auto.
Qed.
Definition lf_text : str := (u "- a&#10;" ++ [10] ++ u "  - b")%N.
Lemma normalize_lf : exists s t h k root h' k' t', parse_doc false s = Ok t /\ forest h k /\ stands h k root t /\
  (exists n, forall fuel, n <= fuel -> normalize fuel root h = Ok h') /\ forest h' k' /\ stands h' k' root t' /\ render_html default_opts t' <> render_html default_opts t.
Proof.
  destruct (parse_doc false lf_text) as [t|] eqn:E; [|vm_compute in E; discriminate]. exists lf_text, t. destruct (tree_built t) as (h & k & root & Hf & Hs).
  assert (Hc : Forall code_point lf_text) by (apply Forall_forall; intros c X; unfold code_point; vm_compute in X; repeat (destruct X as [X|X]; [subst c; lia|]); destruct X).
  destruct (normalize_norm h k root t Hf Hs (parsed_filled false lf_text t Hc E)) as (n & h' & k' & En & H1 & H2 & _).
  exists h, k, root, h', k', (norm t). split; [exact E|]. split; [exact Hf|]. split; [exact Hs|]. split; [exists n; exact En|]. split; [exact H1|]. split; [exact H2|].
  assert (Et : Ok t = parse_doc false lf_text) by (symmetry; exact E). intros X.
  assert (Y : (let* t := parse_doc false lf_text in render_html default_opts (norm t)) = (let* t := parse_doc false lf_text in render_html default_opts t)) by (rewrite <- Et; exact X).
  vm_compute in Y. discriminate.
Qed.
