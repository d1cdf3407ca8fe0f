(** * C52: from the lists to the HTML *)
From Verif Require Import Base Regex Common NormRef Node Inlines Blocks Html Main RegexFacts StrFacts Spec SpecTree SpecSame SpecLines SpecParas SpecLists
  TreeFacts CommonFacts StrProp HtmlFacts RenderFacts BlockFacts BlockRun LineFacts ParseFacts Sim SimFacts SameHtml DocFacts TextFacts RuleFacts WordFacts BlankFacts AfterFacts ParaFacts ParaInline ParaDoc ListLine ListDoc.
From Coq Require Import ZifyBool ZifyNat ZifyN.

(** ** The runs *)
Fixpoint chain (l : list li) : Prop :=
  match l with
  | a :: l' => match l' with [] => True | b :: _ => same_kind (li_mark a) (li_mark b) = true /\ chain l' end
  | [] => True
  end.
Lemma runs_head j l : exists r rs, runs (j :: l) = (j :: r) :: rs.
Proof. cbn [runs]. destruct (runs l) as [|[|k r] rs]; [eauto|eauto|]. destruct (same_kind _ _); eauto. Qed.
Lemma runs_one : forall prev i, chain (prev ++ [i]) -> runs (prev ++ [i]) = [prev ++ [i]].
Proof.
  induction prev as [|a prev IH]; intros i H; [reflexivity|]. cbn [app] in *. cbn [runs]. destruct (prev ++ [i]) as [|b l] eqn:E; [destruct prev; discriminate|]. rewrite <- E in *.
  rewrite IH; [|rewrite E in H |- *; apply H]. rewrite E in *. destruct H as [-> _]. reflexivity.
Qed.
Lemma runs_cut : forall prev i j l, chain (prev ++ [i]) -> same_kind (li_mark i) (li_mark j) = false -> runs (prev ++ i :: j :: l) = (prev ++ [i]) :: runs (j :: l).
Proof.
  induction prev as [|a prev IH]; intros i j l H Hk.
  - cbn [app]. destruct (runs_head j l) as (r & rs & E). change (runs (i :: j :: l)) with (match runs (j :: l) with (j :: r) :: rs => if same_kind (li_mark i) (li_mark j) then (i :: j :: r) :: rs else [i] :: (j :: r) :: rs | rs => [i] :: rs end). rewrite E, Hk. reflexivity.
  - cbn [app] in *. cbn [runs]. rewrite IH; [|destruct (prev ++ [i]); [exact I|apply H]|exact Hk]. destruct (prev ++ [i]) as [|b q] eqn:E; [destruct prev; discriminate|]. destruct H as [-> _]. reflexivity.
Qed.
Lemma chain_snoc : forall prev i j, chain (prev ++ [i]) -> same_kind (li_mark i) (li_mark j) = true -> chain ((prev ++ [i]) ++ [j]).
Proof.
  induction prev as [|a prev IH]; intros i j H Hk; [cbn; auto|]. cbn [app] in *. pose proof (IH i j) as G. destruct (prev ++ [i]) as [|b q] eqn:E; [destruct prev; discriminate|]. cbn [app] in *. destruct H as [H1 H2]. split; [exact H1|apply G; assumption].
Qed.

(** ** All lines *)
Definition li_lines (i : li) : list str := li_line i :: li_blanks i.
Lemma blank_items done prev i : li_ok i -> forall bs b p, Forall blanks bs -> open_state done prev i b p ->
  exists p', incorporate_lines bs p = Ok p' /\ open_state done prev i (b || negb (is_nil bs)) p' /\ p_line_number p' = p_line_number p + length bs.
Proof.
  intros Hi. induction bs as [|l bs IH]; intros b p Hb Hp.
  - exists p. split; [reflexivity|]. rewrite orb_false_r. split; [exact Hp|cbn; lia].
  - inversion Hb as [|x y B1 B2]; subst. destruct (blank_item done prev i b l p Hi (blanks_line l B1) Hp) as (p1 & E1 & H1 & L1). destruct (IH true p1 B2 H1) as (p2 & E2 & H2 & L2).
    exists p2. cbn [incorporate_lines]. rewrite E1. split; [exact E2|]. cbn [is_nil negb orb] in *. rewrite orb_true_r. split; [exact H2|cbn [length]; lia].
Qed.
Lemma all_items : forall l done prev i p, Forall li_ok l -> li_ok i -> chain (prev ++ [i]) -> open_state done prev i (followed i) p ->
  exists p' done' prev' i', incorporate_lines (flat_map li_lines l) p = Ok p' /\ open_state done' prev' i' (followed i') p' /\ li_ok i' /\ done' ++ [prev' ++ [i']] = done ++ runs (prev ++ i :: l).
Proof.
  induction l as [|j l IH]; intros done prev i p Hl Hi Hc Hp.
  - exists p, done, prev, i. split; [reflexivity|]. split; [exact Hp|]. split; [exact Hi|]. rewrite runs_one by exact Hc. reflexivity.
  - inversion Hl as [|x y L1 L2]; subst. cbn [flat_map li_lines app]. cbn [incorporate_lines]. destruct (next_item done prev i (followed i) j p Hi L1 eq_refl Hp) as (p1 & E1 & H1 & _). rewrite E1. cbn [bind]. rewrite incorporate_app.
    assert (Hbl : Forall blanks (li_blanks j)) by apply L1.
    destruct (same_kind (li_mark i) (li_mark j)) eqn:Ek.
    + destruct (blank_items done (prev ++ [i]) j L1 (li_blanks j) false p1 Hbl H1) as (p2 & -> & H2 & _). cbn [bind].
      destruct (IH done (prev ++ [i]) j p2 L2 L1 (chain_snoc _ _ _ Hc Ek) H2) as (p3 & done' & prev' & i' & E3 & H3 & Hi' & R). exists p3, done', prev', i'. split; [exact E3|]. split; [exact H3|]. split; [exact Hi'|]. rewrite R, <- app_assoc. reflexivity.
    + destruct (blank_items (done ++ [prev ++ [i]]) [] j L1 (li_blanks j) false p1 Hbl H1) as (p2 & -> & H2 & _). cbn [bind].
      destruct (IH (done ++ [prev ++ [i]]) [] j p2 L2 L1 I H2) as (p3 & done' & prev' & i' & E3 & H3 & Hi' & R). exists p3, done', prev', i'. split; [exact E3|]. split; [exact H3|]. split; [exact Hi'|]. rewrite R, runs_cut by assumption. rewrite <- app_assoc. reflexivity.
Qed.

(** ** The end *)
Lemma finalize_step f ln p p1 : p_stack p <> [] -> finalize_tip ln p = Ok p1 -> finalize_all (S f) ln p = finalize_all f ln p1.
Proof. intros Hp E. cbn [finalize_all]. destruct (p_stack p); [congruence|]. rewrite E. reflexivity. Qed.
Lemma finish_lists ln done prev i p : li_ok i -> open_state done prev i (followed i) p ->
  exists d k s, finish ln p = (let* (k', _) := process_all k s in Ok (T d k')) /\ n_t d = document /\ Forall2 closed_run (done ++ [prev ++ [i]]) k /\ ip_smart s = false.
Proof.
  intros Hi (top & ld & kl & dd & kd & i0 & l0 & off & pad & id & w & S1 & S2 & S3 & S4 & S5 & S6 & S7 & S8 & S9 & S10 & S11 & S12 & S13 & S14 & S15 & S16 & S17).
  assert (Hwi : words_ok (li_words i)) by apply Hi.
  assert (Hend : forall t p1, closed_item i t -> p_stack p1 = [F ld (kl ++ [t]); F dd kd] -> p_smart p1 = false ->
    exists d k s p2, finalize_all 2 ln p1 = Ok p2 /\ p_doc p2 = Some (T d k) /\ s = IP (ip_subject (p_ip p2)) (ip_pos (p_ip p2)) (p_refmap p2) (p_smart p2) (ip_delims (p_ip p2)) (ip_brackets (p_ip p2)) (ip_kids (p_ip p2)) (ip_next (p_ip p2)) /\ n_t d = document /\ Forall2 closed_run (done ++ [prev ++ [i]]) k /\ ip_smart s = false).
  { intros t p1 Ht Ep Es. destruct (fin_list ln p1 ld (kl ++ [t]) [F dd kd] (prev ++ [i]) i0 l0 off pad Ep S5 S6 S8 S7) as (tt & E1 & Hrun). { apply Forall2_app; [exact S9|]. constructor; [exact Ht|constructor]. }
    rewrite (finalize_step 1 ln p1 _ ltac:(rewrite Ep; discriminate) E1). destruct (attach_line tt (F dd kd) [] p1) as (A1 & A2 & A3 & A4). set (y1 := attach _ _) in *. clearbody y1. cbn [f_data f_kids] in A2.
    destruct (finalize_bt ln y1 (F dd (kd ++ [tt])) [] A2 (or_introl S2) S3) as (sp0 & x & F1 & F2). rewrite (finalize_step 0 ln y1 _ ltac:(rewrite A2; discriminate) F2). unfold attach. cbn [p_stack set_p_stack f_kids f_data].
    cbn [finalize_all p_stack set_p_doc set_p_stack]. eexists. eexists. eexists. eexists. split; [reflexivity|]. split; [reflexivity|]. split; [reflexivity|]. split; [exact S2|]. split; [apply Forall2_app; [exact S4|]; constructor; [exact Hrun|constructor]|].
    destruct A1 as (_ & _ & _ & _ & _ & _ & _ & _ & _ & A1 & _). cbn [ip_smart p_smart set_p_doc set_p_stack]. congruence. }
  assert (Hfin : exists d k s p2, finalize_all (length (p_stack p)) ln p = Ok p2 /\ p_doc p2 = Some (T d k) /\ s = IP (ip_subject (p_ip p2)) (ip_pos (p_ip p2)) (p_refmap p2) (p_smart p2) (ip_delims (p_ip p2)) (ip_brackets (p_ip p2)) (ip_kids (p_ip p2)) (ip_next (p_ip p2)) /\ n_t d = document /\ Forall2 closed_run (done ++ [prev ++ [i]]) k /\ ip_smart s = false).
  { destruct (followed i) eqn:Ef.
    - destruct S15 as (pd & E & Hpd). rewrite E in S1. cbn [app] in S1. rewrite S1. cbn [length].
      destruct (fin_item ln p id [T pd []] [F ld kl; F dd kd] true S1 S11 S12) as (d' & E1 & Hd'). rewrite (finalize_step 2 ln p _ ltac:(rewrite S1; discriminate) E1).
      destruct (attach_line (T d' [T pd []]) (F ld kl) [F dd kd] p) as ((_ & _ & _ & _ & _ & _ & _ & _ & _ & A1 & _) & A2 & _). apply (Hend (T d' [T pd []])); [exists d', pd; rewrite Ef; auto|exact A2|congruence].
    - destruct S15 as (n & j & E). rewrite E in S1. cbn [app] in S1. rewrite S1. cbn [length]. destruct (words_head _ Hwi) as (c & r & Ew & _ & H91). rewrite Ew in S1. cbn [app] in S1.
      destruct (fin_para ln p n j c (r ++ [LF]) _ S1 H91) as (pd & E1 & P1 & P2 & P3 & P4). rewrite (finalize_step 3 ln p _ ltac:(rewrite S1; discriminate) E1).
      destruct (attach_line (T pd []) (F id []) [F ld kl; F dd kd] p) as ((_ & _ & _ & _ & _ & _ & _ & _ & _ & A1 & _) & A2 & _). set (y1 := attach _ _) in *. clearbody y1. cbn [f_data f_kids app] in A2.
      destruct (fin_item ln y1 id [T pd []] [F ld kl; F dd kd] false A2 S11 S12) as (d' & E2 & Hd'). rewrite (finalize_step 2 ln y1 _ ltac:(rewrite A2; discriminate) E2).
      destruct (attach_line (T d' [T pd []]) (F ld kl) [F dd kd] y1) as ((_ & _ & _ & _ & _ & _ & _ & _ & _ & B1 & _) & B2 & _). apply (Hend (T d' [T pd []])); [|exact B2|congruence]. exists d', pd. rewrite Ef. split; [reflexivity|]. split; [exact Hd'|]. split; [exact P1|]. rewrite P2, Ew. auto. }
  destruct Hfin as (d & k & s & p2 & E & Ed & Es & Hd & Hk & Hs). exists d, k, s. split; [|auto]. unfold finish. rewrite E. cbn [bind]. rewrite Ed. cbn [of_option bind]. rewrite <- Es, process_bt by (left; exact Hd). destruct (process_all k s) as [[k' s']|e]; reflexivity.
Qed.

(** ** Inlines and HTML *)
Definition final_item (soft : str) (i : li) (t : tree) : Prop :=
  exists id pd K, t = T id [T pd K] /\ n_t id = item /\ n_t pd = paragraph /\ shows soft K (html_text (li_words i)).
Definition final_run (soft : str) (run : list li) (t : tree) : Prop :=
  exists d items data i l, t = T d items /\ n_t d = list_ /\ n_list_data d = Some data /\ ld_tight data = negb (loose run) /\ run = i :: l /\ list_head (li_mark i) data /\ Forall2 (final_item soft) run items.
Lemma words_inlines soft w s : words_ok w -> ip_smart s = false -> exists K s', parseInlines (w ++ [LF]) s = Ok (K, s') /\ shows soft K (html_text w) /\ ip_smart s' = false.
Proof.
  intros Hw Hs. destruct (lines_inlines soft [PL 0 w (Spaces 0)] s ltac:(discriminate) ltac:(constructor; [exact Hw|constructor]) Hs) as (K & s' & E & Sh & Es).
  exists K, s'. unfold content_of in E. cbn [flat_map pl_words pl_ending ending_text repeat app] in E. rewrite app_nil_r in E. cbn [lines_html pl_words pl_ending] in Sh. rewrite app_nil_r in Sh. auto.
Qed.
Lemma process_item soft i t s : words_ok (li_words i) -> ip_smart s = false -> weak_item i t -> exists t' s', process_inlines t s = Ok (t', s') /\ final_item soft i t' /\ ip_smart s' = false.
Proof.
  intros Hw Hs (id & pd & -> & I1 & P1 & P2). rewrite process_inlines_eq, I1. change (is_container item) with true. cbv iota. cbn [ntype_eqb orb]. rewrite (process_para pd _ s (or_introl P1) P2).
  destruct (words_inlines soft _ s Hw Hs) as (K & s' & -> & Sh & Es). cbn [bind]. eexists. exists s'. split; [reflexivity|]. split; [|exact Es]. exists id, pd, K. auto.
Qed.
Lemma process_items soft run items : Forall2 weak_item run items -> Forall (fun i => words_ok (li_words i)) run -> forall s, ip_smart s = false ->
  exists items' s', process_all items s = Ok (items', s') /\ Forall2 (final_item soft) run items' /\ ip_smart s' = false.
Proof.
  intros H. induction H as [|i t run items Hi _ IH]; intros Hw s Hs; cbn [process_all]; [exists [], s; auto|]. inversion Hw as [|x y W1 W2]; subst.
  destruct (process_item soft i t s W1 Hs Hi) as (t' & s1 & -> & Ht & H1). cbn [bind]. destruct (IH W2 s1 H1) as (items' & s2 & -> & Hts & H2). cbn [bind]. eexists. exists s2. split; [reflexivity|]. auto.
Qed.
Lemma process_runs soft rs ts : Forall2 closed_run rs ts -> Forall (Forall (fun i => words_ok (li_words i))) rs -> forall s, ip_smart s = false ->
  exists ts' s', process_all ts s = Ok (ts', s') /\ Forall2 (final_run soft) rs ts' /\ ip_smart s' = false.
Proof.
  intros H. induction H as [|r t rs ts (d & items & data & i & l & -> & R1 & R2 & R3 & R4 & R5 & R6) _ IH]; intros Hw s Hs; cbn [process_all]; [exists [], s; auto|]. inversion Hw as [|x y W1 W2]; subst x y.
  rewrite process_inlines_eq, R1. change (is_container list_) with true. cbv iota. cbn [ntype_eqb orb]. destruct (process_items soft r items R6 W1 s Hs) as (items' & s1 & -> & Ht & H1). cbn [bind].
  destruct (IH W2 s1 H1) as (ts' & s2 & -> & Hts & H2). cbn [bind]. eexists. exists s2. split; [reflexivity|]. split; [|exact H2]. constructor; [|exact Hts]. exists d, items', data, i, l. auto 10.
Qed.

Lemma attrs_none o d : ho_sourcepos o = false -> attrs_of o d = [].
Proof. intros Ho. unfold attrs_of. rewrite Ho. reflexivity. Qed.
Lemma item_events o dd ld data i t b : ho_sourcepos o = false -> n_t ld = list_ -> n_list_data ld = Some data -> final_item (ho_softbreak o) i t ->
  html_events o (events [ld; dd] t) (HS b [LF] 0) = Ok (HS (b ++ li_html (negb (ld_tight data)) i) [LF] 0).
Proof.
  intros Ho Hl Hd (id & pd & K & -> & I1 & P1 & Sh). cbn [events]. rewrite I1. change (is_container item) with true. cbv iota. cbn [flat_map]. rewrite app_nil_r. cbn [events]. rewrite P1. change (is_container paragraph) with true. cbv iota.
  cbn [html_events app]. unfold html_node at 1. rewrite I1. unfold h_item. rewrite (attrs_none o id Ho). cbn [bind]. unfold h_tag at 1. cbn [h_dis]. change (Z.ltb 0 0) with false. cbv iota. cbn [h_buf flat_map app h_dis].
  unfold html_node at 1. rewrite P1. unfold h_paragraph. rewrite Hl. cbn [ntype_eqb]. rewrite Hd. cbn [of_option bind]. rewrite (attrs_none o pd Ho).
  rewrite !html_events_app.
  assert (Ep : forall st, html_node o pd [id; ld; dd] false st = Ok (if ld_tight data then st else h_cr (h_tag0 (u "/p") st))).
  { intros st. unfold html_node. rewrite P1. unfold h_paragraph. rewrite Hl. cbn [ntype_eqb]. rewrite Hd. cbn [of_option bind]. reflexivity. }
  assert (Ei : forall st, html_node o id [ld; dd] false st = Ok (h_cr (h_tag0 (u "/li") st))). { intros st. unfold html_node. rewrite I1. unfold h_item. reflexivity. }
  unfold li_html. destruct (ld_tight data); cbn [negb].
  - destruct (Sh o [pd; id; ld; dd] (HS (b ++ u "<li>") (u ">") 0) eq_refl eq_refl) as (l & E). cbn [h_buf] in E. change (u "<" ++ u "li" ++ u ">") with (u "<li>"). rewrite E. cbn [bind html_events]. rewrite Ep. cbn [bind html_events]. rewrite Ei. cbn [bind].
    unfold h_tag0, h_tag. cbn [h_dis]. change (Z.ltb 0 0) with false. cbv iota. unfold h_cr. cbn [h_last]. change (str_eqb (u ">") [LF]) with false. cbv iota. unfold h_lit. cbn [h_buf flat_map]. rewrite <- !app_assoc. reflexivity.
  - change (h_tag (u "p") [] false (h_cr (HS (b ++ u "<" ++ u "li" ++ u ">") (u ">") 0))) with (HS (((b ++ u "<li>") ++ [LF]) ++ u "<p>") (u ">") 0). 
    destruct (Sh o [pd; id; ld; dd] (HS (((b ++ u "<li>") ++ [LF]) ++ u "<p>") (u ">") 0) eq_refl eq_refl) as (l & E). cbn [h_buf] in E. rewrite E. cbn [bind html_events]. rewrite Ep. cbn [bind html_events]. rewrite Ei. cbn [bind].
    unfold h_tag0, h_tag. cbn [h_dis]. change (Z.ltb 0 0) with false. cbv iota. unfold h_cr. cbn [h_last]. change (str_eqb (u ">") [LF]) with false. cbv iota. unfold h_lit. cbn [h_buf flat_map h_last h_dis]. change (Z.ltb 0 0) with false. cbv iota. cbn [h_last h_buf h_dis]. change (str_eqb (u ">") [LF]) with false. cbv iota. cbn [h_last h_buf h_dis]. rewrite <- !app_assoc. reflexivity.
Qed.
Lemma items_events o dd ld data run items : ho_sourcepos o = false -> n_t ld = list_ -> n_list_data ld = Some data -> Forall2 (final_item (ho_softbreak o)) run items ->
  forall b, html_events o (flat_map (events [ld; dd]) items) (HS b [LF] 0) = Ok (HS (b ++ flat_map (li_html (negb (ld_tight data))) run) [LF] 0).
Proof.
  intros Ho Hl Hd H. induction H as [|i t run items Hi _ IH]; intros b; cbn [flat_map html_events]; [rewrite app_nil_r; reflexivity|].
  rewrite html_events_app, (item_events o dd ld data i t b Ho Hl Hd Hi). cbn [bind]. rewrite IH, <- app_assoc. reflexivity.
Qed.
Lemma run_events o dd run t b : ho_sourcepos o = false -> Forall (fun i => mark_ok (li_mark i)) run -> final_run (ho_softbreak o) run t ->
  html_events o (events [dd] t) (HS b [LF] 0) = Ok (HS (b ++ run_html run) [LF] 0).
Proof.
  intros Ho Hm (d & items & data & i & l & -> & R1 & R2 & R3 & R4 & R5 & R6). cbn [events]. rewrite R1. change (is_container list_) with true. cbv iota. cbn [html_events].
  assert (Eo : html_node o d [dd] true (HS b [LF] 0) = Ok (HS (b ++ open_tag (li_mark i) ++ [LF]) [LF] 0)).
  { unfold html_node. rewrite R1. unfold h_list. rewrite R2. cbn [of_option bind]. rewrite (attrs_none o d Ho). cbn [app]. change (h_cr (HS b [LF] 0)) with (HS b [LF] 0). subst run. apply Forall_inv in Hm.
    destruct (li_mark i) as [c|ds dl]; cbn [list_head mark_ok open_tag] in *; destruct R5 as [-> ->].
    - unfold h_tag, h_cr, h_lit. cbn [h_dis]. change (Z.ltb 0 0) with false. cbv iota. cbn [h_last h_buf h_dis flat_map app]. change (str_eqb (u ">") [LF]) with false. cbv iota. rewrite <- !app_assoc. reflexivity.
    - destruct Hm as (Hl & Hd & _). assert (Hne : ds <> []) by (destruct ds; [cbn in Hl; lia|discriminate]). rewrite (number_one ds Hd Hne), (number_str ds Hd Hne).
      unfold h_tag, h_cr, h_lit. cbn [h_dis]. change (Z.ltb 0 0) with false. cbv iota. cbn [h_last h_buf h_dis]. change (str_eqb (u ">") [LF]) with false. cbv iota. destruct (str_eqb (no_zeros ds) (u "1")); cbn [flat_map]; unfold attr_text; cbn [fst snd]; rewrite <- !app_assoc; cbn [app]; rewrite ?app_nil_r; reflexivity. }
  rewrite Eo. cbn [bind]. rewrite html_events_app, (items_events o dd d data run items Ho R1 R2 R6). cbn [bind html_events].
  unfold html_node. rewrite R1. unfold h_list. rewrite R2. cbn [of_option bind]. change (h_cr (HS ?x [LF] 0)) with (HS x [LF] 0). unfold h_tag0, h_tag, h_cr, h_lit. cbn [h_dis h_last]. change (str_eqb [LF] [LF]) with true. cbv iota. change (Z.ltb 0 0) with false. cbv iota. cbn [h_last h_buf h_dis flat_map app]. change (str_eqb (u ">") [LF]) with false. cbv iota.
  rewrite R3, negb_involutive. subst run. unfold run_html. rewrite <- !app_assoc. destruct (li_mark i) as [c|ds dl]; cbn [list_head close_tag] in *; destruct R5 as [-> _]; reflexivity.
Qed.
Lemma runs_events o dd rs ts : ho_sourcepos o = false -> Forall (Forall (fun i => mark_ok (li_mark i))) rs -> Forall2 (final_run (ho_softbreak o)) rs ts ->
  forall b, html_events o (flat_map (events [dd]) ts) (HS b [LF] 0) = Ok (HS (b ++ flat_map run_html rs) [LF] 0).
Proof.
  intros Ho Hm H. induction H as [|r t rs ts Hr _ IH]; intros b; cbn [flat_map html_events]; [rewrite app_nil_r; reflexivity|]. inversion Hm as [|x y M1 M2]; subst.
  rewrite html_events_app, (run_events o dd r t b Ho M1 Hr). cbn [bind]. rewrite (IH M2), <- app_assoc. reflexivity.
Qed.

(** ** C52 *)
Lemma runs_concat : forall l, concat (runs l) = l.
Proof.
  induction l as [|i l IH]; [reflexivity|]. cbn [runs]. destruct (runs l) as [|[|j r] rs]; cbn [concat app] in *; [rewrite IH; reflexivity|rewrite IH; reflexivity|]. destruct (same_kind _ _); cbn [concat app]; rewrite <- IH; reflexivity.
Qed.
Lemma runs_all (P : li -> Prop) l : Forall P l -> Forall (Forall P) (runs l).
Proof.
  intros H. rewrite <- (runs_concat l) in H. induction (runs l) as [|r rs IH]; [constructor|]. cbn [concat] in H. apply Forall_app in H as [H1 H2]. constructor; auto.
Qed.
Theorem lists_both o l : ho_sourcepos o = false -> l <> [] -> Forall li_ok l ->
  (exists dd k, parse_doc false (flat_map li_text l) = Ok (T dd k) /\ Forall (fun t => t_type t = list_) k) /\ md_to_html false o (flat_map li_text l) = Ok (flat_map run_html (runs l)).
Proof.
  intros Ho Hne Hl. unfold md_to_html. set (src := flat_map li_text l). change (parse_doc false src) with (result (parse (new_parser false) src)). rewrite parse_finish.
  assert (El : input_lines src = flat_map li_lines l).
  { rewrite input_lines_text. replace src with (flat_map (fun x => x ++ [10%N]) (flat_map li_lines l)).
    - apply text_lines_lines; [|destruct l; [congruence|discriminate]]. apply Forall_forall. intros x Hx. apply in_flat_map in Hx as (i & Hi & Hx). rewrite Forall_forall in Hl. specialize (Hl i Hi). destruct Hx as [<-|Hx].
      + destruct (li_facts i Hl) as (c & r & _ & _ & _ & _ & _ & H & _). exact H.
      + destruct Hl as (_ & _ & _ & _ & _ & _ & Hb). rewrite Forall_forall in Hb. specialize (Hb x Hx). unfold blanks in Hb. rewrite Forall_forall in Hb. intros c Hc. specialize (Hb c Hc). split; intros ->; destruct Hb; discriminate.
    - unfold src. clear. induction l as [|i l IH]; [reflexivity|]. cbn [flat_map]. rewrite flat_map_app, IH. f_equal. unfold li_lines, li_text. cbn [flat_map]. rewrite <- app_assoc. reflexivity. }
  rewrite El. destruct l as [|i l]; [congruence|]. inversion Hl as [|x y L1 L2]; subst. cbn [flat_map li_lines app]. cbn [incorporate_lines].
  destruct (reset_fresh false) as ((d & Es & Ed & Ep & Ec) & _). destruct (first_item i (reset (new_parser false)) d L1 Es Ed Ep eq_refl eq_refl) as (p1 & E1 & H1 & _). rewrite E1. cbn [bind]. rewrite incorporate_app.
  destruct (blank_items [] [] i L1 (li_blanks i) false p1 ltac:(apply L1) H1) as (p2 & -> & H2 & _). cbn [bind].
  destruct (all_items l [] [] i p2 L2 L1 I H2) as (p3 & done & prev & i' & -> & H3 & Hi' & R). cbn [bind app] in *.
  match goal with |- context [finish ?n p3] => destruct (finish_lists n done prev i' p3 Hi' H3) as (dd & k & s & -> & Hdd & Hk & Hs) end. rewrite R in Hk.
  assert (W : Forall (Forall (fun i => words_ok (li_words i))) (runs (i :: l))) by (apply runs_all; eapply Forall_impl; [|exact Hl]; intros j Hj; apply Hj).
  assert (M : Forall (Forall (fun i => mark_ok (li_mark i))) (runs (i :: l))) by (apply runs_all; eapply Forall_impl; [|exact Hl]; intros j Hj; apply Hj).
  destruct (process_runs (ho_softbreak o) _ k Hk W s Hs) as (k' & s' & -> & Hk' & _). cbn [bind].
  split. { exists dd, k'. split; [reflexivity|]. clear -Hk'. induction Hk' as [|r t rs ts (d & items & data & i0 & l0 & -> & R1 & _) _ IH]; constructor; [exact R1|exact IH]. }
  unfold render_html. rewrite html_document by exact Hdd. change (h_dis new_html) with 0%Z. rewrite (runs_events o dd _ k' Ho M Hk'). reflexivity.
Qed.
Theorem lists_html o l : ho_sourcepos o = false -> l <> [] -> Forall li_ok l -> md_to_html false o (flat_map li_text l) = Ok (flat_map run_html (runs l)).
Proof. intros Ho Hne Hl. apply lists_both; assumption. Qed.

(** A decider for the hypotheses *)
Definition mark_okb (m : mark) : bool :=
  match m with
  | Bullet c => existsb (N.eqb c) (u "*+-")
  | Number ds d => Nat.leb 1 (length ds) && Nat.leb (length ds) 9 && forallb (fun c => N.leb 48 c && N.leb c 57) ds && (N.eqb d 46 || N.eqb d 41)
  end.
Definition li_okb (i : li) : bool :=
  Nat.leb (li_indent i) 1 && mark_okb (li_mark i) && Nat.leb 1 (li_gap i) && Nat.leb (li_gap i) 4 && wordsb (li_words i) && negb (markb (li_words i)) && negb (numberb (li_words i)) &&
  forallb (forallb (fun c => N.eqb c 32 || N.eqb c 9)) (li_blanks i).
Lemma mark_okb_ok m : mark_okb m = true -> mark_ok m.
Proof.
  destruct m as [c|ds d]; cbn [mark_okb mark_ok]; intros H.
  - apply existsb_exists in H as (x & H & E). apply N.eqb_eq in E. subst. exact H.
  - apply andb_true_iff in H as [H H4]. apply andb_true_iff in H as [H H3]. apply andb_true_iff in H as [H1 H2]. apply Nat.leb_le in H1, H2. split; [split; assumption|]. split.
    + apply Forall_forall. intros c Hc. rewrite forallb_forall in H3. specialize (H3 c Hc). apply andb_true_iff in H3 as [A B]. apply N.leb_le in A, B. split; assumption.
    + apply orb_true_iff in H4 as [H4|H4]; apply N.eqb_eq in H4; auto.
Qed.
Lemma li_okb_ok i : li_okb i = true -> li_ok i.
Proof.
  unfold li_okb. intros H. repeat (apply andb_true_iff in H as [H ?]). apply Nat.leb_le in H. repeat match goal with G : Nat.leb _ _ = true |- _ => apply Nat.leb_le in G | G : negb _ = true |- _ => apply negb_true_iff in G end.
  split; [assumption|]. split; [apply mark_okb_ok; assumption|]. split; [split; assumption|]. split; [apply wordsb_ok; assumption|]. split; [apply markb_ok; assumption|]. split; [apply numberb_ok; assumption|].
  apply Forall_forall. intros b Hb. match goal with G : forallb _ (li_blanks i) = true |- _ => rewrite forallb_forall in G; specialize (G b Hb); rewrite forallb_forall in G; rename G into G end.
  unfold blanks. apply Forall_forall. intros c Hc. match goal with G : forall x, In x b -> _ |- _ => specialize (G c Hc); apply orb_true_iff in G as [G|G]; apply N.eqb_eq in G; auto end.
Qed.
Lemma lis_okb_ok l : forallb li_okb l = true -> Forall li_ok l.
Proof. intros H. apply Forall_forall. intros i Hi. apply li_okb_ok. rewrite forallb_forall in H. exact (H i Hi). Qed.
