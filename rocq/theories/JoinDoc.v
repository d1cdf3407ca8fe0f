(** * One text behind another: the documents and their HTML *)
From Verif Require Import Base Regex Common NormRef Node Inlines Blocks Html Main RegexFacts StrFacts StrProp Spec SpecTree SpecSame SpecLines SpecJoin TreeFacts HtmlFacts RenderFacts
  InlineFacts BlockFacts BlockInv BlockRun LineFacts ParseFacts RefMapFacts Sim SimFacts SameHtml AfterFacts EmptyLine JoinClose JoinList JoinBlocks.
From Coq Require Import ZifyBool ZifyNat ZifyN.

(** ** Lines *)
Lemma split_join b : forall a, exists L, L <> [] /\ split_eol (a ++ [10%N]) = L ++ [[]] /\ split_eol (a ++ 10%N :: b) = L ++ split_eol b.
Proof.
  induction a as [|c|c d r IH1 IH2] using str_ind2.
  - exists [[]]. split; [discriminate|]. split; [reflexivity|]. cbn [app]. rewrite split_eol_lf. reflexivity.
  - cbn [app]. destruct (N.eq_dec c 10) as [->|C1]; [exists [[]; []]; split; [discriminate|]; split; [reflexivity|]; rewrite !split_eol_lf; reflexivity|].
    destruct (N.eq_dec c 13) as [->|C2]; [exists [[]]; split; [discriminate|]; split; [reflexivity|]; rewrite split_eol_crlf; reflexivity|].
    exists [[c]]. split; [discriminate|]. destruct (split_eol_cons c [10%N] C1 C2) as (l & ls & E1 & ->). destruct (split_eol_cons c (10%N :: b) C1 C2) as (l' & ls' & E2 & ->). rewrite split_eol_lf in E2. injection E1 as <- <-. injection E2 as <- <-. split; reflexivity.
  - cbn [app] in *. destruct IH1 as (L1 & N1 & A1 & B1), IH2 as (L2 & N2 & A2 & B2). destruct (N.eq_dec c 10) as [->|C1].
    + exists ([] :: L2). split; [discriminate|]. rewrite !(split_eol_lf (d :: _)), A2, B2. split; reflexivity.
    + destruct (N.eq_dec c 13) as [->|C2].
      * destruct (N.eq_dec d 10) as [->|D]; [exists ([] :: L1); split; [discriminate|]; rewrite !split_eol_crlf, A1, B1; split; reflexivity|].
        exists ([] :: L2). split; [discriminate|]. rewrite !split_eol_cr, A2, B2 by (cbn; congruence). split; reflexivity.
      * destruct L2 as [|l L2]; [congruence|]. exists ((c :: l) :: L2). split; [discriminate|].
        destruct (split_eol_cons c (d :: r ++ [10%N]) C1 C2) as (l1 & ls1 & E1 & ->), (split_eol_cons c (d :: r ++ 10%N :: b) C1 C2) as (l2 & ls2 & E2 & ->).
        rewrite A2 in E1. rewrite B2 in E2. cbn [app] in *. injection E1 as <- <-. injection E2 as <- <-. split; reflexivity.
Qed.
Lemma text_lines_join a b : last_opt a = Some LF -> b <> [] -> text_lines (a ++ b) = text_lines a ++ text_lines b.
Proof.
  intros Ha Hb. apply in_last in Ha as (a0 & ->). destruct (split_join b a0) as (L & _ & E1 & E2). change [LF] with [10%N] in *. unfold text_lines. rewrite (last_opt_app (a0 ++ [10%N]) b Hb), (last_opt_app a0 [10%N]) by discriminate.
  cbn [last_opt]. change (N.eqb 10 10) with true. cbv iota. rewrite <- app_assoc. cbn [app]. rewrite E1, E2, removelast_last. destruct (last_opt b) as [c|]; [|reflexivity]. destruct (N.eqb c 10); [|reflexivity].
  apply removelast_app, split_eol_ne.
Qed.
Lemma infix_app_l w a b : infix w a -> infix w (a ++ b).
Proof. intros (p & q & ->). exists p, (q ++ b). rewrite !app_assoc. reflexivity. Qed.
Lemma infix_app_r w a b : infix w b -> infix w (a ++ b).
Proof. intros (p & q & ->). exists (a ++ p), q. rewrite !app_assoc. reflexivity. Qed.
Lemma infix_refl (w p q : str) : infix w (p ++ w ++ q).
Proof. exists p, q. reflexivity. Qed.

(** ** The inline pass over the blocks of the first text *)
Lemma process_same : forall t s s', same_ip s s' -> match process_inlines t s with Ok (t', s1) => exists s1', process_inlines t s' = Ok (t', s1') /\ same_ip s1 s1' | Err e => process_inlines t s' = Err e end.
Proof.
  induction t as [d k IH] using tree_ind'. intros s s' Hs. rewrite !process_inlines_eq.
  assert (Hgo : forall s s', same_ip s s' -> match process_all k s with Ok (k', s1) => exists s1', process_all k s' = Ok (k', s1') /\ same_ip s1 s1' | Err e => process_all k s' = Err e end).
  { clear -IH. induction IH as [|x l Hx _ IHl]; intros s s' Hs; cbn [process_all]; [exists s'; auto|]. specialize (Hx s s' Hs). destruct (process_inlines x s) as [[x' s1]|e]; [|rewrite Hx; reflexivity].
    destruct Hx as (s2 & -> & H2). cbn [bind]. specialize (IHl s1 s2 H2). destruct (process_all l s1) as [[l' s3]|e]; [|rewrite IHl; reflexivity]. destruct IHl as (s4 & -> & H4). cbn [bind]. exists s4. auto. }
  destruct (is_container _); [|exists s'; auto]. specialize (Hgo s s' Hs). destruct (process_all k s) as [[k' s1]|e]; [|rewrite Hgo; reflexivity]. destruct Hgo as (s2 & -> & H2). cbn [bind].
  destruct (_ || _); [|exists s2; auto]. destruct (n_string_content d) as [c|]; [|reflexivity]. cbn [of_option bind]. rewrite (parseInlines_same c s1 s2 H2). destruct (parseInlines c s1) as [[i s3]|e]; [|reflexivity]. cbn [bind]. exists s3. split; [reflexivity|split; reflexivity].
Qed.
Lemma process_all_same k s s' k' s1 : same_ip s s' -> process_all k s = Ok (k', s1) -> exists s1', process_all k s' = Ok (k', s1') /\ same_ip s1 s1'.
Proof.
  revert s s' k' s1. induction k as [|x l IH]; intros s s' k' s1 Hs; cbn [process_all]; [intros E; apply Ok_inj in E; injection E as <- <-; exists s'; auto|].
  pose proof (process_same x s s' Hs) as Hx. destruct (process_inlines x s) as [[x' s2]|e]; [|discriminate]. destruct Hx as (s3 & -> & H3). cbn [bind].
  destruct (process_all l s2) as [[l' s4]|e] eqn:E; [|discriminate]. destruct (IH _ _ _ _ H3 E) as (s5 & -> & H5). cbn [bind]. intros G. apply Ok_inj in G. injection G as <- <-. exists s5. auto.
Qed.
Lemma process_note v d k s : process_inlines (T (set_n_last_line_blank v d) k) s = let* (t, s1) := process_inlines (T d k) s in Ok (T (set_n_last_line_blank v (t_data t)) (t_kids t), s1).
Proof.
  rewrite !process_inlines_eq. cbn [n_t n_string_content set_n_last_line_blank]. destruct (is_container (n_t d)); [|reflexivity]. destruct (process_all k s) as [[k' s1]|e]; [|reflexivity]. cbn [bind].
  destruct (_ || _); [|reflexivity]. destruct (n_string_content d) as [c|]; [|reflexivity]. cbn [of_option bind]. destruct (parseInlines c s1) as [[i s2]|e]; reflexivity.
Qed.
Lemma process_noted k a s k' s1 : noted k a -> process_all k s = Ok (k', s1) -> exists a', process_all a s = Ok (a', s1) /\ same_but_last_note k' a'.
Proof.
  intros [->|(v & ->)] E; [exists k'; split; [exact E|left; reflexivity]|]. destruct k as [|[d ks] l _] using rev_ind; [exists k'; split; [exact E|left; reflexivity]|].
  rewrite set_last_snoc. cbn [t_data t_kids]. rewrite process_all_app in E |- *. destruct (process_all l s) as [[l' s2]|e]; [|discriminate]. cbn [bind process_all] in *. rewrite process_note.
  destruct (process_inlines (T d ks) s2) as [[[d' ks'] s3]|e]; [|discriminate]. cbn [bind t_data t_kids] in *. apply Ok_inj in E. injection E as <- <-. eexists. split; [reflexivity|].
  right. exists l', d', ks', v. auto.
Qed.
(** ** Its last block *)
Lemma process_data : forall k s k' s', process_all k s = Ok (k', s') -> map t_data k' = map t_data k.
Proof.
  induction k as [|[d ks] k IH]; intros s k' s' E; cbn [process_all] in E; [apply Ok_inj in E; injection E as <- <-; reflexivity|].
  destruct (process_inlines (T d ks) s) as [[x s1]|e] eqn:E1; [|discriminate]. cbn [bind] in E. destruct (process_all k s1) as [[l s2]|e] eqn:E2; [|discriminate]. cbn [bind] in E. apply Ok_inj in E. injection E as <- <-. cbn [map]. rewrite (IH _ _ _ E2). f_equal.
  rewrite process_inlines_eq in E1. destruct (is_container _); [|apply Ok_inj in E1; injection E1 as <- _; reflexivity]. destruct (process_all ks s) as [[a b]|e]; [|discriminate]. cbn [bind] in E1.
  destruct (_ || _); [|apply Ok_inj in E1; injection E1 as <- _; reflexivity]. destruct (n_string_content d); [|discriminate]. cbn [of_option bind] in E1. destruct (parseInlines _ _) as [[i s3]|e]; [|discriminate]. cbn [bind] in E1. apply Ok_inj in E1. injection E1 as <- _. reflexivity.
Qed.
Lemma last_opt_map {X Y} (f : X -> Y) l : last_opt (map f l) = option_map f (last_opt l).
Proof. induction l as [|x l IH]; [reflexivity|]. cbn [map]. destruct l as [|y l]; [reflexivity|]. exact IH. Qed.
Lemma separated_data k k' a b : map t_data k' = map t_data k -> separated k' a b -> separated k a b.
Proof.
  intros E. unfold separated. apply (f_equal last_opt) in E. rewrite !last_opt_map in E. destruct (last_opt k') as [t'|], (last_opt k) as [t|]; try discriminate; [|auto]. injection E as E. unfold t_type. rewrite E. auto.
Qed.

(** ** The document *)
Lemma no_refs smart s p1 p2 : Forall code_point s -> ~ infix [93; 58]%N s -> incorporate_lines (text_lines s) (reset (new_parser smart)) = Ok p1 ->
  finalize_all (length (p_stack p1)) (length (text_lines s)) p1 = Ok p2 ->
  exists t, p_doc p2 = Some t /\ closed (doc_char s) (fun w => infix w (replace_char 0 65533 s)) t /\ t_type t = document /\ p_refmap p2 = [].
Proof.
  intros Hs Hr E1 E2. pose proof (parse_blocks_refs (doc_char s) (plain_doc_char s) (doc_char_code s) (fun w => infix w (replace_char 0 65533 s)) s (new_parser smart) (ok_doc s Hs)) as Hrf. unfold parse_blocks in Hrf. rewrite (input_lines_text s), E1 in Hrf. cbn [bind] in Hrf. rewrite E2 in Hrf.
  destruct Hrf as (t & H1 & H2 & H3 & _ & _ & _ & Hrf). exists t. split; [exact H1|]. split; [exact H2|]. split; [exact H3|]. exact (Hrf (no_colon s Hr)).
Qed.
Lemma process_all_keeps (Q : N -> Prop) A (HQ : forall c, StrProp.plain_char c -> Q c) (HQc : forall c, Q c -> code_point c) : forall k s k' s', Forall (closed Q A) k -> ip_refmap s = [] -> process_all k s = Ok (k', s') -> same_ip s s'.
Proof.
  induction k as [|x k IH]; intros s k' s' Hk Hs E; cbn [process_all] in E; [apply Ok_inj in E; injection E as <- <-; split; reflexivity|]. inversion Hk as [|x0 l K1 K2]; subst.
  pose proof (process_inlines_spec Q HQ HQc A x K1 s ltac:(rewrite Hs; constructor)) as H. destruct (process_inlines x s) as [[x' s1]|e]; [|discriminate]. cbn [bind] in E. destruct H as (_ & _ & H1 & H2).
  destruct (process_all k s1) as [[l s2]|e] eqn:E2; [|discriminate]. cbn [bind] in E. apply Ok_inj in E. injection E as <- <-. destruct (IH s1 _ _ K2 (eq_trans H1 Hs) E2) as [G1 G2]. split; congruence.
Qed.
Lemma run_facts smart a da ka : Forall code_point a -> ~ infix [93; 58]%N a -> parse_doc smart a = Ok (T da ka) ->
  exists p1 p2 d k s s1, incorporate_lines (text_lines a) (reset (new_parser smart)) = Ok p1 /\ finalize_all (length (p_stack p1)) (length (text_lines a)) p1 = Ok p2 /\ p_doc p2 = Some (T d k) /\
    ip_refmap s = [] /\ ip_smart s = smart /\ process_all k s = Ok (ka, s1) /\ same_ip s s1.
Proof.
  intros Ha Hr. change (parse_doc smart a) with (result (parse (new_parser smart) a)). rewrite parse_finish, input_lines_text. destruct (incorporate_lines _ _) as [p1|e] eqn:E1; [|discriminate]. cbn [bind].
  unfold finish. destruct (finalize_all _ _ p1) as [p2|e] eqn:E2; [|discriminate]. cbn [bind]. destruct (no_refs smart a p1 p2 Ha Hr E1 E2) as ([d k] & E3 & Hc & Ht & Hrm). rewrite E3. cbn [of_option bind].
  assert (Hsm : p_smart p2 = smart). { pose proof (incorporate_lines_grows _ _ _ E1) as (_ & G1). pose proof (finalize_all_grows _ _ _ _ E2) as (_ & G2). rewrite G2, G1. reflexivity. }
  rewrite process_bt by (left; exact Ht). set (s := IP _ _ _ _ _ _ _ _). assert (Es : ip_refmap s = []) by exact Hrm. assert (Es2 : ip_smart s = smart) by exact Hsm. clearbody s.
  destruct (process_all k s) as [[k' s1]|e] eqn:E4; [|discriminate]. cbn [bind]. intros E. apply Ok_inj in E. injection E as <- <-.
  exists p1, p2, d, k, s, s1. split; [reflexivity|]. split; [exact E2|]. split; [exact E3|]. split; [exact Es|]. split; [exact Es2|]. split; [exact E4|].
  eapply (process_all_keeps _ _ (plain_doc_char a) (doc_char_code a)); [|exact Es|exact E4]. apply tree_every_unfold in Hc. apply Hc.
Qed.
Lemma empty_doc smart : exists d, parse_doc smart [] = Ok (T d []).
Proof. destruct smart; eexists; vm_compute; reflexivity. Qed.
Theorem join_doc smart a b da ka : Forall code_point a -> Forall code_point b -> last_opt a = Some LF -> ~ infix [93; 58]%N (a ++ b) -> parse_doc smart a = Ok (T da ka) -> separated ka a b ->
  match parse_doc smart b with
  | Ok (T db kb) => exists d k1 k2, parse_doc smart (a ++ b) = Ok (T d (k1 ++ k2)) /\ same_but_last_note ka k1 /\ Forall2 (same_blocks (lines_down (length (text_lines a)))) kb k2
  | Err e => parse_doc smart (a ++ b) = Err e
  end.
Proof.
  intros Ha Hb Hlf Hr Ea Hsep. assert (Hra : ~ infix [93; 58]%N a) by (intros X; apply Hr, infix_app_l, X). assert (Hrb : ~ infix [93; 58]%N b) by (intros X; apply Hr, infix_app_r, X).
  destruct b as [|c b0].
  { rewrite app_nil_r. destruct (empty_doc smart) as (d & ->). exists da, ka, []. rewrite app_nil_r. split; [exact Ea|]. split; [left; reflexivity|constructor]. }
  set (b := c :: b0) in *. assert (Hbne : b <> []) by discriminate. clearbody b. clear c b0.
  destruct (run_facts smart a da ka Ha Hra Ea) as (p1 & p2 & d & k & s & s1 & E1 & E2 & E3 & Es & Es2 & E4 & Hs1).
  apply (separated_data k) in Hsep; [|eapply process_data, E4].
  pose proof (blocks_join smart a b p1 p2 d k Ha Hra E1 E2 E3 Hsep) as H.
  pose proof (result_total (new_parser smart) b Hb) as Hf. pose proof (fun t => doc_positions smart b t Hb) as Hpos.
  pose proof (fun q1 q2 => no_refs smart b q1 q2 Hb Hrb) as Hrefs. pose proof (fun q1 q2 t => blocks_leaf (new_parser smart) b q1 q2 t Hb) as Hleaf. rewrite input_lines_text in Hleaf.
  assert (Eab : parse_doc smart (a ++ b) = let* q1 := incorporate_lines (text_lines b) p1 in finish (length (text_lines a) + length (text_lines b)) q1).
  { change (parse_doc smart (a ++ b)) with (result (parse (new_parser smart) (a ++ b))). rewrite parse_finish, input_lines_text, text_lines_join by assumption. rewrite incorporate_app, E1, app_length. reflexivity. }
  change (parse_doc smart b) with (result (parse (new_parser smart) b)) in *. rewrite (parse_finish (new_parser smart) b), input_lines_text in *.
  assert (Hsm : forall q, incorporate_lines (text_lines b) (reset (new_parser smart)) = Ok q -> p_smart q = smart) by (intros q E; pose proof (incorporate_lines_grows _ _ _ E) as (_ & G); rewrite G; reflexivity).
  set (r := reset (new_parser smart)) in *. clearbody r. clear E1 E2 E3 Ea Hsep.
  destruct (incorporate_lines (text_lines b) r) as [y1|e]; cbn [bind] in *; [|destruct e; cbn in H; try (rewrite Eab, H; reflexivity); congruence].
  destruct H as (z1 & Ez & H). rewrite Ez in Eab. cbn [bind] in Eab. specialize (Hsm y1 eq_refl).
  pose proof (srel_len _ _ _ _ _ _ _ (no_hex _) _ _ _ (r_stack _ _ _ _ _ _ _ _ _ _ _ (r_0 _ _ _ _ _ _ _ _ _ _ _ H))) as [El _].
  pose proof (finalize_all_sim _ _ _ _ _ _ _ (no_hex _) _ _ (noted_blank k) (length (p_stack y1)) (length (p_stack z1)) (length (text_lines b)) y1 z1 ltac:(lia) H) as G.
  unfold finish in *. rewrite (Nat.add_comm (length (text_lines b))) in G.
  specialize (Hrefs y1). specialize (Hleaf y1). destruct (finalize_all (length (p_stack y1)) _ y1) as [y2|e] eqn:E; cbn [bind] in *; [|destruct e; cbn in G; try (rewrite Eab, G; reflexivity); congruence].
  destruct G as (z2 & Ez2 & G1 & G2 & d1 & k1 & d2 & k2 & G3 & G4 & G5 & G6 & G7 & G8 & G9). rewrite Ez2 in Eab. cbn [bind] in Eab. destruct G9 as [[_ G9]|[[X _]|[X _]]]; [|discriminate|discriminate].
  destruct (Hrefs y2 eq_refl eq_refl) as (t & Et & _ & _ & Hrm). rewrite G3 in Et. injection Et as <-. specialize (Hleaf y2 _ eq_refl eq_refl G3). apply tree_every_unfold in Hleaf as [_ Hleaf].
  assert (Hsm2 : p_smart y2 = smart) by (pose proof (finalize_all_grows _ _ _ _ E) as (_ & G); rewrite G; exact Hsm). unfold same_smart in G2.
  rewrite G3 in Hf, Hpos |- *. rewrite G9 in Eab. cbn [of_option bind] in *. assert (G7' : bt (n_t d2)) by (destruct G7 as [G7|[X _]]; [exact G7|discriminate]). rewrite (process_bt d2) in Eab by exact G7'. rewrite (process_bt d1) in Hf, Hpos |- * by exact G4.
  set (sy := IP _ _ (p_refmap y2) _ _ _ _ _) in *. set (sz := IP _ _ (p_refmap z2) _ _ _ _ _) in *.
  assert (Y1 : ip_refmap sy = []) by exact Hrm. assert (Y2 : ip_smart sy = smart) by exact Hsm2. assert (Z1 : ip_refmap sz = []) by (change (p_refmap z2 = []); congruence). assert (Z2 : ip_smart sz = smart) by (change (p_smart z2 = smart); congruence). clearbody sy sz.
  destruct G5 as (ka' & kb' & -> & Hn & Hkb). destruct (process_all_same k s sz ka s1 ltac:(split; congruence) E4) as (s2 & E5 & Hs2). destruct (process_noted k ka' sz ka s2 Hn E5) as (ka2 & E6 & Hnote).
  rewrite process_all_app, E6 in Eab. cbn [bind] in Eab. assert (Hs3 : same_ip sy s2) by (destruct Hs1, Hs2; split; congruence).
  pose proof (process_all_sim _ _ _ k1 kb' sy s2 Hkb Hleaf Hs3) as K. destruct (process_all k1 sy) as [[kb s4]|e]; cbn [bind] in *; [|destruct e; cbn in K; try (rewrite Eab, K; reflexivity); congruence].
  destruct K as ([kb2 s5] & K1 & K2 & _). cbn [fst] in K2. rewrite K1 in Eab. cbn [bind] in Eab. exists d2, ka2, kb2. split; [exact Eab|]. split; [exact Hnote|].
  specialize (Hpos _ eq_refl). apply tree_every_unfold in Hpos as [_ Hpos].
  clear - K2 Hpos. induction K2 as [|x y l l' Hx _ IH]; [constructor|]. inversion Hpos as [|x0 y0 P1 P2]; subst. constructor; [|apply IH, P2].
  eapply prel_blocks; [|exact Hx|exact P1]. intros. cbn [lines_down]. lia.
Qed.

(** ** The HTML *)
Lemma html_node_note o v d a e st : html_node o (set_n_last_line_blank v d) a e st = html_node o d a e st.
Proof. unfold html_node. cbn [n_t set_n_last_line_blank]. destruct (n_t d); reflexivity. Qed.
Lemma note_events o v d k a st : ho_sourcepos o = false -> html_events o (events a (T (set_n_last_line_blank v d) k)) st = html_events o (events a (T d k)) st.
Proof.
  intros Ho. cbn [events n_t set_n_last_line_blank]. destruct (is_container (n_t d)); cbn [html_events]; rewrite html_node_note; [|reflexivity]. destruct (html_node o d a true st) as [s1|]; [|reflexivity]. cbn [bind]. rewrite !html_events_app.
  rewrite (html_kids_same o Ho k k (d :: a) (set_n_last_line_blank v d :: a)); [|clear; induction k; constructor; [apply eqp_refl|assumption]|split; [reflexivity|split; reflexivity]].
  destruct (html_events o (flat_map (events (d :: a)) k) s1) as [s2|]; [|reflexivity]. cbn [bind html_events]. rewrite html_node_note. reflexivity.
Qed.
Lemma note_html o k k' a st : ho_sourcepos o = false -> same_but_last_note k k' -> html_events o (flat_map (events a) k') st = html_events o (flat_map (events a) k) st.
Proof.
  intros Ho [->|(l & d & ks & v & -> & ->)]; [reflexivity|]. rewrite !flat_map_app, !html_events_app. destruct (html_events o (flat_map (events a) l) st) as [s|]; [|reflexivity]. cbn [bind flat_map]. rewrite !app_nil_r. apply note_events, Ho.
Qed.
Lemma html_of_blocks o d k A : ho_sourcepos o = false -> n_t d = document -> Forall (fun t => may_hold document (t_type t) = true) k -> render_html o (T d k) = Ok A ->
  forall d', n_t d' = document -> html_events o (flat_map (events [d']) k) (HS [] [LF] 0) = Ok (HS A [LF] 0).
Proof.
  intros Ho Ed Hk E d' Ed'. unfold render_html in E. rewrite html_document in E by exact Ed. change (h_dis new_html) with 0%Z in E.
  rewrite (html_kids_same o Ho k k [d] [d']); [|clear; induction k; constructor; [apply eqp_refl|assumption]|apply arel_doc; assumption].
  destruct (html_events o (flat_map (events [d]) k) (HS [] [LF] 0)) as [st|] eqn:Est; [|discriminate]. cbn [bind] in E. apply Ok_inj in E as <-.
  assert (H1 : h_last st = [LF]) by (eapply (blocks_last o d Ed); [exact Hk| |exact Est]; reflexivity). pose proof (kids_dis o [d] k _ _ Est) as H2. destruct st as [bf la di]. cbn [h_last h_dis h_buf] in *. subst. reflexivity.
Qed.
Lemma doc_blocks smart s d k : Forall code_point s -> parse_doc smart s = Ok (T d k) -> n_t d = document /\ Forall (fun t => may_hold document (t_type t) = true) k.
Proof.
  intros Hs E. destruct (parse_doc_facts smart s _ Hs E) as (F1 & F2 & _). split; [exact F2|]. apply Forall_forall. intros x Hx. destruct (F1 (T d k)) as (_ & G & _); [left; reflexivity|].
  unfold t_type in F2. cbn [t_data] in F2. rewrite F2 in G. rewrite Forall_forall in G. apply G, Hx.
Qed.
Theorem join_html smart o a b da ka A : ho_sourcepos o = false -> Forall code_point a -> Forall code_point b -> last_opt a = Some LF -> ~ infix [93; 58]%N (a ++ b) -> parse_doc smart a = Ok (T da ka) -> separated ka a b ->
  md_to_html smart o a = Ok A -> md_to_html smart o (a ++ b) = let* B := md_to_html smart o b in Ok (A ++ B).
Proof.
  intros Ho Ha Hb Hlf Hr Ea Hsep EA. pose proof (join_doc smart a b da ka Ha Hb Hlf Hr Ea Hsep) as H. destruct (doc_blocks smart a da ka Ha Ea) as (Hda & Hka).
  unfold md_to_html in EA |- *. rewrite Ea in EA. cbn [bind] in EA. destruct (parse_doc smart b) as [[db kb]|e] eqn:Eb; [|rewrite H; reflexivity].
  destruct H as (d & k1 & k2 & Eab & Hn & Hk). rewrite Eab. cbn [bind]. destruct (doc_blocks smart b db kb Hb Eb) as (Hdb & _).
  assert (Hab : Forall code_point (a ++ b)) by (apply Forall_app; split; assumption). destruct (doc_blocks smart (a ++ b) _ _ Hab Eab) as (Hd & _).
  eapply html_after; [exact Ho|exact Hdb|exact Hd| | |reflexivity].
  - eapply Forall2_impl'; [|exact Hk]. intros x y. apply same_eqp.
  - rewrite (note_html o ka k1 [d] _ Ho Hn). apply (html_of_blocks o da ka A Ho Hda Hka EA d Hd).
Qed.
