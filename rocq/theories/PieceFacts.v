(** * Reading a line of pieces: C53 *)
From Verif Require Import Base Regex Common NormRef Node Inlines Blocks Html Main RegexFacts StrFacts Spec SpecTree SpecSame SpecLines SpecParas SpecRefs SpecPieces
  TreeFacts CommonFacts StrProp HtmlFacts EmphFacts InlineFacts DocFacts TextFacts WordFacts RenderFacts AngleFacts RefFacts RefLine RefInline ParaInline PieceRegex PieceMatch PieceLink.
From Coq Require Import ZifyBool ZifyNat ZifyN.

Definition fresh (st : ip) : Prop := Forall (fun k => fst k < ip_next st) (ip_kids st).
Definition at_rest (st : ip) (q : str) : Prop :=
  skipn (ip_pos st) (ip_subject st) = q /\ ip_brackets st = [] /\ (NoDup (map d_node (ip_delims st)) /\ Forall (fun d => d_node d < ip_next st) (ip_delims st)) /\ ip_smart st = false /\ fresh st.
(** [m] iterations of the loop add the children [K], which have new identities, and no delimiters *)
Definition moves (m : nat) (st st' : ip) (K : list (nat * tree)) : Prop :=
  steps m st st' /\ ip_subject st' = ip_subject st /\ ip_refmap st' = ip_refmap st /\ ip_smart st' = ip_smart st /\ ip_delims st' = ip_delims st /\ ip_brackets st' = ip_brackets st /\
  ip_kids st' = ip_kids st ++ K /\ ip_next st <= ip_next st' /\ Forall (fun i => ip_next st <= i < ip_next st') (map fst K) /\ NoDup (map fst K).
Lemma NoDup_below (a b : list nat) n m p : Forall (fun i => n <= i < m) a -> Forall (fun i => m <= i < p) b -> NoDup a -> NoDup b -> NoDup (a ++ b).
Proof.
  intros Ha Hb Na Nb. induction a as [|x a IH]; [exact Nb|]. cbn [app]. apply NoDup_cons_iff in Na as [Nx Na]. constructor; [|apply IH; [exact (Forall_inv_tail Ha)|exact Na]].
  rewrite in_app_iff. intros [X|X]; [exact (Nx X)|]. rewrite Forall_forall in Hb. apply Hb in X. apply Forall_inv in Ha. lia.
Qed.
Lemma moves_nil st : moves 0 st st [].
Proof. unfold moves. rewrite app_nil_r. split; [intros fu; reflexivity|]. repeat (split; [reflexivity|]). split; constructor. Qed.
Lemma moves_trans n m a b c K K' : moves n a b K -> moves m b c K' -> moves (n + m) a c (K ++ K').
Proof.
  intros (A0 & A1 & A2 & A3 & A4 & A5 & A6 & A7 & A8 & A9) (B0 & B1 & B2 & B3 & B4 & B5 & B6 & B7 & B8 & B9). split; [eapply steps_trans; eassumption|]. rewrite B6, A6, app_assoc, map_app.
  split; [congruence|]. split; [congruence|]. split; [congruence|]. split; [congruence|]. split; [congruence|]. split; [reflexivity|]. split; [lia|].
  split; [apply Forall_app; split; (eapply Forall_impl; [|eassumption]); cbn; intros; lia|]. eapply NoDup_below; eassumption.
Qed.
Lemma fresh_append t st : fresh st -> fresh (append_kid t st).
Proof.
  unfold fresh, append_kid. cbn [set_ip_next set_ip_kids ip_next ip_kids]. intros H. apply Forall_app. split; [eapply Forall_impl; [|exact H]; cbv beta; intros; lia|]. constructor; [cbn; lia|constructor].
Qed.
Lemma one_kid st g q n t : at_rest st (g ++ q) -> n = length g -> parseInline st = Ok (true, append_kid t (ip_adv n st)) ->
  exists st', moves 1 st st' [(ip_next st, t)] /\ at_rest st' q.
Proof.
  intros (E & Hb & Hd & Hs & Hf) Hn H. exists (append_kid t (ip_adv n st)). split.
  - split; [apply steps_one, H|]. unfold append_kid, ip_adv. cbn [set_ip_pos set_ip_next set_ip_kids ip_subject ip_refmap ip_smart ip_delims ip_brackets ip_kids]. cbn [set_ip_kids set_ip_next set_ip_pos ip_next map fst]. repeat (split; [reflexivity|]). split; [lia|]. split; [repeat constructor; lia|]. repeat constructor. intros [].
  - split; [apply (adv_rest st g); assumption|]. split; [exact Hb|]. split; [destruct Hd as [D1 D2]; split; [exact D1|]; eapply Forall_impl; [|exact D2]; unfold append_kid, ip_adv; cbn [set_ip_pos set_ip_next set_ip_kids ip_next]; intros; lia|]. split; [exact Hs|]. apply fresh_append. exact Hf.
Qed.
(** ** HTML of children *)
Definition shown (o : hopts) (K : list tree) (s : str) : Prop :=
  forall anc st, h_dis st = 0%Z -> exists l, html_events o (flat_map (events anc) K) st = Ok (HS (h_buf st ++ s) l 0%Z).
Lemma shown_nil o : shown o [] [].
Proof. intros anc st Hd. exists (h_last st). cbn [flat_map html_events]. rewrite app_nil_r, <- Hd. destruct st; reflexivity. Qed.
Lemma shown_app o a b s t : shown o a s -> shown o b t -> shown o (a ++ b) (s ++ t).
Proof.
  intros H1 H2 anc st Hd. rewrite flat_map_app, html_events_app. destruct (H1 anc st Hd) as (l & ->). cbn [bind]. destruct (H2 anc (HS (h_buf st ++ s) l 0%Z) eq_refl) as (l' & ->).
  exists l'. cbn [h_buf]. rewrite <- app_assoc. reflexivity.
Qed.
Lemma shown_texts o ls : shown o (map text_node ls) (html_text (concat ls)).
Proof. intros anc st Hd. destruct (texts_html o anc ls st) as (l & ->). rewrite escape_xml_html, Hd. exists l. reflexivity. Qed.
Lemma shown_text o l : shown o [text_node l] (html_text l).
Proof. pose proof (shown_texts o [l]) as H. cbn [map concat] in H. rewrite app_nil_r in H. exact H. Qed.
Lemma shown_code o l : shown o [code_node l] (u "<code>" ++ html_text l ++ u "</code>").
Proof. intros anc st Hd. destruct (code_html o anc l st Hd) as (x & ->). rewrite Hd. eauto. Qed.
Lemma shown_tag o l : ho_safe o = false -> shown o [T (set_n_literal (Some l) (new_node html_inline None)) []] l.
Proof.
  intros Hs anc [b la z] Hd. cbn [h_dis] in Hd. subst z. exists l. cbn [flat_map events app n_t set_n_literal new_node]. change (is_container html_inline) with false. cbv iota. cbn [app html_events]. unfold html_node. cbn [n_t set_n_literal new_node].
  unfold h_html_inline. rewrite Hs. reflexivity.
Qed.
Definition link_node (im : bool) (ls : list str) (d : str) (t : option str) : tree :=
  T (set_n_title (Some (or_empty t)) (set_n_destination (Some d) (new_node (if im then image else link) None))) (map text_node ls).
Definition attr_title (t : option str) : str := match or_empty t with [] => [] | x => u " title=" ++ [34%N] ++ html_text x ++ [34%N] end.
Lemma title_attr t : attr_title (option_map ti_text t) = title_html t.
Proof. destruct t as [t|]; [|reflexivity]. unfold attr_title. cbn [option_map or_empty title_html]. destruct (ti_text t); reflexivity. Qed.
Lemma url_text d : Forall dest_char d -> html_text d = d.
Proof.
  intros H. unfold html_text. induction d as [|c d IH]; [reflexivity|]. cbn [flat_map]. rewrite IH by exact (Forall_inv_tail H). destruct (dest_facts c (Forall_inv H)) as (_ & _ & N & _). cbn [In] in N.
  unfold html_char. rewrite !(proj2 (N.eqb_neq _ _)) by lia. reflexivity.
Qed.
Lemma texts_alt o anc ls : forall st, exists l, html_events o (flat_map (events anc) (map text_node ls)) st = Ok (HS (h_buf st ++ html_text (concat ls)) l (h_dis st)).
Proof. intros st. destruct (texts_html o anc ls st) as (l & ->). rewrite escape_xml_html. eauto. Qed.
Lemma shown_link o im ls d t : ho_sourcepos o = false -> ho_safe o = false -> html_text d = d ->
  shown o [link_node im ls d t]
    (if im then u "<img src=" ++ [34%N] ++ d ++ [34%N] ++ u " alt=" ++ [34%N] ++ html_text (concat ls) ++ [34%N] ++ attr_title t ++ u " />"
     else u "<a href=" ++ [34%N] ++ d ++ [34%N] ++ attr_title t ++ u ">" ++ html_text (concat ls) ++ u "</a>").
Proof.
  intros Ho Hs Hd anc [B la z] Hz. cbn [h_dis] in Hz. subst z. unfold link_node. cbn [flat_map]. rewrite app_nil_r.
  assert (X3 : forall x, unsafe_dest o x = Ok false) by (intros x; unfold unsafe_dest; rewrite Hs; reflexivity).
  assert (Et : forall x, (if truthy (Some (or_empty t)) then x (escape_xml_opt (Some (or_empty t))) else []) = match or_empty t with [] => [] | y => x (html_text y) : str end).
  { intros x. cbn [truthy escape_xml_opt]. rewrite escape_xml_html. destruct (or_empty t); reflexivity. }
  destruct im.
  - set (dd := set_n_title _ _). cbn [events]. change (n_t dd) with image. change (is_container image) with true. cbv iota. cbn [html_events]. unfold html_node at 1. change (n_t dd) with image. unfold h_image at 1. cbn [h_dis]. change (Z.eqb 0 0) with true. cbv iota.
    rewrite X3. cbn [bind]. rewrite html_events_app. destruct (texts_alt o (dd :: anc) ls (set_h_dis (h_dis (h_lit (u "<img src=""" ++ escape_xml_opt (n_destination dd) ++ u """ alt=""") (HS B la 0)) + 1) (h_lit (u "<img src=""" ++ escape_xml_opt (n_destination dd) ++ u """ alt=""") (HS B la 0)))) as (l1 & ->).
    cbn [bind html_events]. unfold html_node. change (n_t dd) with image. unfold h_image. cbn [h_dis set_h_dis h_lit h_buf]. change (Z.eqb (0 + 1 - 1) 0) with true. cbv iota. change (n_title dd) with (Some (or_empty t)). change (n_destination dd) with (Some d). cbn [escape_xml_opt]. rewrite !escape_xml_html, Hd.
    unfold attr_title. destruct (or_empty t) as [|x r]; cbn [truthy is_nil negb bind]; unfold h_lit; cbn [h_buf h_dis set_h_dis]; eexists; change (0 + 1 - 1)%Z with 0%Z; rewrite <- ?app_assoc; cbn [u app]; rewrite <- ?app_assoc; reflexivity.
  - set (dd := set_n_title _ _). cbn [events]. change (n_t dd) with link. change (is_container link) with true. cbv iota. cbn [html_events]. unfold html_node at 1. change (n_t dd) with link. unfold h_link at 1. unfold attrs_of at 1. rewrite Ho, X3. cbn [bind].
    rewrite html_events_app. match goal with |- context [html_events o (flat_map (events (dd :: anc)) (map text_node ls)) ?s] => destruct (texts_alt o (dd :: anc) ls s) as (l1 & ->) end.
    cbn [bind html_events]. unfold html_node. change (n_t dd) with link. unfold h_link. change (n_title dd) with (Some (or_empty t)). change (n_destination dd) with (Some d). cbn [escape_xml_opt]. rewrite !escape_xml_html, Hd. unfold h_tag0, h_tag, h_lit. cbn [h_dis h_buf]. change (Z.ltb 0 0) with false. cbv iota. cbn [h_dis h_buf]. change (Z.ltb 0 0) with false. cbv iota.
    unfold attr_title, attr_text. destruct (or_empty t) as [|x r]; cbn [truthy is_nil negb app flat_map fst snd bind h_buf h_dis]; eexists; rewrite <- ?app_assoc; cbn [u app]; rewrite <- ?app_assoc; reflexivity.
Qed.
(** ** Words *)
Lemma step_mark s c q : skipn (ip_pos s) (ip_subject s) = c :: q -> In c [33; 93; 39; 34]%N -> ip_brackets s = [] -> ip_smart s = false -> (c = 33%N -> hd_error q <> Some 91%N) ->
  parseInline s = Ok (true, append_kid (text_node [c]) (ip_adv 1 s)).
Proof.
  intros E Hc Hb Hs Hq. destruct (N.eq_dec c 33) as [->|Hn]; [apply (step_single s _ q); auto|]. unfold parseInline. rewrite (peek_skipn s _ _ E). destruct Hc as [<-|[<-|[<-|[<-|[]]]]]; [congruence|..]; cbn [N.eqb Pos.eqb LF orb].
  - unfold parseCloseBracket. change (ip_brackets (ip_adv 1 s)) with (ip_brackets s). rewrite Hb. reflexivity.
  - rewrite Hs. reflexivity.
  - rewrite Hs. reflexivity.
Qed.
Lemma words_steps q : (forall c q', q = c :: q' -> main_special c = true) -> forall n s st, length s <= n -> at_rest st (s ++ q) -> forallb tame s = true -> (hd_error q = Some 91%N -> last_opt s <> Some 33%N) ->
  exists m st' K ls, m <= length s /\ moves m st st' K /\ map snd K = map text_node ls /\ concat ls = s /\ at_rest st' q.
Proof.
  intros Hq. induction n as [|n IH]; intros s st Hn E Ht H33; (destruct s as [|c s]; [exists 0, st, [], []; split; [lia|]; split; [apply moves_nil|]; split; [reflexivity|]; split; [reflexivity|exact E]|]); [cbn in Hn; lia|].
  pose proof Ht as Ht0. cbn [forallb] in Ht. apply andb_true_iff in Ht as [Hc Ht]. cbn [length] in Hn. destruct E as (E & Hb & Hd & Hs & Hf).
  destruct (main_special c) eqn:Ec.
  - assert (Hh : c = 33%N -> hd_error (s ++ q) <> Some 91%N). { intros ->. destruct s as [|d s]; cbn [app]; [intros X; apply (H33 X); reflexivity|]. cbn [hd_error]. intros X. injection X as ->. cbn [forallb] in Ht. discriminate Ht. }
    destruct (one_kid st [c] (s ++ q) 1 (text_node [c])) as (st1 & G1 & R1); [split; [exact E|auto]|reflexivity|apply (step_mark st c (s ++ q) E (tame_main c Hc Ec) Hb Hs Hh)|].
    destruct (IH s st1 ltac:(lia) R1 Ht) as (m & st' & K & ls & M & G2 & Ek & C & R2). { intros X Y. apply (H33 X). rewrite last_opt_cons, Y. reflexivity. }
    exists (1 + m), st', ([(ip_next st, text_node [c])] ++ K), ([c] :: ls). split; [cbn [length]; lia|]. split; [apply (moves_trans 1 m st st1 st' _ _ G1 G2)|]. split; [rewrite map_app, Ek; reflexivity|]. split; [cbn [concat app]; rewrite C; reflexivity|exact R2].
  - set (f := fun c => negb (main_special c)). set (g := take_while f (c :: s)). set (q1 := drop_while f (c :: s)). assert (Es : c :: s = g ++ q1) by (symmetry; apply take_drop_while).
    assert (Hg : g <> []) by (unfold g; cbn [take_while]; unfold f at 1; rewrite Ec; discriminate). assert (Hf' : forallb f g = true) by apply take_while_all.
    assert (Hq1 : forall x q', q1 = x :: q' -> main_special x = true) by (intros x q' Eq; unfold q1 in Eq; apply drop_while_head in Eq; unfold f in Eq; destruct (main_special x); [reflexivity|discriminate]).
    clearbody g q1. assert (Hlen : length (c :: s) <= S n) by (cbn; lia). rewrite Es in *. clear Es. rewrite <- app_assoc in E.
    assert (Hn1 : forall x q', q1 ++ q = x :: q' -> main_special x = true). { intros x q' X. destruct q1 as [|y q1]; [eapply Hq; exact X|]. cbn [app] in X. injection X as <- _. eapply Hq1; reflexivity. }
    destruct (one_kid st g (q1 ++ q) (length g) (text_node g)) as (st1 & G1 & R1); [split; [exact E|auto]|reflexivity|apply (step_run st g (q1 ++ q) E Hg Hf' Hn1); intros X; congruence|].
    assert (Hg0 : 0 < length g) by (destruct g; [congruence|cbn; lia]). rewrite forallb_app in Ht0. apply andb_true_iff in Ht0 as [_ Ht0]. rewrite app_length in Hlen.
    destruct (IH q1 st1 ltac:(lia) R1 Ht0) as (m & st' & K & ls & M & G2 & Ek & C & R2). { intros X Y. apply (H33 X). rewrite RegexFacts.last_opt_app, Y. reflexivity. }
    exists (1 + m), st', ([(ip_next st, text_node g)] ++ K), (g :: ls). split; [rewrite app_length; lia|]. split; [apply (moves_trans 1 m st st1 st' _ _ G1 G2)|]. split; [rewrite map_app, Ek; reflexivity|]. split; [cbn [concat]; rewrite C; reflexivity|exact R2].
Qed.

(** ** Links *)
Lemma split_kid_at id x b : forall a, Forall (fun k => fst k < id) a -> split_kid id (a ++ (id, x) :: b) = Some (a, x, b).
Proof.
  induction a as [|[i t] a IH]; intros H; cbn [app split_kid]; [rewrite Nat.eqb_refl; reflexivity|]. pose proof (Forall_inv H) as Hi. cbn [fst] in Hi. rewrite (proj2 (Nat.eqb_neq i id)) by lia. rewrite IH by exact (Forall_inv_tail H). reflexivity.
Qed.
Lemma link_words w : Forall link_char w -> forallb (fun c => negb (main_special c)) w = true.
Proof.
  intros H. apply forallb_forall. intros c Hc. rewrite Forall_forall in H. destruct (H c Hc) as [H1 H2]. unfold ordinary_char in H1. change ([10; 13; 0]%N ++ u "`[\<&*_") with [10; 13; 0; 96; 91; 92; 60; 38; 42; 95]%N in H1. cbn [In] in H1, H2. unfold main_special. cbn [existsb]. lia.
Qed.
Definition texts_of (w : str) : list str := match w with [] => [] | _ => [w] end.
Lemma texts_concat w : concat (texts_of w) = w.
Proof. destruct w; [reflexivity|]. cbn [texts_of concat]. apply app_nil_r. Qed.
Lemma emphasis_skip ds ks n : NoDup (map d_node ds) -> processEmphasis (hd_id ds) ds ks n = Ok (ds, ks, n).
Proof.
  intros H. destruct ds as [|d ds]; [apply emphasis_none|]. unfold processEmphasis. assert (Hu : Forall (above (hd_id (d :: ds))) ds).
  { apply Forall_forall. intros x Hx E. cbn [hd_id] in E. injection E as E. cbn [map] in H. apply NoDup_cons_iff in H as [H _]. apply H. rewrite <- E. apply in_map, Hx. }
  rewrite first_closer_none; [|discriminate|exact Hu|discriminate]. cbn [drop_to hd_id]. rewrite (proj2 (id_eqb_eq _ _) eq_refl). reflexivity.
Qed.
Lemma link_step st im w i d t j q : at_rest st (piece_text (Link im w i d t j) ++ q) -> piece_ok (Link im w i d t j) ->
  exists m st' k, m <= 3 /\ m <= length (piece_text (Link im w i d t j)) /\ moves m st st' [(k, link_node im (texts_of w) (dest_of d) (option_map ti_text t))] /\ at_rest st' q.
Proof.
  intros (E & Hb & Hd & Hs & Hf) (Hw & Hdest & Ht). assert (E0 : skipn (ip_pos st) (ip_subject st) = opening im ++ w ++ 93%N :: link_tail i d t j ++ q).
  { rewrite E. cbn [piece_text]. unfold opening, link_tail. destruct im; cbn [u app]; rewrite <- ?app_assoc; cbn [app]; rewrite <- ?app_assoc; cbn [app]; rewrite <- ?app_assoc; reflexivity. }
  pose proof (steps_one _ _ (open_step im st _ E0)) as S1. assert (E1 : skipn (ip_pos (opened im st)) (ip_subject (opened im st)) = w ++ 93%N :: link_tail i d t j ++ q) by (apply (skipn_adv st (opening im)); [exact E0|reflexivity]).
  set (sw := after_words im w st).
  assert (Hsw : steps (length (texts_of w)) (opened im st) sw /\ skipn (ip_pos sw) (ip_subject sw) = 93%N :: link_tail i d t j ++ q).
  { unfold sw. destruct w as [|c w]; cbn [texts_of length after_words]; [split; [intros fu; reflexivity|exact E1]|]. split.
    - apply steps_one. apply (step_run (opened im st) (c :: w) _ E1); [discriminate|apply link_words, Hw| |intros X; change (ip_smart (opened im st)) with (ip_smart st) in X; congruence]. intros x q' X. injection X as <- _. reflexivity.
    - apply (skipn_adv (opened im st) (c :: w)); [exact E1|reflexivity]. }
  destruct Hsw as [S2 E2]. destruct (after_words_fields im w st) as (F1 & F2 & F3 & F4 & F5 & F6). fold sw in F1, F2, F3, F4, F5, F6. rewrite Hb in F5.
  assert (Hk : ip_kids sw = ip_kids st ++ (ip_next st, text_node (opening im)) :: match w with [] => [] | _ => [(S (ip_next st), text_node w)] end /\ ip_next st < ip_next sw).
  { unfold sw. destruct w; cbn [after_words]; unfold opened, addBracket, append_kid, ip_adv; cbn [set_ip_pos set_ip_brackets set_ip_next set_ip_kids ip_kids ip_next]; rewrite <- ?app_assoc; cbn [app]; split; try reflexivity; lia. }
  destruct Hk as [Hk Hnx].
  set (n := length (link_tail i d t j)). set (op := BK (ip_next st) (hd_id (ip_delims st)) (ip_pos st + length (opening im) - 1) im true) in *.
  set (s3 := set_ip_brackets [] (set_ip_next (S (ip_next sw)) (set_ip_kids (ip_kids st ++ [(ip_next sw, link_node im (texts_of w) (dest_of d) (option_map ti_text t))]) (set_ip_delims (ip_delims st) (ip_adv (1 + n) sw))))).
  assert (P : parseInline sw = Ok (true, s3)).
  { unfold parseInline. rewrite (peek_skipn sw _ _ E2). change (N.eqb 93 LF) with false. change (N.eqb 93 92) with false. change (N.eqb 93 96) with false. change (N.eqb 93 42) with false. change (N.eqb 93 95) with false. change (N.eqb 93 39) with false. change (N.eqb 93 34) with false.
    change (N.eqb 93 91) with false. change (N.eqb 93 33) with false. change (N.eqb 93 93) with true. cbv beta iota delta [orb].
    unfold parseCloseBracket. change (ip_brackets (ip_adv 1 sw)) with (ip_brackets sw). rewrite F5. unfold op. cbn [b_active negb]. fold op.
    pose proof (adv_rest sw [93%N] _ 1 E2 eq_refl) as E3. rewrite (tail_piece (ip_adv 1 sw) i d t j q E3 Hdest Ht). cbn [bind]. rewrite adv_adv. fold n.
    unfold make_link. change (ip_kids (ip_adv (1 + n) sw)) with (ip_kids sw). rewrite Hk. unfold op. cbn [b_node b_image b_prevdelim]. rewrite split_kid_at by exact Hf. change (ip_delims (ip_adv (1 + n) sw)) with (ip_delims sw). rewrite F4, emphasis_skip by apply Hd. cbn [bind].
    change (ip_next (ip_adv (1 + n) sw)) with (ip_next sw). unfold s3, link_node, removeBracket. cbn [set_ip_kids set_ip_next set_ip_delims set_ip_brackets ip_adv set_ip_pos ip_brackets]. rewrite F5. cbn [tl map].
    assert (Em : map snd match w with [] => [] | _ => [(S (ip_next st), text_node w)] end = map text_node (texts_of w)) by (destruct w; reflexivity). rewrite Em. destruct im; reflexivity. }
  exists (1 + length (texts_of w) + 1), s3, (ip_next sw). split; [destruct w; cbn; lia|]. split.
  { cbn [piece_text]. rewrite !app_length. cbn [u length]. destruct w; cbn [texts_of length]; lia. }
  split.
  - split; [eapply steps_trans; [eapply steps_trans; [exact S1|exact S2]|apply steps_one, P]|]. unfold s3. cbn [set_ip_kids set_ip_next set_ip_delims set_ip_brackets ip_adv set_ip_pos ip_subject ip_refmap ip_smart ip_delims ip_brackets ip_kids ip_next map fst].
    split; [congruence|]. split; [congruence|]. split; [congruence|]. split; [congruence|]. split; [congruence|]. split; [reflexivity|]. split; [lia|]. split; [repeat constructor; lia|]. repeat constructor. intros [].
  - split; [|split; [reflexivity|]; split; [destruct Hd as [D1 D2]; split; [exact D1|]; eapply Forall_impl; [|exact D2]; unfold s3; cbn [set_ip_kids set_ip_next set_ip_delims set_ip_brackets ip_adv set_ip_pos ip_next]; intros; lia|]; split; [unfold s3; cbn [set_ip_kids set_ip_next set_ip_delims set_ip_brackets ip_adv set_ip_pos ip_smart]; congruence|]].
    + unfold s3. cbn [set_ip_kids set_ip_next set_ip_delims set_ip_brackets ip_adv set_ip_pos ip_subject ip_pos]. apply (skipn_adv sw (93%N :: link_tail i d t j)); [exact E2|reflexivity].
    + unfold fresh, s3. cbn [set_ip_kids set_ip_next set_ip_delims set_ip_brackets ip_adv set_ip_pos ip_kids ip_next]. apply Forall_app. split; [eapply Forall_impl; [|exact Hf]; cbv beta; intros; lia|]. constructor; [cbn; lia|constructor].
Qed.

(** ** One piece *)
Lemma code_text_same t l l' : code_span_text t l -> code_span_text t l' -> l = l'.
Proof.
  unfold code_span_text. set (c := map _ t). intros [A1 A2] [B1 B2].
  assert (D : (exists m, c = 32%N :: m ++ [32%N] /\ exists x, In x m /\ x <> 32%N) \/ (forall m, c = 32%N :: m ++ [32%N] -> Forall (eq 32%N) m)).
  { destruct c as [|a r]; [right; discriminate|]. destruct (N.eq_dec a 32) as [->|Ha]; [|right; intros m X; injection X as X _; congruence].
    destruct r as [|b r]; [right; intros m X; injection X as X; destruct m; discriminate|]. destruct (exists_last (l := b :: r) ltac:(discriminate)) as (m & z & Em). rewrite Em. destruct (N.eq_dec z 32) as [->|Hz]; [|right; intros m' X; injection X as X; apply app_inj_tail in X as [_ X]; congruence].
    destruct (Forall_Exists_dec (eq 32%N) (N.eq_dec 32) m) as [Hf|He]; [right; intros m' X; injection X as X; apply app_inj_tail in X as [<- _]; exact Hf|]. left. exists m. split; [reflexivity|]. apply Exists_exists in He as (x & Hx & Hn). exists x. split; [exact Hx|congruence]. }
  destruct D as [(m & E & X)|D]; [rewrite (A1 m E X), (B1 m E X); reflexivity|rewrite (A2 D), (B2 D); reflexivity].
Qed.
Lemma parse_angle st rest : skipn (ip_pos st) (ip_subject st) = 60%N :: rest -> parseInline st =
  (let* (r, s1) := (let* (b, s1) := parseAutolink st in if b then Ok (b, s1) else parseHtmlTag s1) in if r then Ok (true, s1) else Ok (true, append_kid (text_node [60%N]) (ip_adv 1 s1))).
Proof. intros E. unfold parseInline. rewrite (peek_skipn st _ _ E). reflexivity. Qed.
Lemma parse_amp st rest : skipn (ip_pos st) (ip_subject st) = 38%N :: rest -> parseInline st =
  (let* (r, s1) := parseEntity st in if r then Ok (true, s1) else Ok (true, append_kid (text_node [38%N]) (ip_adv 1 s1))).
Proof. intros E. unfold parseInline. rewrite (peek_skipn st _ _ E). reflexivity. Qed.
Lemma entity_step st g q : skipn (ip_pos st) (ip_subject st) = 38%N :: g ++ q -> RegexLang.L entity_re None (38%N :: g) q -> parseInline st = Ok (true, append_kid (text_node (html_unescape (38%N :: g))) (ip_adv (length (38%N :: g)) st)).
Proof. intros E H. rewrite (parse_amp st _ E). unfold parseEntity. rewrite (match_entity st (38%N :: g) q E H). reflexivity. Qed.
Lemma tag_name_chars n c : tag_name n -> In c n -> word_char c \/ c = 45%N.
Proof. intros (x & r & -> & Hx & Hr) [<-|H]; [left; unfold ascii_letter, word_char in *; lia|]. rewrite Forall_forall in Hr. auto. Qed.
Lemma word_dest c : word_char c -> dest_char c.
Proof. intros H. left. left. exact H. Qed.
Lemma scheme_dest c : scheme_char c -> dest_char c.
Proof. intros [H|H]; [apply word_dest, H|]. left. right. in_list H. destruct H as [<-|[<-|[<-|[]]]]; cbn; auto 20. Qed.
Lemma letter_word c : ascii_letter c -> word_char c.
Proof. unfold ascii_letter, word_char. lia. Qed.
Lemma address_dest scheme rest : (exists c r, scheme = c :: r /\ ascii_letter c /\ 1 <= length r <= 31 /\ Forall scheme_char r) -> Forall dest_char rest -> Forall dest_char (scheme ++ u ":" ++ rest).
Proof.
  intros (c & r & -> & Hc & _ & Hr) Hd. apply Forall_app. split; [|apply Forall_app; split; [|exact Hd]].
  - constructor; [apply word_dest, letter_word, Hc|]. eapply Forall_impl; [|exact Hr]. intros x. apply scheme_dest.
  - constructor; [right; cbn; auto|constructor].
Qed.
Lemma mail_dest name domain : Forall (fun c => word_char c \/ In c (u ".+-_")) name -> Forall SpecPieces.label_ok domain -> Forall dest_char (name ++ u "@" ++ domain_text domain).
Proof.
  intros Hn Hd. apply Forall_app. split; [|apply Forall_app; split].
  - eapply Forall_impl; [|exact Hn]. intros c [H|H]; [apply word_dest, H|]. left. right. in_list H. destruct H as [<-|[<-|[<-|[<-|[]]]]]; cbn; auto 20.
  - constructor; [right; cbn; auto|constructor].
  - destruct domain as [|l ls]; [constructor|]. cbn [domain_text]. apply Forall_app. split; [eapply Forall_impl; [apply word_dest|]; apply (Forall_inv Hd)|]. apply Forall_inv_tail in Hd.
    apply Forall_flat_map. eapply Forall_impl; [|exact Hd]. intros x (_ & _ & Hx). apply Forall_app. split; [|eapply Forall_impl; [apply word_dest|exact Hx]]. constructor; [left; right; cbn; auto 20|constructor].
Qed.
Lemma dest_safe d : Forall dest_char d -> normalize_uri d = Ok d.
Proof. intros H. apply normalize_uri_safe. apply forallb_forall. intros x Hx. rewrite Forall_forall in H. apply (dest_facts x (H x Hx)). Qed.
Lemma dest_never d c : Forall dest_char d -> In c [34; 38; 39; 60; 62; 91; 92; 93]%N -> ~ In c d.
Proof. intros H Hc X. rewrite Forall_forall in H. apply H, dest_facts in X as (_ & _ & N & _). exact (N Hc). Qed.
Lemma chop_angle x : chop_ends (60%N :: x ++ [62%N]) = x.
Proof. unfold chop_ends. cbn [tl]. apply removelast_last. Qed.

Theorem piece_step o p st q : ho_sourcepos o = false -> ho_safe o = false -> piece_ok p -> match p with Code _ _ _ => hd_error q <> Some 96%N | _ => True end -> at_rest st (piece_text p ++ q) ->
  exists m st' K, m <= length (piece_text p) /\ moves m st st' K /\ at_rest st' q /\ shown o (map snd K) (piece_html p).
Proof.
  intros Ho Hs Hp Hq R. pose proof R as (E & _).
  assert (One : forall t, parseInline st = Ok (true, append_kid t (ip_adv (length (piece_text p)) st)) -> shown o [t] (piece_html p) -> exists m st' K, m <= length (piece_text p) /\ moves m st st' K /\ at_rest st' q /\ shown o (map snd K) (piece_html p)).
  { intros t P Sh. destruct (one_kid st (piece_text p) q _ t R eq_refl P) as (st' & G & R'). exists 1, st', [(ip_next st, t)]. split; [|auto]. destruct (piece_text p) as [|x y] eqn:Ep; [|cbn; lia]. exfalso.
    destruct p as [[|n] ? ?| | | | |[] ? ? ? ? ?| | | |]; try discriminate Ep. destruct Hp. lia. }
  destruct p as [n t l|c|ds n|x ds n|name v|im w i d t j|scheme rest|name domain|name attrs gap closed|name gap]; cbn [piece_ok piece_html] in *.
  - destruct Hp as (Hn & Hr & _ & _ & Hl). apply ticks_cond in Hr as (T1 & T2 & T3 & T4). apply (One (code_node l)); [|apply shown_code].
    cbn [piece_text] in *. rewrite <- !app_assoc in E. rewrite (step_code st n t q E Hn T1 T2 T3 (T4 Hn) Hq). rewrite (code_text_same t _ _ (strip_lit_spec t) Hl). do 3 f_equal. rewrite !app_length, !repeat_length. f_equal. lia.
  - apply (One (text_node [c])); [|apply shown_text]. cbn [piece_text length] in *. apply (step_escape st c q E Hp).
  - destruct Hp as [Hl Hn]. apply (One (text_node (html_unescape (u "&#" ++ ds ++ u ";")))).
    + apply (entity_step st (35%N :: ds ++ [59%N]) q E). apply (entity_dec ds n); assumption.
    + unfold html_unescape. rewrite (dec_reference _ ds n); [apply shown_text|destruct ds; [cbn in Hl; lia|discriminate]|exact Hn].
  - destruct Hp as (Hx & Hl & Hn). apply (One (text_node (html_unescape (u "&#" ++ [x] ++ ds ++ u ";")))).
    + apply (entity_step st (35%N :: x :: ds ++ [59%N]) q E). apply (entity_hex x ds n); assumption.
    + unfold html_unescape. rewrite (hex_reference _ x ds n); [apply shown_text|exact Hx|destruct ds; [cbn in Hl; lia|discriminate]|exact Hn].
  - destruct Hp as (Hin & c & r & -> & Hc & Hl & Hr). apply (One (text_node (html_unescape (u "&" ++ (c :: r) ++ u ";")))).
    + apply (entity_step st ((c :: r) ++ [59%N]) q E). apply entity_name; assumption.
    + destruct (table_decodes _ _ Hin) as [X _]; [apply last_snoc|]. change (u "&" ++ (c :: r) ++ u ";") with (38%N :: (c :: r) ++ u ";"). rewrite X. apply shown_text.
  - destruct (link_step st im w i d t j q R Hp) as (m & st' & k & _ & M & G & R'). exists m, st', [(k, link_node im (texts_of w) (dest_of d) (option_map ti_text t))]. split; [exact M|]. split; [exact G|]. split; [exact R'|].
    destruct Hp as (_ & [Hd _] & _). pose proof (shown_link o im (texts_of w) (dest_of d) (option_map ti_text t) Ho Hs (url_text _ Hd)) as Sh. rewrite texts_concat, title_attr in Sh. destruct im; exact Sh.
  - destruct Hp as [Hsc Hd]. pose proof (address_dest scheme rest Hsc Hd) as Ha. set (a := scheme ++ u ":" ++ rest) in *.
    assert (Et : piece_text (Address scheme rest) = 60%N :: a ++ [62%N]) by (cbn [piece_text]; unfold a; rewrite <- !app_assoc; reflexivity).
    apply (One (link_node false [a] a None)).
    + rewrite Et in *. cbn [app] in E. rewrite (parse_angle st _ E). unfold parseAutolink. assert (Nm : ip_match reEmailAutolink st = None).
      { apply (no_mail st scheme 58%N (rest ++ [62%N] ++ q)); [rewrite E; unfold a; rewrite <- !app_assoc; reflexivity|cbn; auto|]. destruct Hsc as (c & r & -> & Hc & _ & Hr). intros [X|X]; [subst c; unfold ascii_letter in Hc; lia|].
        rewrite Forall_forall in Hr. destruct (Hr _ X) as [Y|Y]; [unfold word_char in Y; lia|in_list Y; lia]. }
      rewrite Nm, (match_address st (60%N :: a ++ [62%N]) q E); [|rewrite <- Et; apply address_L; assumption]. rewrite chop_angle, (dest_safe a Ha). reflexivity.
    + pose proof (shown_link o false [a] a None Ho Hs (url_text _ Ha)) as Sh. cbn [concat] in Sh. rewrite app_nil_r, (url_text a Ha) in Sh. change (attr_title None) with (@nil N) in Sh. unfold a in Sh |- *. rewrite <- ?app_assoc in Sh. rewrite <- ?app_assoc. exact Sh.
  - destruct Hp as (Hn & Hf & Hdo & Hl). pose proof (mail_dest name domain Hf Hl) as Ha. set (a := name ++ u "@" ++ domain_text domain) in *.
    assert (Et : piece_text (Mail name domain) = 60%N :: a ++ [62%N]) by (cbn [piece_text]; unfold a; rewrite <- !app_assoc; reflexivity).
    assert (Hm : Forall dest_char (u "mailto:" ++ a)) by (apply Forall_app; split; [|exact Ha]; repeat (constructor; [first [apply word_dest; unfold word_char; lia|right; cbn; auto]|]); constructor).
    apply (One (link_node false [a] (u "mailto:" ++ a) None)).
    + rewrite Et in *. cbn [app] in E. rewrite (parse_angle st _ E). unfold parseAutolink. rewrite (match_mail st (60%N :: a ++ [62%N]) q E); [|rewrite <- Et; apply mail_L; assumption]. rewrite chop_angle, (dest_safe _ Hm). reflexivity.
    + pose proof (shown_link o false [a] (u "mailto:" ++ a) None Ho Hs (url_text _ Hm)) as Sh. cbn [concat] in Sh. rewrite app_nil_r, (url_text a Ha) in Sh. change (attr_title None) with (@nil N) in Sh. unfold a in Sh |- *. rewrite <- ?app_assoc in Sh. rewrite <- ?app_assoc. exact Sh.
  - destruct Hp as [Hn Ha]. apply (One (T (set_n_literal (Some (piece_text (Opening name attrs gap closed))) (new_node html_inline None)) [])); [|apply shown_tag, Hs].
    assert (Hc : forall c, In c [58; 64]%N -> ~ In c name). { intros c Hc X. apply (tag_name_chars name c Hn) in X. unfold word_char in X. cbn [In] in Hc. lia. }
    assert (Hy : exists y z, flat_map attr_written attrs ++ repeat 32%N gap ++ (if closed then u "/" else []) ++ u ">" = y :: z /\ (In y [32; 62]%N \/ (y = 47%N /\ z = [62%N]))).
    { destruct attrs as [|a attrs]; cbn [flat_map app].
      - destruct gap as [|gap]; cbn [repeat app]; [destruct closed; cbn [u app]; eexists; eexists; (split; [reflexivity|]); [right; auto|left; cbn; auto]|eexists; eexists; split; [reflexivity|left; cbn; auto]].
      - apply Forall_inv in Ha as (Hg & _). unfold attr_written at 1. destruct (at_gap a) as [|g]; [lia|]. cbn [repeat app]. eexists; eexists; split; [reflexivity|left; cbn; auto]. }
    destruct Hy as (y & z & Ey & Hy). assert (E' : skipn (ip_pos st) (ip_subject st) = 60%N :: name ++ y :: (z ++ q)).
    { rewrite E. cbn [piece_text]. rewrite <- !app_assoc. cbn [u app]. f_equal. f_equal. change (y :: z ++ q) with ((y :: z) ++ q). rewrite <- Ey. rewrite <- !app_assoc. reflexivity. }
    rewrite (parse_angle st _ E'). unfold parseAutolink. assert (Nm : ip_match reEmailAutolink st = None).
    { destruct Hy as [Hy|[-> ->]]; [apply (no_mail st name y (z ++ q) E'); [cbn [In] in *; tauto|apply Hc; cbn; auto]|]. apply (no_mail st (name ++ [47%N]) 62%N q); [rewrite E', <- app_assoc; reflexivity|cbn; auto|]. rewrite in_app_iff. intros [X|[X|[]]]; [revert X; apply Hc; cbn; auto|discriminate]. }
    rewrite Nm, (no_address st name y (z ++ q) E'); [|clear -Hy; cbn [In] in *; intuition auto|apply Hc; cbn; auto]. cbn [bind]. unfold parseHtmlTag. rewrite (match_open st name attrs gap closed q Hn Ha E). reflexivity.
  - apply (One (T (set_n_literal (Some (piece_text (Closing name gap))) (new_node html_inline None)) [])); [|apply shown_tag, Hs].
    assert (Hc : forall c, In c [58; 64]%N -> ~ In c name). { intros c Hc X. apply (tag_name_chars name c Hp) in X. unfold word_char in X. cbn [In] in Hc. lia. }
    assert (Hy : exists y z, repeat 32%N gap ++ u ">" = y :: z /\ In y [32; 62]%N) by (destruct gap as [|gap]; cbn [repeat u app]; eexists; eexists; (split; [reflexivity|]); cbn; auto).
    destruct Hy as (y & z & Ey & Hy). assert (E' : skipn (ip_pos st) (ip_subject st) = 60%N :: (47%N :: name) ++ y :: (z ++ q)).
    { rewrite E. cbn [piece_text]. rewrite <- !app_assoc. cbn [u app]. do 3 f_equal. change (y :: z ++ q) with ((y :: z) ++ q). rewrite <- Ey. rewrite <- !app_assoc. reflexivity. }
    rewrite (parse_angle st _ E'). unfold parseAutolink. rewrite (no_mail st (47%N :: name) y (z ++ q) E'); [|cbn [In] in *; tauto|intros [X|X]; [discriminate|revert X; apply Hc; cbn; auto]].
    rewrite (no_address st (47%N :: name) y (z ++ q) E'); [|cbn [In] in *; tauto|intros [X|X]; [discriminate|revert X; apply Hc; cbn; auto]]. cbn [bind]. unfold parseHtmlTag. rewrite (match_close st name gap q Hp E). reflexivity.
Qed.

(** ** The line *)
Lemma piece_starts p : piece_ok p -> exists c r, piece_text p = c :: r /\ In c [96; 92; 38; 91; 33; 60]%N.
Proof.
  destruct p as [[|n] ? ?| | | | |[] ? ? ? ? ?| | | |]; cbn [piece_ok piece_text repeat u app]; intros H; try (eexists; eexists; split; [reflexivity|cbn; auto 10]). destruct H. lia.
Qed.
Lemma pieces_start l : pieces_ok l -> forall c q, pieces_text l = c :: q -> In c [96; 92; 38; 91; 33; 60]%N.
Proof. destruct l as [|[p w] l]; [discriminate|]. intros (Hp & _) c q. apply piece_starts in Hp as (x & r & E & Hx). unfold pieces_text. cbn [flat_map fst snd]. rewrite E. cbn [app]. intros X. injection X as <- _. exact Hx. Qed.
Lemma special_starts c : In c [96; 92; 38; 91; 33; 60]%N -> main_special c = true.
Proof. intros [<-|[<-|[<-|[<-|[<-|[<-|[]]]]]]]; reflexivity. Qed.
Theorem pieces_steps o l : ho_sourcepos o = false -> ho_safe o = false -> forall st, pieces_ok l -> at_rest st (pieces_text l) ->
  exists m st' K, m <= length (pieces_text l) /\ moves m st st' K /\ at_rest st' [] /\ shown o (map snd K) (flat_map (fun x => piece_html (fst x) ++ html_text (snd x)) l).
Proof.
  intros Ho Hs. induction l as [|[p w] l IH]; intros st Hok R.
  - exists 0, st, []. split; [cbn; lia|]. split; [apply moves_nil|]. split; [exact R|]. apply shown_nil.
  - destruct Hok as (Hp & Hw & Hq & H33 & Hok). unfold pieces_text in *. cbn [flat_map fst snd] in *. fold (pieces_text l) in *. rewrite <- app_assoc in R.
    destruct (piece_step o p st (w ++ pieces_text l) Ho Hs Hp Hq R) as (m1 & st1 & K1 & M1 & G1 & R1 & S1).
    destruct (words_steps (pieces_text l) (fun c q' X => special_starts c (pieces_start l Hok c q' X)) (length w) w st1 (le_n _) R1 (words_tame w Hw) H33) as (m2 & st2 & K2 & ls & M2 & G2 & Ek2 & C2 & R2).
    destruct (IH st2 Hok R2) as (m3 & st3 & K3 & M3 & G3 & R3 & S3).
    exists (m1 + m2 + m3), st3, ((K1 ++ K2) ++ K3). split; [rewrite !app_length; lia|]. split; [eapply moves_trans; [eapply moves_trans; eassumption|exact G3]|]. split; [exact R3|].
    rewrite !map_app. apply shown_app; [|exact S3]. apply shown_app; [exact S1|]. rewrite Ek2, <- C2. apply shown_texts.
Qed.

Definition clean (l : str) : Prop := forall c, In c l -> ~ In c [10; 13; 0]%N.
Lemma clean_app a b : clean a -> clean b -> clean (a ++ b).
Proof. intros Ha Hb c Hc. apply in_app_iff in Hc as [Hc|Hc]; [apply Ha, Hc|apply Hb, Hc]. Qed.
Lemma clean_nil : clean [].
Proof. intros c []. Qed.
Lemma clean_cons c l : ~ In c [10; 13; 0]%N -> clean l -> clean (c :: l).
Proof. intros Hc Hl x [<-|Hx]; [exact Hc|apply Hl, Hx]. Qed.
Lemma clean_repeat c n : ~ In c [10; 13; 0]%N -> clean (repeat c n).
Proof. intros Hc x Hx. apply repeat_spec in Hx as ->. exact Hc. Qed.
Lemma clean_all (P : N -> Prop) l : (forall c, P c -> ~ In c [10; 13; 0]%N) -> Forall P l -> clean l.
Proof. intros H HF c Hc. rewrite Forall_forall in HF. apply H, HF, Hc. Qed.
Lemma ordinary_clean c : ordinary_char c -> ~ In c [10; 13; 0]%N.
Proof. unfold ordinary_char. intros H X. apply H. apply in_app_iff. left. exact X. Qed.
Lemma dest_clean c : dest_char c -> ~ In c [10; 13; 0]%N.
Proof. intros H X. apply dest_facts in H as (H & _). cbn [In] in X. lia. Qed.
Lemma word_clean c : word_char c -> ~ In c [10; 13; 0]%N.
Proof. unfold word_char. cbn [In]. lia. Qed.
Lemma number_clean f b ds : (forall c v, f c = Some v -> ~ In c [10; 13; 0]%N) -> forall a n, number_of f b a ds = Some n -> clean ds.
Proof.
  intros Hf. induction ds as [|d ds IH]; intros a n; [intros _; apply clean_nil|]. cbn [number_of]. destruct (f d) as [v|] eqn:E; [|discriminate]. intros H. apply clean_cons; [eapply Hf, E|eapply IH, H].
Qed.
Lemma clean_spec l : clean l <-> no_eol l /\ ~ In 0%N l.
Proof.
  split.
  - intros H. split; [|intros X; apply (H _ X); cbn; auto]. intros c Hc. apply H in Hc. cbn [In] in Hc. split; intros ->; tauto.
  - intros [H1 H2] c Hc X. cbn [In] in X. destruct X as [<-|[<-|[<-|[]]]]; [destruct (H1 _ Hc)|destruct (H1 _ Hc)|]; congruence.
Qed.
Lemma value_clean v : value_ok v -> clean (value_text v).
Proof.
  destruct v as [w|m w]; cbn [value_ok value_text].
  - intros [_ H]. eapply clean_all; [|exact H]. cbv beta. intros c (H1 & H2 & H3 & _). cbn [In]. lia.
  - intros (Hm & _ & H1 & H2). assert (Hm' : ~ In m [10; 13; 0]%N) by (cbn [In]; lia). cbn [app]. apply clean_cons; [exact Hm'|]. apply clean_app; [apply clean_spec; auto|apply clean_cons; [exact Hm'|apply clean_nil]].
Qed.
Ltac cleans := repeat (apply clean_app || apply clean_nil || (apply clean_repeat; cbn [In]; lia) || (apply clean_cons; [cbn [In]; lia|])).
Lemma attr_clean a : attr_ok a -> clean (attr_written a).
Proof.
  intros (_ & (c & r & En & Hc & Hr) & Hv). unfold attr_written. cleans.
  - rewrite En. apply clean_cons; [destruct Hc as [Hc|Hc]; [apply word_clean, letter_word, Hc|in_list Hc; cbn [In]; lia]|]. eapply clean_all; [|exact Hr]. cbv beta. intros x [H|H]; [apply word_clean, H|in_list H; cbn [In]; lia].
  - destruct (at_value a) as [[[i j] v]|]; cleans. apply value_clean, Hv.
Qed.
Lemma name_clean n : tag_name n -> clean n.
Proof. intros (c & r & -> & Hc & Hr). apply clean_cons; [apply word_clean, letter_word, Hc|]. eapply clean_all; [|exact Hr]. cbv beta. intros x [H| ->]; [apply word_clean, H|cbn [In]; lia]. Qed.
Lemma piece_clean p : piece_ok p -> clean (piece_text p).
Proof.
  destruct p as [n t l|c|ds n|x ds n|name v|im w i d t j|scheme rest|name domain|name attrs gap closed|name gap]; cbn [piece_ok piece_text]; intros H.
  - destruct H as (_ & _ & H1 & H2 & _). cleans. apply clean_spec. auto.
  - cleans. apply clean_cons; [|apply clean_nil]. unfold ascii_punct in H. cbn [In]. intros [<-|[<-|[<-|[]]]]; discriminate H.
  - destruct H as [_ H]. cleans. eapply number_clean; [|exact H]. intros c v X. unfold dec_digit in X. cbn [In]. intros [<-|[<-|[<-|[]]]]; discriminate X.
  - destruct H as (Hx & _ & H). cleans. eapply number_clean; [|exact H]. intros c v X. cbn [In]. intros [<-|[<-|[<-|[]]]]; discriminate X.
  - destruct H as (_ & c & r & -> & Hc & _ & Hr). cleans. apply clean_cons; [apply word_clean, letter_word, Hc|]. eapply clean_all; [apply word_clean|exact Hr].
  - destruct H as (Hw & [Hd _] & Ht). assert (Hd' : clean (dest_of d)) by (eapply clean_all; [apply dest_clean|exact Hd]). cleans.
    + destruct im; cleans.
    + eapply clean_all; [|exact Hw]. intros c [X _]. apply ordinary_clean, X.
    + destruct d as [d|d]; cbn [dest_text dest_of] in *; cleans; exact Hd'.
    + destruct t as [t|]; [|apply clean_nil]. destruct Ht as (_ & Hm & Hf). cbn [title_text]. cleans; [|eapply clean_all; [|exact Hf]; intros c [X _]; apply ordinary_clean, X|];
        (apply clean_cons; [|apply clean_nil]); cbn [In] in Hm; destruct Hm as [E|[E|[E|[]]]]; injection E as E1 E2; cbn [In]; lia.
  - destruct H as [H1 H2]. change (clean (u "<" ++ (scheme ++ u ":" ++ rest ++ u ">"))). pose proof (address_dest _ _ H1 H2) as A. cleans. 
    + eapply clean_all; [apply dest_clean|]. apply Forall_app in A as [A _]. exact A.
    + eapply clean_all; [apply dest_clean|exact H2].
  - destruct H as (_ & H1 & _ & H2). pose proof (mail_dest _ _ H1 H2) as A. apply Forall_app in A as [A B]. apply Forall_app in B as [_ B]. cleans; (eapply clean_all; [apply dest_clean|assumption]).
  - destruct H as [H1 H2]. cleans; [apply name_clean, H1| |destruct closed; cleans].
    intros c Hc. apply in_flat_map in Hc as (a & Ha & Hc). rewrite Forall_forall in H2. apply (attr_clean a (H2 a Ha) c Hc).
  - cleans. apply name_clean, H.
Qed.
Lemma pieces_clean l : pieces_ok l -> clean (pieces_text l).
Proof.
  induction l as [|[p w] l IH]; [intros _; apply clean_nil|]. intros (Hp & Hw & _ & _ & Hok). unfold pieces_text. cbn [flat_map fst snd]. fold (pieces_text l). apply clean_app; [apply clean_app; [apply piece_clean, Hp|]|apply IH, Hok].
  eapply clean_all; [apply ordinary_clean|exact Hw].
Qed.
Lemma no_number w q : ~ list_number w -> (forall c q', q = c :: q' -> In c [96; 92; 38; 91; 33; 60]%N) -> ~ list_number (w ++ q).
Proof.
  intros Hw Hq (ds & x & r & E & Hne & Hd & Hx & Hr). apply Hw. apply app_split in E as (l & [[E1 E2]|[E1 E2]]).
  - destruct l as [|y l]; cbn [app] in E2.
    + rewrite app_nil_r in E1. subst. specialize (Hq x r eq_refl). cbn [In] in Hq. lia.
    + injection E2 as <- E2. subst w r. exists ds, x, l. split; [reflexivity|]. split; [exact Hne|]. split; [exact Hd|]. split; [exact Hx|]. destruct l as [|z l]; [auto|]. right. destruct Hr as [Hr|Hr]; [discriminate|exact Hr].
  - exfalso. destruct l as [|y l]; cbn [app] in E2; [specialize (Hq x r E2); cbn [In] in Hq; lia|]. specialize (Hq y (l ++ x :: r) E2). subst ds. apply Forall_app in Hd as [_ Hd]. apply Forall_inv in Hd.
    cbn [In] in Hq. destruct Hq as [<-|[<-|[<-|[<-|[<-|[<-|[]]]]]]]; discriminate Hd.
Qed.

Theorem pieces_md o w l : ho_sourcepos o = false -> ho_safe o = false -> line_ok w l -> md_to_html false o (w ++ pieces_text l) = Ok (u "<p>" ++ line_html w l ++ u "</p>" ++ [10%N]).
Proof.
  intros Ho Hs (Hne & Hw & Hh & Hn & H33 & Hok & Hl). set (s := w ++ pieces_text l) in *.
  assert (Hc : clean s) by (apply clean_app; [eapply clean_all; [apply ordinary_clean|exact Hw]|apply pieces_clean, Hok]). apply clean_spec in Hc as [He H0].
  destruct w as [|c r]; [congruence|]. destruct (Hh c eq_refl) as [Hsp Hb].
  assert (Hst : no_start s).
  { apply no_start_text; [|exact (no_number (c :: r) (pieces_text l) Hn (pieces_start l Hok))]. unfold start_char. destruct (existsb _ _) eqn:E; [|reflexivity]. exfalso. apply Hb. apply existsb_exists in E as (y & Hy & E). apply N.eqb_eq in E as ->. exact Hy. }
  destruct (line_para false s (fun k => shown o k (line_html (c :: r) l))) as (dd & pd & k & P & D1 & D2 & _ & Sh).
  - discriminate.
  - exact He.
  - exact H0.
  - intros y Hy. injection Hy as <-. split; [exact Hsp|]. intros ->. apply Forall_inv in Hw. apply Hw. cbn; auto 20.
  - exact Hl.
  - exact Hst.
  - intros rm st. assert (R : at_rest st s) by (unfold at_rest, st, fresh; cbn [ip_pos ip_subject ip_brackets ip_delims ip_smart ip_kids skipn map]; repeat (split; [try reflexivity; constructor; constructor|]); constructor).
    destruct (words_steps (pieces_text l) (fun c q' X => special_starts c (pieces_start l Hok c q' X)) (length (c :: r)) (c :: r) st (le_n _) R (words_tame _ Hw) H33) as (m1 & st1 & K1 & ls & M1 & G1 & Ek1 & C1 & R1).
    destruct (pieces_steps o l Ho Hs st1 Hok R1) as (m2 & st2 & K & M2 & G2 & R2 & S2). pose proof (moves_trans _ _ _ _ _ _ _ G1 G2) as (Gs & _ & _ & _ & Ed & _ & Gk & _). destruct R2 as (E2 & _).
    exists st2, (ip_delims st2), (ip_kids st2), (ip_next st2). split; [|split].
    + replace (S (length s)) with (m1 + m2 + S (length s - (m1 + m2))) by (unfold s in *; rewrite app_length in *; lia). rewrite Gs. apply loop_end, E2.
    + rewrite Ed. apply emphasis_none.
    + rewrite Gk. change (ip_kids st) with (@nil (nat * tree)). cbn [app]. rewrite map_app. unfold line_html. apply shown_app; [|exact S2]. rewrite Ek1, <- C1. apply shown_texts.
  - unfold md_to_html. rewrite P. cbn [bind]. apply (para_html o dd pd k _ Ho D1 D2). intros st Hd.
    destruct (Sh [pd; dd] st Hd) as (x & ->). exists x. rewrite Hd. reflexivity.
Qed.
