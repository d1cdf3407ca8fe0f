(** * Lines with emphasis: no text is lost (C28) *)
From Verif Require Import Base Regex Common NormRef Node Inlines Blocks Html Main RegexFacts StrFacts Spec SpecTree SpecSame
  TreeFacts CommonFacts StrProp EmphFacts InlineFacts InlineInv HtmlFacts RenderFacts BlockFacts LineFacts ParseFacts Sim SimFacts SameHtml DocFacts TextFacts WordFacts.
From Coq Require Import ZifyBool ZifyNat ZifyN.

Definition emph_line_char (c : N) : bool := tame c || N.eqb c 42 || N.eqb c 95.
Lemma handle_emph s c g q : N.eqb c 42 || N.eqb c 95 = true -> skipn (ip_pos s) (ip_subject s) = g ++ q -> g <> [] -> forallb (N.eqb c) g = true -> hd_error q <> Some c ->
  exists co cc, handleDelim c s = Ok (true, set_ip_delims (DL c (length g) (length g) (ip_next s) co cc :: ip_delims s) (append_kid (text_node g) (ip_adv (length g) s))).
Proof.
  intros Hc E Hg Ha Hq. unfold handleDelim, scanDelims. rewrite E. assert (C1 : N.eqb c 39 = false) by lia. assert (C2 : N.eqb c 34 = false) by lia. rewrite C1, C2. cbn [orb].
  destruct (take_while_app_stop (N.eqb c) g q Ha) as [E1 _]; [intros x q' ->; apply N.eqb_neq; intros <-; apply Hq; reflexivity|]. rewrite E1.
  destruct (Nat.eqb_spec (length g) 0) as [Z|_]; [destruct g; [congruence|discriminate Z]|].
  match goal with |- context [let '(a, b) := ?x in Some (_, a, b)] => destruct x as [co cc] end. exists co, cc.
  assert (Es : slice (ip_pos s) (ip_pos (ip_adv (length g) s)) (ip_subject (ip_adv (length g) s)) = g).
  { unfold slice. cbn [ip_adv set_ip_pos ip_pos ip_subject]. rewrite E. replace (ip_pos s + length g - ip_pos s) with (length g) by lia. rewrite firstn_app, firstn_all, Nat.sub_diag. apply app_nil_r. }
  rewrite Es. reflexivity.
Qed.
Record einv (done : str) (s : ip) : Prop := {
  ei_nodup : NoDup (ids (ip_kids s));
  ei_ids : Forall (fun i => i < ip_next s) (ids (ip_kids s));
  ei_marked : marked (map MD (rev (ip_delims s))) (ip_kids s);
  ei_emph : Forall (fun d => is_emph_char (d_cc d)) (ip_delims s);
  ei_writes : writes_all (map snd (ip_kids s)) (map TChar done);
  ei_brackets : ip_brackets s = [];
  ei_smart : ip_smart s = false }.
Lemma einv_add done s n g : einv done s -> einv (done ++ g) (append_kid (text_node g) (ip_adv n s)).
Proof.
  intros [H1 H2 H3 H4 H5 H6 H7]. unfold append_kid, ip_adv. constructor; cbn [set_ip_pos set_ip_next set_ip_kids ip_kids ip_next ip_delims ip_brackets ip_smart]; try assumption.
  - rewrite ids_app. cbn. apply NoDup_insert; rewrite app_nil_r; [exact H1|]. intros X. rewrite Forall_forall in H2. apply H2 in X. lia.
  - rewrite ids_app. apply Forall_app. split; [eapply Forall_impl; [|exact H2]; cbn; lia|repeat constructor].
  - apply marked_post, H3.
  - rewrite !map_app. apply writes_all_app; [exact H5|]. cbn [map snd]. rewrite <- (app_nil_r (map TChar g)). constructor; [apply writes_text_node|constructor].
Qed.
Lemma einv_delim done s c g co cc : is_emph_char c -> g <> [] -> forallb (N.eqb c) g = true -> einv done s ->
  einv (done ++ g) (set_ip_delims (DL c (length g) (length g) (ip_next s) co cc :: ip_delims s) (append_kid (text_node g) (ip_adv (length g) s))).
Proof.
  intros Hc Hg Ha H. pose proof (einv_add done s (length g) g H) as [H1 H2 H3 H4 H5 H6 H7]. constructor; cbn [set_ip_delims ip_kids ip_next ip_delims ip_brackets ip_smart]; try assumption.
  - cbn [rev]. rewrite map_app. apply marked_app. unfold append_kid, ip_adv. cbn [set_ip_pos set_ip_next set_ip_kids ip_kids ip_next]. exists (ip_kids s), [(ip_next s, text_node g)]. split; [reflexivity|]. split; [apply (ei_marked _ _ H)|].
    cbn [map]. apply (marked_cons (MD (DL c (length g) (length g) (ip_next s) co cc)) [] (text_node g) [] []); [|constructor]. exists g. split; [reflexivity|]. left. cbn [d_cc d_num]. split; [exact Hc|]. split; [destruct g; [congruence|cbn; lia]|].
    apply Forall_eq_repeat, Forall_forall. intros x Hx. rewrite forallb_forall in Ha. apply Ha, N.eqb_eq in Hx. exact Hx.
  - constructor; [exact Hc|exact H4].
Qed.
Lemma emph_loop : forall n s st fu done, length s <= n -> skipn (ip_pos st) (ip_subject st) = s -> forallb emph_line_char s = true -> einv done st -> length s < fu ->
  exists st', inline_loop fu st = Ok st' /\ einv (done ++ s) st'.
Proof.
  induction n as [|n IH]; intros s st fu done Hn E Ht Hi Hf; (destruct fu as [|fu]; [lia|]).
  - destruct s; [|cbn in Hn; lia]. exists st. split; [apply loop_end; exact E|]. rewrite app_nil_r. exact Hi.
  - destruct s as [|c s]; [exists st; split; [apply loop_end; exact E|]; rewrite app_nil_r; exact Hi|]. pose proof Ht as Ht0. cbn [forallb] in Ht. apply andb_true_iff in Ht as [Hc Ht].
    destruct (N.eqb c 42 || N.eqb c 95) eqn:Ee.
    + set (g := take_while (N.eqb c) (c :: s)). set (q := drop_while (N.eqb c) (c :: s)). assert (Es : c :: s = g ++ q) by (symmetry; apply take_drop_while).
      assert (Hg : g <> []) by (unfold g; cbn [take_while]; rewrite N.eqb_refl; discriminate). assert (Hf' : forallb (N.eqb c) g = true) by apply take_while_all.
      assert (Hq : hd_error q <> Some c). { destruct q as [|x q'] eqn:Eq; [discriminate|]. intros X. injection X as ->. apply drop_while_head in Eq. rewrite N.eqb_refl in Eq. discriminate. }
      clearbody g q. assert (Hem : is_emph_char c) by (unfold is_emph_char; lia). rewrite Es in E. destruct (handle_emph st c g q Ee E Hg Hf' Hq) as (co & cc & Eh).
      set (st1 := set_ip_delims (DL c (length g) (length g) (ip_next st) co cc :: ip_delims st) (append_kid (text_node g) (ip_adv (length g) st))) in *.
      assert (Est : parseInline st = Ok (true, st1)).
      { unfold parseInline. rewrite (peek_skipn st c s) by (rewrite E; symmetry; exact Es). assert (C1 : N.eqb c LF = false) by (unfold LF; lia). assert (C2 : N.eqb c 92 = false) by lia. assert (C3 : N.eqb c 96 = false) by lia. rewrite C1, C2, C3, Ee, Eh. reflexivity. }
      rewrite (loop_step _ _ _ Est). assert (0 < length g) by (destruct g; [congruence|cbn; lia]). assert (Hl : length (c :: s) = length g + length q) by (rewrite Es; apply app_length). rewrite Es, forallb_app in Ht0. apply andb_true_iff in Ht0 as [_ Ht0].
      destruct (IH q st1 fu (done ++ g)) as (st' & G1 & G2); [lia| |exact Ht0|apply einv_delim; assumption|lia|].
      { unfold st1. cbn [set_ip_delims append_kid ip_adv set_ip_pos set_ip_next set_ip_kids ip_subject ip_pos]. apply (skipn_adv st g); [exact E|reflexivity]. }
      exists st'. split; [exact G1|]. rewrite Es, app_assoc. exact G2.
    + assert (Htc : tame c = true) by (unfold emph_line_char in Hc; lia). destruct (main_special c) eqn:Ec.
      * assert (Hq : hd_error s <> Some 91%N) by (intros X; destruct s as [|d s]; [discriminate|]; injection X as ->; cbn [forallb] in Ht; discriminate Ht).
        rewrite (loop_step _ _ _ (step_single st c s E (tame_main c Htc Ec) (ei_brackets _ _ Hi) (ei_smart _ _ Hi) Hq)).
        destruct (IH s (append_kid (text_node [c]) (ip_adv 1 st)) fu (done ++ [c])) as (st' & G1 & G2); [cbn in Hn; lia| |exact Ht|apply einv_add, Hi|cbn in Hf; lia|].
        { cbn [append_kid ip_adv set_ip_pos set_ip_next set_ip_kids ip_subject ip_pos]. apply (skipn_adv st [c]); [exact E|reflexivity]. }
        exists st'. split; [exact G1|]. rewrite <- app_assoc in G2. exact G2.
      * set (f := fun c => negb (main_special c)). set (g := take_while f (c :: s)). set (q := drop_while f (c :: s)). assert (Es : c :: s = g ++ q) by (symmetry; apply take_drop_while).
        assert (Hg : g <> []) by (unfold g; cbn [take_while]; unfold f at 1; rewrite Ec; discriminate). assert (Hf' : forallb f g = true) by apply take_while_all.
        assert (Hq : forall x q', q = x :: q' -> main_special x = true) by (intros x q' Eq; unfold q in Eq; apply drop_while_head in Eq; unfold f in Eq; destruct (main_special x); [reflexivity|discriminate]).
        clearbody g q. rewrite Es in E. pose proof (ei_smart _ _ Hi) as Hs.
        rewrite (loop_step _ _ _ (step_run st g q E Hg Hf' Hq ltac:(intros X; congruence))).
        assert (0 < length g) by (destruct g; [congruence|cbn; lia]). assert (Hl : length (c :: s) = length g + length q) by (rewrite Es; apply app_length). rewrite Es, forallb_app in Ht0. apply andb_true_iff in Ht0 as [_ Ht0].
        destruct (IH q (append_kid (text_node g) (ip_adv (length g) st)) fu (done ++ g)) as (st' & G1 & G2); [lia| |exact Ht0|apply einv_add, Hi|lia|].
        { cbn [append_kid ip_adv set_ip_pos set_ip_next set_ip_kids ip_subject ip_pos]. apply (skipn_adv st g); [exact E|reflexivity]. }
        exists st'. split; [exact G1|]. rewrite Es, app_assoc. exact G2.
Qed.
Lemma emph_final done st : einv done st -> exists ks n, processEmphasis None (ip_delims st) (ip_kids st) (ip_next st) = Ok ([], ks, n) /\ writes_all (map snd ks) (map TChar done).
Proof.
  intros [H1 H2 H3 H4 H5 H6 H7]. pose proof (marked_NoDup _ _ H3 H1) as Hnd. rewrite map_map in Hnd. cbn [mark_id] in Hnd. rewrite map_rev in Hnd. apply NoDup_rev in Hnd. rewrite rev_involutive in Hnd.
  destruct (processEmphasis_spec (fun _ => True) (fun _ _ => I) (fun _ _ => I) (fun _ _ _ _ => I) (fun _ _ => I) eq False (fun a => eq_refl) (fun a b c E1 E2 => eq_trans E1 E2) (fun F => match F with end) None (ip_delims st) [] (ip_kids st) (ip_next st) (map TChar done)) as (ks & nx & E & _ & _ & _ & _ & w & Hw & He).
  - reflexivity.
  - rewrite app_nil_r. exact Hnd.
  - exact H3.
  - exact H1.
  - exact H2.
  - apply Forall_forall. intros; exact I.
  - eapply Forall_impl; [|exact H4]. intros d Hd Hq. unfold is_emph_char, is_quote_char in *. lia.
  - exists (map TChar done). split; [exact H5|]. clear. induction (map TChar done); constructor; auto.
  - rewrite app_nil_r in E. exists ks, nx. split; [exact E|]. replace (map TChar done) with w; [exact Hw|]. symmetry. clear -He. induction He; congruence.
Qed.
(** the inline parser on any such content *)
Theorem emph_inlines content s : ip_smart s = false -> forallb emph_line_char (strip content) = true ->
  exists ks s', parseInlines content s = Ok (ks, s') /\ writes_all ks (map TChar (strip content)).
Proof.
  intros Hs Ht. unfold parseInlines. destruct (emph_loop (length (strip content)) (strip content) (IP (strip content) 0 (ip_refmap s) (ip_smart s) [] [] [] 0) (S (length (strip content))) []) as (st' & -> & Hi); [lia|reflexivity|exact Ht| |lia|].
  - constructor; cbn; try constructor. exact Hs.
  - cbn [bind]. destruct (emph_final _ _ Hi) as (ks & n & -> & Hw). cbn [bind]. eexists _, _. split; [reflexivity|exact Hw].
Qed.
(** a document of one such line *)
Theorem emph_line l : l <> [] -> Forall (fun c => ordinary_char c \/ c = 42%N \/ c = 95%N) l -> (forall c, hd_error l = Some c -> is_space c = false) -> (forall c, last_opt l = Some c -> is_space c = false) -> no_start l ->
  exists dd pd ks, parse_doc false l = Ok (T dd [T pd ks]) /\ n_t dd = document /\ n_t pd = paragraph /\ writes_all ks (map TChar l).
Proof.
  intros Hne Hp Hh Hl Hn. assert (Hin : forall x, In x l -> ~ In x [10; 13; 0; 96; 91; 92; 60; 38]%N).
  { intros x Hx. rewrite Forall_forall in Hp. specialize (Hp x Hx). intros X. destruct Hp as [Hp|[-> | ->]]; [|cbn in X; intuition discriminate|cbn in X; intuition discriminate]. apply Hp. change ([10; 13; 0] ++ u "`[\<&*_")%N with ([10; 13; 0; 96; 91; 92; 60; 38] ++ [42; 95])%N. apply in_or_app. left. exact X. }
  destruct (line_para false l (fun k => writes_all k (map TChar l)) Hne) as (dd & pd & k & E & D1 & D2 & _ & Hw); try assumption.
  - intros x Hx. apply Hin in Hx. cbn [In] in Hx. split; intros ->; apply Hx; tauto.
  - intros Hx. apply Hin in Hx. cbn [In] in Hx. tauto.
  - intros c Hc. split; [apply Hh, Hc|]. intros ->. destruct l as [|x l]; [discriminate|]. injection Hc as ->. apply (Hin 91%N); cbn [In]; tauto.
  - intros rm st. destruct (emph_loop (length l) l st (S (length l)) []) as (st' & E & Hi); [lia|reflexivity| | |lia|].
    + apply forallb_forall. intros x Hx. rewrite Forall_forall in Hp. specialize (Hp x Hx). unfold emph_line_char. destruct Hp as [Hp|[-> | ->]]; [|reflexivity|reflexivity].
      pose proof (plain_tame [x] (Forall_cons _ Hp (Forall_nil _))) as X. cbn [forallb] in X. rewrite andb_true_r in X. rewrite X. reflexivity.
    + constructor; cbn; constructor.
    + destruct (emph_final _ _ Hi) as (ks & n & E2 & Hw). exists st', [], ks, n. split; [exact E|]. split; [exact E2|exact Hw].
  - exists dd, pd, k. auto.
Qed.
(** any content at all: the last pairing of delimiters *)
Theorem pairing_any content s st : Forall code_point content -> refs_ok code_point (ip_refmap s) ->
  inline_loop (S (length (strip content))) (IP (strip content) 0 (ip_refmap s) (ip_smart s) [] [] [] 0) = Ok st ->
  exists ks n s', processEmphasis None (ip_delims st) (ip_kids st) (ip_next st) = Ok ([], ks, n) /\ parseInlines content s = Ok (map snd ks, s') /\
    (exists w, writes_all (map snd (ip_kids st)) w) /\ forall w, writes_all (map snd (ip_kids st)) w -> exists w', writes_all (map snd ks) w' /\ Forall2 same_tok w w'.
Proof.
  intros Hc Hr E. pose proof (ip0_inv code_point content s Hc Hr) as Hi0. unfold ip0 in Hi0.
  assert (HQ : forall c, plain_char c -> code_point c) by (intros c (_ & X & _); exact X).
  pose proof (inline_loop_spec code_point HQ (fun c H => H) (S (length (strip content))) _ Hi0) as H. cbn [ip_subject ip_pos] in H. specialize (H ltac:(lia)). rewrite E in H. destruct H as (_ & Hi & _).
  destruct (iv_marks _ _ Hi) as (ms & Hd & Hb & Hm & Hp). pose proof (iv_good _ _ Hi) as Hg.
  assert (G : forall w, writes_all (map snd (ip_kids st)) w -> exists ks nx w', processEmphasis None (ip_delims st) (ip_kids st) (ip_next st) = Ok ([], ks, nx) /\ writes_all (map snd ks) w' /\ Forall2 same_tok w w').
  { intros w Hw.
  destruct (processEmphasis_spec (fun _ => True) (fun _ _ => I) (fun _ _ => I) (fun _ _ _ _ => I) (fun _ _ => I) same_tok True same_tok_refl same_tok_trans (fun _ _ _ H => H) None (ip_delims st) [] (ip_kids st) (ip_next st) w) as (ks & nx & E2 & _ & _ & _ & _ & w' & Hw' & He).
  - reflexivity.
  - rewrite app_nil_r, Hd. eapply md_NoDup; [exact Hm|apply (iv_nodup _ _ Hi)].
  - apply marked_md in Hm. rewrite Hd. replace (md (rev ms)) with (rev (md ms)) in Hm; [exact Hm|].
    clear. induction ms as [|[d|b] ms IH]; [reflexivity|..]; cbn; rewrite md_app; cbn; rewrite ?app_nil_r.
    + change (flat_map _ ms) with (md ms). rewrite IH. reflexivity.
    + change (flat_map _ ms) with (md ms). exact IH.
  - apply (iv_nodup _ _ Hi).
  - apply (iv_ids _ _ Hi).
  - apply Forall_forall. intros; exact I.
  - apply Forall_forall. intros x _ _; exact I.
  - exists w. split; [exact Hw|]. clear. induction w; constructor; [apply same_tok_refl|assumption].
  - rewrite app_nil_r in E2. exists ks, nx, w'. auto. }
  destruct (writes_all_exists _ _ Hg) as [w Hw]. destruct (G w Hw) as (ks & nx & _ & E2 & _). exists ks, nx. eexists. split; [exact E2|].
  split; [unfold parseInlines; rewrite E; cbn [bind]; rewrite E2; cbn [bind]; reflexivity|]. split; [exists w; exact Hw|].
  intros w2 Hw2. destruct (G w2 Hw2) as (ks2 & nx2 & w' & E3 & R1 & R2). rewrite E2 in E3. apply Ok_inj in E3. injection E3 as <- <-. exists w'. auto.
Qed.
Lemma emph_chars l : Forall (fun c => ordinary_char c \/ c = 42%N \/ c = 95%N) l -> forallb emph_line_char l = true.
Proof.
  intros Hp. apply forallb_forall. intros x Hx. rewrite Forall_forall in Hp. specialize (Hp x Hx). unfold emph_line_char. destruct Hp as [Hp|[-> | ->]]; [|reflexivity|reflexivity].
  pose proof (plain_tame [x] (Forall_cons _ Hp (Forall_nil _))) as X. cbn [forallb] in X. rewrite andb_true_r in X. rewrite X. reflexivity.
Qed.
Theorem emph_inlines_chars content s : ip_smart s = false -> Forall (fun c => ordinary_char c \/ c = 42%N \/ c = 95%N) (strip content) ->
  exists ks s', parseInlines content s = Ok (ks, s') /\ writes_all ks (map TChar (strip content)).
Proof. intros H1 H2. apply emph_inlines; [exact H1|apply emph_chars, H2]. Qed.
Theorem emph_line_doc l : l <> [] -> Forall (fun c => ordinary_char c \/ c = 42%N \/ c = 95%N) l ->
    (forall c, hd_error l = Some c -> is_space c = false /\ ~ block_char c) -> (forall c, last_opt l = Some c -> is_space c = false) -> ~ list_number l ->
    exists dd pd ks, parse_doc false l = Ok (T dd [T pd ks]) /\ n_t dd = document /\ n_t pd = paragraph /\ writes_all ks (map TChar l).
Proof.
  intros H1 H2 H3 H4 H5. apply emph_line; auto.
  - intros c Hc. apply H3, Hc.
  - destruct l as [|c r]; [congruence|]. apply no_start_text; [|exact H5]. destruct (H3 c eq_refl) as [_ Hb]. unfold start_char. destruct (existsb _ _) eqn:E; [|reflexivity]. destruct Hb.
    apply existsb_exists in E as (y & Hy & E). apply N.eqb_eq in E as ->. exact Hy.
Qed.
