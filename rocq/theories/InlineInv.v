(** * The inline parser always terminates, and what it builds *)
From Verif Require Import Base Regex Common NormRef Node Inlines RegexFacts StrFacts Spec SpecTree TreeFacts CommonFacts LabelFacts StrProp EmphFacts InlineFacts.
From Coq Require Import ZifyBool ZifyNat ZifyN.

Section Q.
  Variable Q : N -> Prop.
  Hypothesis HQ : forall c, plain_char c -> Q c.
  Hypothesis HQc : forall c, Q c -> code_point c.
  Notation Qs := (Qs Q).
  Notation inv := (inv Q).
  Notation istep := (istep Q).
  Notation fine := (fine Q).
  Notation inline_tree := (inline_tree Q).
  Notation raises_unicode := (raises_unicode Q).
  Notation refs_ok := (refs_ok Q).

  Lemma Forall_one {A} (P : A -> Prop) x : P x -> Forall P [x].
  Proof. repeat constructor; assumption. Qed.

  (** ** Link tails *)
  Lemma dest_loop_spec : forall n op s, pos_ok s -> length (ip_subject s) - ip_pos s < n ->
    exists c p, dest_loop n op s = Ok (c, set_ip_pos p s) /\ at_pos s p.
  Proof.
    induction n as [|n IH]; intros op s Hp Hn; [lia|]. cbn [dest_loop].
    assert (Hstop : forall c : option N, exists c' p, Ok (c, s) = Ok (c', set_ip_pos p s) /\ at_pos s p).
    { intros c. exists c, (ip_pos s). split; [destruct s; reflexivity|]. unfold at_pos, pos_ok in *. lia. }
    destruct (ip_peek s) as [c|] eqn:E; [|apply Hstop]. apply peek_some in E as Hl.
    assert (Hadv : forall op k, 1 <= k -> ip_pos s + k <= length (ip_subject s) ->
      exists c p, dest_loop n op (ip_adv k s) = Ok (c, set_ip_pos p s) /\ at_pos s p).
    { intros op' k Hk Hk2. destruct (IH op' (ip_adv k s)) as (c' & p & E' & Hp'); [unfold pos_ok; cbn; lia|cbn; lia|].
      exists c', p. rewrite E'. split; [reflexivity|]. unfold at_pos in *. cbn in Hp'. lia. }
    destruct (N.eqb c 92 && re_test reEscapable _).
    - destruct (ip_peek (ip_adv 1 s)) eqn:E1; [|apply Hadv; lia]. apply peek_some in E1. cbn in E1.
      assert (Ea : ip_adv 1 (ip_adv 1 s) = ip_adv 2 s) by (unfold ip_adv, set_ip_pos; cbn [ip_pos]; rewrite <- Nat.add_assoc; reflexivity). rewrite Ea. apply Hadv; lia.
    - destruct (N.eqb c 40); [apply Hadv; lia|]. destruct (N.eqb c 41); [destruct op; [apply Hstop|apply Hadv; lia]|].
      destruct (re_test reWhitespaceChar [c]); [apply Hstop|apply Hadv; lia].
  Qed.
  Definition unicode_or {A} (P : A -> Prop) (r : res A) : Prop :=
    match r with Ok x => P x | Err e => e = UnicodeEncodeError /\ raises_unicode end.
  Lemma parseLinkDestination_spec s : Qs (ip_subject s) -> pos_ok s ->
    unicode_or (fun r => exists p, snd r = set_ip_pos p s /\ at_pos s p /\ forall x, fst r = Some x -> forallb uri_char x = true) (parseLinkDestination s).
  Proof.
    intros Hs Hp. unfold parseLinkDestination. destruct (ip_match reLinkDestinationBraces s) as [[m s1]|] eqn:E.
    - apply ip_match_some in E as (b & a & q & -> & _ & Hq & Hq2 & Him); [|exact Hp].
      destruct (normalize_uri_case Q HQ HQc (unescape_string (chop_ends m))) as [(v & Ev & Hv)|(Ev & Hv)]; [|rewrite Ev..]; cbn [bind unicode_or]; auto.
      + apply unescape_string_chars; [exact HQ|]. eapply Qs_infix; [|exact Hs]. eapply infix_trans; [apply infix_chop_ends|exact Him].
      + exists q. cbn. split; [reflexivity|]. split; [unfold at_pos; lia|]. intros x Hx. injection Hx as <-. exact Hv.
    - destruct (peek_is 60 s); [cbn; exists (ip_pos s); split; [destruct s; reflexivity|]; split; [unfold at_pos, pos_ok in *; lia|discriminate]|].
      destruct (dest_loop_spec (S (length (ip_subject s))) 0 s Hp) as (c & p & -> & Hap); [lia|]. cbn [bind].
      destruct (Nat.eqb (ip_pos (set_ip_pos p s)) (ip_pos s) && negb (opt_eqb N.eqb c (Some 41%N))).
      + cbn. exists p. split; [reflexivity|]. split; [exact Hap|discriminate].
      + cbn [ip_subject ip_pos set_ip_pos].
        destruct (normalize_uri_case Q HQ HQc (unescape_string (slice (ip_pos s) p (ip_subject s)))) as [(v & Ev & Hv)|(Ev & Hv)]; [|rewrite Ev..]; cbn [bind unicode_or]; auto.
        * apply unescape_string_chars; [exact HQ|]. eapply Qs_infix; [|exact Hs]. apply infix_slice.
        * exists p. cbn. split; [reflexivity|]. split; [exact Hap|]. intros x Hx. injection Hx as <-. exact Hv.
  Qed.
  Lemma parseLinkTitle_spec s : Qs (ip_subject s) -> pos_ok s ->
    exists p, snd (parseLinkTitle s) = set_ip_pos p s /\ at_pos s p /\ Qs (or_empty (fst (parseLinkTitle s))).
  Proof.
    intros Hs Hp. unfold parseLinkTitle. destruct (ip_match reLinkTitle s) as [[m s1]|] eqn:E.
    - apply ip_match_some in E as (b & a & q & -> & _ & Hq & Hq2 & Him); [|exact Hp].
      exists q. cbn. split; [reflexivity|]. split; [unfold at_pos; lia|]. apply unescape_string_chars; [exact HQ|].
      eapply Qs_infix; [|exact Hs]. eapply infix_trans; [apply infix_chop_ends|exact Him].
    - exists (ip_pos s). cbn. split; [destruct s; reflexivity|]. split; [unfold at_pos, pos_ok in *; lia|constructor].
  Qed.
  Lemma parseLinkLabel_spec s : pos_ok s ->
    exists p, snd (parseLinkLabel s) = set_ip_pos p s /\ at_pos s p.
  Proof.
    intros Hp. unfold parseLinkLabel. destruct (ip_match reLinkLabel s) as [[m s1]|] eqn:E.
    - apply ip_match_some in E as (b & a & q & -> & _ & Hq & Hq2 & Him); [|exact Hp].
      exists q. destruct (Nat.ltb 1001 (length m)); cbn; (split; [reflexivity|unfold at_pos; lia]).
    - exists (ip_pos s). cbn. split; [destruct s; reflexivity|]. unfold at_pos, pos_ok in *; lia.
  Qed.
  Definition tail_ok (o : option (str * option str)) : Prop :=
    forall d t, o = Some (d, t) -> forallb uri_char d = true /\ Qs (or_empty t).
  Lemma at_pos_ok s p : at_pos s p -> pos_ok (set_ip_pos p s).
  Proof. unfold at_pos, pos_ok. cbn. lia. Qed.
  Lemma inline_tail_spec s : Qs (ip_subject s) -> pos_ok s -> 1 <= ip_pos s ->
    unicode_or (fun r => exists p, snd r = set_ip_pos p s /\ at_pos s p /\ tail_ok (fst r)) (inline_tail s).
  Proof.
    intros Hs Hp H1. unfold inline_tail. destruct (peek_is 40 s) eqn:E40.
    2:{ cbn. exists (ip_pos s). split; [destruct s; reflexivity|]. split; [unfold at_pos, pos_ok in *; lia|discriminate]. }
    apply peek_is_true, peek_some in E40.
    destruct (spnl_pos (ip_adv 1 s)) as (p1 & -> & Hp1); [unfold pos_ok; cbn; lia|]. unfold at_pos in Hp1. cbn in Hp1.
    change (set_ip_pos p1 (ip_adv 1 s)) with (set_ip_pos p1 s).
    assert (Hp1' : pos_ok (set_ip_pos p1 s)) by (unfold pos_ok; cbn; lia).
    pose proof (parseLinkDestination_spec (set_ip_pos p1 s) Hs Hp1') as HD. destruct (parseLinkDestination (set_ip_pos p1 s)) as [[dest s2]|e]; [|exact HD].
    cbn [unicode_or snd fst] in HD. destruct HD as (p2 & -> & Hp2 & Hd). unfold at_pos in Hp2. cbn in Hp2.
    change (set_ip_pos p2 (set_ip_pos p1 s)) with (set_ip_pos p2 s). cbn [bind].
    destruct dest as [d|].
    2:{ cbn. exists (ip_pos s). split; [reflexivity|]. split; [unfold at_pos; lia|discriminate]. }
    destruct (spnl_pos (set_ip_pos p2 s)) as (p3 & -> & Hp3); [unfold pos_ok; cbn; lia|]. unfold at_pos in Hp3. cbn in Hp3.
    change (set_ip_pos p3 (set_ip_pos p2 s)) with (set_ip_pos p3 s). cbn [ip_pos ip_subject set_ip_pos].
    destruct (nth_error (ip_subject s) (p3 - 1)) as [prevc|] eqn:Epc.
    2:{ apply nth_error_None in Epc. lia. }
    cbn [of_option bind].
    assert (HT : exists p4 title, (if re_test reWhitespaceChar [prevc] then parseLinkTitle (set_ip_pos p3 s) else (None, set_ip_pos p3 s)) = (title, set_ip_pos p4 s)
              /\ p3 <= p4 <= length (ip_subject s) /\ Qs (or_empty title)).
    { destruct (re_test reWhitespaceChar [prevc]).
      - destruct (parseLinkTitle_spec (set_ip_pos p3 s)) as (p4 & E4 & Hp4 & HT); [exact Hs|unfold pos_ok; cbn; lia|].
        destruct (parseLinkTitle (set_ip_pos p3 s)) as [title s4]. cbn in E4, HT. subst s4. unfold at_pos in Hp4. cbn in Hp4.
        exists p4, title. auto.
      - exists p3, None. split; [reflexivity|]. split; [lia|constructor]. }
    destruct HT as (p4 & title & -> & Hp4 & HT).
    destruct (spnl_pos (set_ip_pos p4 s)) as (p5 & -> & Hp5); [unfold pos_ok; cbn; lia|]. unfold at_pos in Hp5. cbn in Hp5.
    change (set_ip_pos p5 (set_ip_pos p4 s)) with (set_ip_pos p5 s).
    destruct (peek_is 41 (set_ip_pos p5 s)) eqn:E41; cbn [unicode_or fst snd].
    - apply peek_is_true, peek_some in E41. cbn in E41. exists (p5 + 1). split; [reflexivity|]. split; [unfold at_pos; lia|].
      intros d0 t0 H. injection H as <- <-. auto.
    - exists p5. split; [reflexivity|]. split; [unfold at_pos; lia|discriminate].
  Qed.
  Lemma refs_ok_assoc rm k d t : refs_ok rm -> assoc_str k rm = Some (d, t) -> forallb uri_char d = true /\ Qs t.
  Proof.
    intros H E. apply assoc_str_key in E. unfold InlineFacts.refs_ok in H. rewrite Forall_forall in H. apply H in E. exact E.
  Qed.
  Lemma reference_tail_spec o start s0 p0 save : refs_ok (ip_refmap s0) -> at_pos s0 p0 -> at_pos s0 save ->
    exists p, snd (reference_tail o start save (set_ip_pos p0 s0)) = set_ip_pos p s0 /\ (save <= p \/ p0 <= p) /\ p <= length (ip_subject s0)
      /\ tail_ok (fst (reference_tail o start save (set_ip_pos p0 s0))).
  Proof.
    intros Hr Hp Hsv. unfold reference_tail.
    destruct (parseLinkLabel_spec (set_ip_pos p0 s0)) as (p1 & E1 & Hp1); [apply at_pos_ok, Hp|].
    destruct (parseLinkLabel (set_ip_pos p0 s0)) as [n s1]. cbn in E1. subst s1. unfold at_pos in *. cbn in Hp1.
    change (set_ip_pos p1 (set_ip_pos p0 s0)) with (set_ip_pos p1 s0).
    assert (HS : exists p, (if Nat.eqb n 0 then set_ip_pos save (set_ip_pos p1 s0) else set_ip_pos p1 s0) = set_ip_pos p s0 /\ (save <= p \/ p0 <= p) /\ p <= length (ip_subject s0)).
    { destruct (Nat.eqb n 0); [exists save|exists p1]; (split; [reflexivity|lia]). }
    destruct HS as (p & -> & HS1 & HS2). exists p. cbn [ip_subject set_ip_pos ip_refmap].
    destruct (is_nil _).
    - cbn. split; [reflexivity|]. split; [exact HS1|]. split; [exact HS2|discriminate].
    - destruct (assoc_str _ (ip_refmap s0)) as [[d t]|] eqn:Ea; cbn; (split; [reflexivity|]; split; [exact HS1|]; split; [exact HS2|]); [|discriminate].
      intros d0 t0 H. injection H as <- <-. cbn. eapply refs_ok_assoc; eassumption.
  Qed.

  (** ** Emphasis inside the link *)
  Lemma inline_emph l : Forall inline_tree l -> inline_tree (T (new_node emph None) l).
  Proof. intros H. apply inline_unfold. split; [|exact H]. split; [repeat constructor|exact I]. Qed.
  Lemma inline_strong l : Forall inline_tree l -> inline_tree (T (new_node strong None) l).
  Proof. intros H. apply inline_unfold. split; [|exact H]. split; [repeat constructor|exact I]. Qed.
  Lemma inline_delim c n : is_emph_char c -> 1 <= n -> inline_tree (text_node (repeat c n)).
  Proof.
    intros Hc _. apply inline_text. apply Forall_forall. intros x Hx. apply repeat_spec in Hx as ->.
    apply HQ. unfold plain_char, is_emph_char in *. lia.
  Qed.
  Lemma inline_quote c : In c [8216; 8217; 8220; 8221]%N -> inline_tree (text_node [c]).
  Proof. intros Hc. apply inline_text. repeat constructor. apply HQ. unfold plain_char. cbn in Hc. lia. Qed.
  Lemma writes_exists t : inline_tree t -> exists w, writes t w.
  Proof.
    induction t as [d kids IH] using tree_ind'. intros H. apply inline_unfold in H as [[_ Hd] Hk].
    assert (Hw : exists w, writes_all kids w).
    { clear Hd. induction kids as [|x l IHl]; [exists []; constructor|]. inversion IH; subst. inversion Hk; subst.
      destruct (H1 H3) as [w1 ?]. destruct (IHl H2 H4) as [w2 ?]. exists (w1 ++ w2). constructor; assumption. }
    destruct Hw as [w Hw]. destruct (n_t d) eqn:E; try (exists [TNode (T d kids)]; apply w_other; unfold t_type; cbn [t_data]; rewrite E; discriminate).
    - destruct Hd as [-> [l ->]]. exists (map TChar l). apply writes_text_node.
    - exists ([TChar 42%N] ++ w ++ [TChar 42%N]). apply w_emph; auto.
    - exists ([TChar 42%N; TChar 42%N] ++ w ++ [TChar 42%N; TChar 42%N]). apply w_strong; auto.
  Qed.
  Lemma writes_all_exists l : Forall inline_tree l -> exists w, writes_all l w.
  Proof.
    induction 1 as [|t l Ht Hl [w IH]]; [exists []; constructor|]. destruct (writes_exists t Ht) as [w1 Hw]. exists (w1 ++ w). constructor; assumption.
  Qed.
  Lemma emphasis_fine bottom up down ks next :
    hd_id down = bottom -> NoDup (map d_node (up ++ down)) -> marked (map MD (rev up)) ks -> NoDup (ids ks) ->
    Forall (fun i => i < next) (ids ks) -> Forall inline_tree (map snd ks) ->
    exists ks' next', processEmphasis bottom (up ++ down) ks next = Ok (down, ks', next') /\ next <= next' /\
      NoDup (ids ks') /\ Forall (fun i => i < next') (ids ks') /\ Forall inline_tree (map snd ks').
  Proof.
    intros H1 H2 H3 H4 H5 H6. destruct (writes_all_exists _ H6) as [w Hw].
    destruct (processEmphasis_spec inline_tree inline_emph inline_strong inline_delim inline_quote same_tok True same_tok_refl same_tok_trans (fun _ _ _ H => H) bottom up down ks next w H1 H2 H3 H4 H5 H6)
      as (ks' & nx & E & G1 & G2 & G3 & G4 & _); [apply Forall_forall; intros x _ _; exact I|exists w; split; [exact Hw|apply same_refl]|].
    exists ks', nx. auto.
  Qed.

  (** the stack around the innermost bracket *)
  Lemma md_NoDup ms ks : marked (rev ms) ks -> NoDup (ids ks) -> NoDup (map d_node (md ms)).
  Proof.
    intros H Hn. apply marked_NoDup in H; [|exact Hn]. rewrite map_rev in H. apply NoDup_rev in H. rewrite rev_involutive in H.
    clear Hn. induction ms as [|m ms IH]; [constructor|]. cbn in H. inversion H as [|? ? Hx Hy]; subst. destruct m as [d|b]; cbn; [|apply IH, Hy].
    constructor; [|apply IH, Hy]. intros Hin. apply Hx. clear -Hin. induction ms as [|m ms IHm]; [destruct Hin|].
    destruct m; cbn in *; [destruct Hin as [Hin|Hin]|]; auto.
  Qed.
  Lemma bracket_split ms ks b bs : marked (rev ms) ks -> NoDup (ids ks) -> mb ms = b :: bs -> prev_ok ms ->
    exists up ms' pre tb post, ms = map MD up ++ MB b :: ms' /\ mb ms' = bs /\ ks = pre ++ (b_node b, tb) :: post /\
      split_kid (b_node b) ks = Some (pre, tb, post) /\ marked (rev ms') pre /\ marked (map MD (rev up)) post /\ b_prevdelim b = hd_id (md ms').
  Proof.
    intros Hm Hn Hb Hp. destruct (mb_split _ _ _ Hb) as (up & ms' & -> & Hb'). exists up, ms'.
    rewrite rev_app_distr in Hm. cbn [rev] in Hm. rewrite <- app_assoc in Hm. apply marked_app in Hm as (k1 & k2 & -> & H1 & H2).
    cbn [app] in H2. apply marked_cons_inv in H2 as (t & pre & post & -> & _ & H2).
    exists (k1 ++ pre), t, post. cbn [mark_id] in *. split; [reflexivity|]. split; [exact Hb'|]. split; [rewrite <- app_assoc; reflexivity|].
    split. { rewrite app_assoc. apply split_kid_found. rewrite app_assoc in Hn. eapply NoDup_pre. exact Hn. }
    split; [apply marked_post, H1|]. split; [rewrite map_rev; exact H2|]. exact (Hp _ _ _ eq_refl).
  Qed.

  Lemma link_emphasis s b bs : inv s -> ip_brackets s = b :: bs ->
    exists up ms' pre tb post ks nx, ip_delims s = up ++ md ms' /\ mb ms' = bs /\ prev_ok ms' /\
      split_kid (b_node b) (ip_kids s) = Some (pre, tb, post) /\ ip_kids s = pre ++ (b_node b, tb) :: post /\ marked (rev ms') pre /\
      processEmphasis (b_prevdelim b) (ip_delims s) post (S (ip_next s)) = Ok (md ms', ks, nx) /\
      S (ip_next s) <= nx /\ Forall inline_tree (map snd ks).
  Proof.
    intros Hi Hb. destruct (iv_marks _ _ Hi) as (ms & Hd & Hb' & Hm & Hp). rewrite Hb in Hb'. symmetry in Hb'.
    destruct (bracket_split _ _ _ _ Hm (iv_nodup _ _ Hi) Hb' Hp) as (up & ms' & pre & tb & post & -> & Hbs & Ek & Es & H1 & H2 & H3).
    assert (Ed : ip_delims s = up ++ md ms') by (rewrite Hd, md_app, md_map_MD; reflexivity).
    assert (Hpost : NoDup (ids post) /\ Forall (fun i => i < S (ip_next s)) (ids post) /\ Forall inline_tree (map snd post)).
    { pose proof (iv_nodup _ _ Hi) as N1. pose proof (iv_ids _ _ Hi) as N2. pose proof (iv_good _ _ Hi) as N3. rewrite Ek in N1, N2, N3.
      rewrite ids_app in N1, N2. rewrite map_app in N3. apply NoDup_app_remove_l in N1. inversion N1; subst.
      apply Forall_app in N2 as [_ N2]. inversion N2; subst. apply Forall_app in N3 as [_ N3]. inversion N3; subst.
      split; [assumption|]. split; [|assumption]. eapply Forall_impl; [|eassumption]. intros a Ha. cbn in *. lia. }
    destruct Hpost as (P1 & P2 & P3).
    destruct (emphasis_fine (b_prevdelim b) up (md ms') post (S (ip_next s))) as (ks & nx & Ee & G1 & _ & _ & G4); auto.
    { rewrite <- Ed, Hd. eapply md_NoDup; [exact Hm|apply (iv_nodup _ _ Hi)]. }
    exists up, ms', pre, tb, post, ks, nx. rewrite Ed. split; [reflexivity|]. split; [exact Hbs|].
    split. { intros a b0 c E. apply (Hp ((map MD up ++ [MB b]) ++ a) b0 c). rewrite E, <- !app_assoc. reflexivity. }
    repeat (split; [assumption|]). assumption.
  Qed.

  Lemma parseCloseBracket_fine s : inv s -> ip_peek s = Some 93%N -> fine s (parseCloseBracket s).
  Proof.
    intros Hi Hp. apply peek_some in Hp. unfold parseCloseBracket. change (ip_brackets (ip_adv 1 s)) with (ip_brackets s).
    assert (H93 : Q 93%N) by (apply HQ; unfold plain_char; lia).
    destruct (ip_brackets s) as [|b bs] eqn:Eb.
    { cbn [InlineFacts.fine]. assert (Hl : leaf Q s (text_node [93%N])) by (apply text1_leaf, H93).
      pose proof (is_leaf Q s _ (ip_pos s + 1) Hl) as G. rewrite Eb in G. unfold append_kid, ip_adv, set_ip_pos, set_ip_kids, set_ip_next. cbn. rewrite Eb. apply G; [unfold at_pos; lia|lia]. }
    destruct (b_active b) eqn:Ea; cbn [negb].
    2:{ cbn [InlineFacts.fine]. unfold removeBracket, append_kid, ip_adv, set_ip_pos, set_ip_kids, set_ip_next, set_ip_brackets. cbn. rewrite Eb. cbn [tl].
        apply (is_close Q s b bs (ip_pos s + 1)); [exact Eb|unfold at_pos; lia|lia]. }
    change (ip_pos (ip_adv 1 s)) with (ip_pos s + 1).
    pose proof (inline_tail_spec (ip_adv 1 s) (iv_subj _ _ Hi)) as HT.
    assert (HT' : pos_ok (ip_adv 1 s) /\ 1 <= ip_pos (ip_adv 1 s)) by (unfold pos_ok; cbn; lia). destruct HT' as [HT1 HT2]. specialize (HT HT1 HT2).
    destruct (inline_tail (ip_adv 1 s)) as [[tail s1]|e].
    2:{ cbn in HT |- *. right. exact HT. }
    cbn [unicode_or fst snd] in HT. destruct HT as (p1 & -> & Hp1 & Ht). cbn [bind]. unfold at_pos in Hp1. cbn in Hp1.
    change (set_ip_pos p1 (ip_adv 1 s)) with (set_ip_pos p1 s).
    assert (HR : exists tail' p, (match tail with Some x => (Some x, set_ip_pos p1 s) | None => reference_tail b (ip_pos s + 1) (ip_pos s + 1) (set_ip_pos p1 s) end)
              = (tail', set_ip_pos p s) /\ ip_pos s < p <= length (ip_subject s) /\ tail_ok tail').
    { destruct tail as [x|].
      - exists (Some x), p1. split; [reflexivity|]. split; [lia|exact Ht].
      - destruct (reference_tail_spec b (ip_pos s + 1) s p1 (ip_pos s + 1)) as (p & E1 & H1 & H2 & H3); [apply (iv_refs _ _ Hi)|unfold at_pos; lia|unfold at_pos; lia|].
        destruct (reference_tail b (ip_pos s + 1) (ip_pos s + 1) (set_ip_pos p1 s)) as [tail' s2]. cbn in E1, H3. subst s2.
        exists tail', p. split; [reflexivity|]. split; [lia|exact H3]. }
    destruct HR as (tail' & p & -> & Hpp & Ht'). destruct tail' as [[dest title]|].
    - destruct (Ht' dest title eq_refl) as [Hd Htt].
      destruct (link_emphasis s b bs Hi Eb) as (up & ms' & pre & tb & post & ks & nx & Ed & Hbs & _ & Es & Ek & Hm & Ee & Hnx & Hg).
      unfold make_link. cbn [ip_kids set_ip_pos ip_delims ip_next]. rewrite Es, Ee. cbn [bind InlineFacts.fine].
      pose proof (is_link Q s b bs p dest (or_empty title) pre tb post (md ms') ks nx Eb Ea) as G.
      assert (G' : at_pos s p /\ ip_pos s < p) by (unfold at_pos; lia). destruct G' as [G1 G2]. specialize (G G1 G2 Hd Htt Es Ee).
      unfold removeBracket, set_ip_brackets, set_ip_next, set_ip_kids, set_ip_delims, set_ip_pos. cbn [ip_brackets ip_subject ip_pos ip_refmap ip_smart ip_delims ip_kids ip_next].
      rewrite Eb. cbn [tl]. destruct (b_image b); exact G.
    - cbn [InlineFacts.fine]. unfold removeBracket, append_kid, ip_adv, set_ip_pos, set_ip_kids, set_ip_next, set_ip_brackets. cbn. rewrite Eb. cbn [tl].
      apply (is_close Q s b bs (ip_pos s + 1)); [exact Eb|unfold at_pos; lia|lia].
  Qed.

  (** ** A step keeps the invariant *)
  Lemma marked_map ms ks (f : nat * tree -> tree) : marked ms ks ->
    (forall m t, In m ms -> In (mark_id m, t) ks -> mark_ok m t -> mark_ok m (f (mark_id m, t))) ->
    marked ms (map (fun p => (fst p, f p)) ks).
  Proof.
    induction 1 as [ks|m ms t pre post Hm Hr IH]; intros Hf; [constructor|]. rewrite map_app. cbn [map fst]. constructor.
    - apply Hf; [left; reflexivity|apply in_or_app; right; left; reflexivity|exact Hm].
    - apply IH. intros m' t' H1 H2. apply Hf; [right; exact H1|]. apply in_or_app. right. right. exact H2.
  Qed.
  Lemma marked_replace_last ms k id t t' : marked ms (k ++ [(id, t)]) -> NoDup (ids (k ++ [(id, t)])) ->
    (forall m, In m ms -> mark_id m = id -> mark_ok m t -> mark_ok m t') -> marked ms (k ++ [(id, t')]).
  Proof.
    intros Hm Hn Hf.
    replace (k ++ [(id, t')]) with (map (fun p : nat * tree => (fst p, (fun p => if Nat.eqb (fst p) id then t' else snd p) p)) (k ++ [(id, t)])).
    - apply (marked_map ms (k ++ [(id, t)]) (fun p => if Nat.eqb (fst p) id then t' else snd p) Hm). intros m t0 Hin Hin2 Ho. cbn [fst snd]. destruct (Nat.eqb_spec (mark_id m) id) as [E|]; [|exact Ho].
      apply Hf; [exact Hin|exact E|]. apply in_app_or in Hin2 as [Hin2|[Hin2|[]]].
      + exfalso. rewrite ids_app in Hn. apply NoDup_remove_2 in Hn. apply Hn. rewrite app_nil_r. rewrite <- E. apply in_map with (f := fst) in Hin2. exact Hin2.
      + injection Hin2 as _ <-. exact Ho.
    - rewrite map_app. cbn [map fst snd]. rewrite Nat.eqb_refl. f_equal. rewrite ids_app in Hn. apply NoDup_remove_2 in Hn. rewrite app_nil_r in Hn.
      clear -Hn. induction k as [|[i x] k IH]; [reflexivity|]. cbn in *. destruct (Nat.eqb_spec i id); [tauto|]. f_equal. apply IH. tauto.
  Qed.
  Lemma kids_snoc ks t nx : NoDup (ids ks) -> Forall (fun i => i < nx) (ids ks) ->
    NoDup (ids (ks ++ [(nx, t)])) /\ Forall (fun i => i < S nx) (ids (ks ++ [(nx, t)])).
  Proof.
    intros H1 H2. rewrite ids_app. cbn. split.
    - apply NoDup_insert; rewrite app_nil_r; [exact H1|]. intros Hin. rewrite Forall_forall in H2. apply H2 in Hin. lia.
    - apply Forall_app. split; [|repeat constructor]. eapply Forall_impl; [|exact H2]. cbn. lia.
  Qed.
  Lemma snoc_inj {A} (a b : list A) x y : a ++ [x] = b ++ [y] -> a = b /\ x = y.
  Proof. apply app_inj_tail. Qed.
  Lemma leaf_inline s t : leaf Q s t -> inline_tree t.
  Proof.
    intros [(l & -> & H & _)|[(l & ty & -> & Hty & H)|[->|(dest & url & -> & _ & H & Hu & _)]]].
    - apply inline_text, H.
    - apply inline_unfold. split; [|constructor]. split; [repeat constructor; exact H|]. destruct Hty as [->| ->]; cbn; eauto.
    - apply inline_unfold. split; [|constructor]. split; [repeat constructor|reflexivity].
    - assert (Huri : forallb uri_char url = true).
      { destruct Hu as [Hu|Hu]; (eapply normalize_uri_uri_chars; [|exact Hu]); (eapply Forall_impl; [exact HQc|]); [exact H|].
        apply Forall_app. split; [apply mailto_Q, HQ|exact H]. }
      apply inline_unfold. split; [|apply Forall_one, inline_text, H].
      split; [|cbn; eauto]. repeat constructor. apply uri_chars_plain; assumption.
  Qed.
  Lemma marks_append ms ks nx t : marked (rev ms) ks -> marked (rev ms) (ks ++ [(nx, t)]).
  Proof. apply marked_post. Qed.
  Lemma prev_ok_MD d ms : prev_ok ms -> prev_ok (MD d :: ms).
  Proof. intros H a b c E. destruct a as [|m a]; cbn in E; [discriminate|]. injection E as _ E. eapply H, E. Qed.
  Lemma marked_new m ms ks t : marked (rev ms) ks -> mark_ok m t -> marked (rev (m :: ms)) (ks ++ [(mark_id m, t)]).
  Proof.
    intros H Ho. cbn [rev]. apply marked_app. exists ks, [(mark_id m, t)]. split; [reflexivity|]. split; [exact H|].
    apply (marked_cons m [] t [] []); [exact Ho|constructor].
  Qed.
  Definition deact (b : bracket) : bracket := if b_image b then b else set_b_active false b.
  Definition deact_mark (m : mark) : mark := match m with MB b => MB (deact b) | MD d => MD d end.
  Lemma deact_id b : b_node (deact b) = b_node b.
  Proof. unfold deact. destruct (b_image b); reflexivity. Qed.
  Lemma deact_prev b : b_prevdelim (deact b) = b_prevdelim b.
  Proof. unfold deact. destruct (b_image b); reflexivity. Qed.
  Lemma marked_deact ms ks : marked ms ks -> marked (map deact_mark ms) ks.
  Proof.
    induction 1 as [ks|m ms t pre post Hm Hr IH]; [constructor|]. cbn [map].
    replace (mark_id m) with (mark_id (deact_mark m)) by (destruct m; cbn; [reflexivity|apply deact_id]).
    constructor; [destruct m; exact Hm|exact IH].
  Qed.
  Lemma md_deact ms : md (map deact_mark ms) = md ms.
  Proof. induction ms as [|[d|b] ms IH]; [reflexivity|..]; cbn; [f_equal|]; apply IH. Qed.
  Lemma mb_deact ms : mb (map deact_mark ms) = map deact (mb ms).
  Proof. induction ms as [|[d|b] ms IH]; [reflexivity|..]; cbn; [|f_equal]; apply IH. Qed.
  Lemma prev_ok_deact ms : prev_ok ms -> prev_ok (map deact_mark ms).
  Proof.
    intros H a b c E. apply map_eq_app in E as (a' & c' & -> & <- & E). destruct c' as [|m c']; [discriminate|]. cbn in E. injection E as E <-.
    destruct m as [d|b']; cbn in E; [discriminate|]. injection E as <-. rewrite deact_prev, md_deact. eapply H. reflexivity.
  Qed.
  Lemma final_space_chars l : Qs l -> Qs (re_sub reFinalSpace (fun _ => []) l).
  Proof. intros H. apply re_sub_chars; [constructor|exact H]. Qed.
  Lemma delim_no_space d l : delim_text d l -> last_opt l <> Some SP.
  Proof.
    intros [(Hc & Hn & ->)|(_ & _ & H)].
    - intros E. apply last_opt_inv in E as [k E]. assert (Hin : In SP (repeat (d_cc d) (d_num d))) by (rewrite E; apply in_or_app; right; left; reflexivity).
      apply repeat_spec in Hin. unfold is_emph_char, SP in *. lia.
    - destruct H as [[_ [->| ->]]|[_ [->| ->]]]; cbn; unfold SP; congruence.
  Qed.

  Theorem istep_inv s s' : inv s -> istep s s' -> inv s' /\ ip_pos s < ip_pos s' /\ ip_subject s' = ip_subject s /\ ip_refmap s' = ip_refmap s /\ ip_smart s' = ip_smart s.
  Proof.
    intros Hi Hs. pose proof (iv_marks _ _ Hi) as (ms & Hd & Hb & Hm & Hp).
    destruct Hi as [I1 I2 I3 I4 I5 _ I7 I8].
    destruct Hs as [t p Hl Hap Hlt|ty p ks Hty Hap Hlt Hks|d l p Hid Hdt Hql Hap Hlt|b p Hid Hpd Hac Hap Hlt|b bs p Hbs Hap Hlt|b bs p dest title pre tb post ds ks nx Hbs Hac Hap Hlt Hud Hqt Hsp Hpe];
      (split; [|cbn; auto]); unfold at_pos in Hap.
    - destruct (kids_snoc (ip_kids s) t (ip_next s) I4 I5) as [N1 N2]. constructor; cbn [ip_subject ip_pos ip_refmap ip_delims ip_brackets ip_kids ip_next]; auto.
      + unfold pos_ok. cbn. lia.
      + exists ms. repeat split; auto. apply marked_post, Hm.
      + rewrite map_app. apply Forall_app. split; [exact I7|]. apply Forall_one. eapply leaf_inline, Hl.
      + intros k id t0 E ->. apply snoc_inj in E as [_ E]. injection E as _ ->.
        destruct Hl as [(l & E & _ & H)|[(l & ty & E & Hty & _)|[E|(dest & url & E & _)]]].
        * injection E as <-. auto.
        * destruct Hty as [->| ->]; discriminate.
        * discriminate.
        * discriminate.
    - assert (Hks' : NoDup (ids ks) /\ ids ks = ids (ip_kids s) /\ marked (rev ms) ks /\ Forall inline_tree (map snd ks)).
      { destruct Hks as [->|(k & id & l & Ek & Hlast & ->)]; [auto|]. rewrite Ek in *.
        assert (Ei : ids (k ++ [(id, text_node (re_sub reFinalSpace (fun _ => []) l))]) = ids (k ++ [(id, text_node l)])) by (rewrite !ids_app; reflexivity).
        rewrite Ei. split; [exact I4|]. split; [reflexivity|]. split.
        - eapply marked_replace_last; [exact Hm|exact I4|]. intros m _ _ Ho. destruct m as [d|b]; [|exact I]. destruct Ho as (l' & El & Hdt).
          injection El as <-. exfalso. eapply delim_no_space; eassumption.
        - rewrite map_app in *. apply Forall_app in I7 as [G1 G2]. apply Forall_app. split; [exact G1|]. apply Forall_one.
          inversion G2 as [|? ? G3 _]; subst. apply inline_text_inv in G3 as (l' & E & Hl'); [|reflexivity]. injection E as <-. apply inline_text, final_space_chars, Hl'. }
      destruct Hks' as (K1 & K2 & K3 & K4). assert (K5 : Forall (fun i => i < ip_next s) (ids ks)) by (rewrite K2; exact I5).
      destruct (kids_snoc ks (T (new_node ty None) []) (ip_next s) K1 K5) as [N1 N2].
      constructor; cbn [ip_subject ip_pos ip_refmap ip_delims ip_brackets ip_kids ip_next]; auto.
      + unfold pos_ok. cbn. lia.
      + exists ms. repeat split; auto. apply marked_post, K3.
      + rewrite map_app. apply Forall_app. split; [exact K4|]. apply Forall_one. apply inline_unfold. split; [|constructor]. destruct Hty as [->| ->]; (split; [repeat constructor|reflexivity]).
      + intros k id t0 E ->. apply snoc_inj in E as [_ E]. destruct Hty as [->| ->]; discriminate.
    - destruct (kids_snoc (ip_kids s) (text_node l) (ip_next s) I4 I5) as [N1 N2]. constructor; cbn [ip_subject ip_pos ip_refmap ip_delims ip_brackets ip_kids ip_next]; auto.
      + unfold pos_ok. cbn. lia.
      + exists (MD d :: ms). split; [cbn; f_equal; exact Hd|]. split; [exact Hb|]. split; [|apply prev_ok_MD, Hp].
        rewrite <- Hid. apply (marked_new (MD d)); [exact Hm|]. exists l. auto.
      + rewrite map_app. apply Forall_app. split; [exact I7|]. apply Forall_one. apply inline_text, Hql.
      + intros k id t0 E ->. apply snoc_inj in E as [_ E]. injection E as _ ->. exfalso. destruct Hdt as [(_ & Hn & E)|(_ & _ & E)].
        * destruct (d_num d); [lia|discriminate].
        * destruct E as [[_ [E|E]]|[_ [E|E]]]; discriminate.
    - set (t := text_node (if b_image b then [33; 91]%N else [91]%N)).
      destruct (kids_snoc (ip_kids s) t (ip_next s) I4 I5) as [N1 N2]. constructor; cbn [ip_subject ip_pos ip_refmap ip_delims ip_brackets ip_kids ip_next]; auto.
      + unfold pos_ok. cbn. lia.
      + exists (MB b :: ms). split; [exact Hd|]. split; [cbn; f_equal; exact Hb|]. split.
        * rewrite <- Hid. apply (marked_new (MB b)); [exact Hm|exact I].
        * intros a b0 c E. destruct a as [|m a]; cbn in E; injection E as E1 E2; [subst|eapply Hp, E2]. rewrite Hpd, Hd. reflexivity.
      + rewrite map_app. apply Forall_app. split; [exact I7|]. apply Forall_one. apply inline_text. destruct (b_image b); repeat constructor; apply HQ; unfold plain_char; lia.
      + intros k id t0 E ->. apply snoc_inj in E as [_ E]. unfold t in E. destruct (b_image b); discriminate.
    - destruct (kids_snoc (ip_kids s) (text_node [93%N]) (ip_next s) I4 I5) as [N1 N2]. constructor; cbn [ip_subject ip_pos ip_refmap ip_delims ip_brackets ip_kids ip_next]; auto.
      + unfold pos_ok. cbn. lia.
      + rewrite Hb in Hbs. destruct (mb_split _ _ _ Hbs) as (up & ms' & -> & Hb'). exists (map MD up ++ ms').
        split; [rewrite Hd, !md_app; reflexivity|]. split; [rewrite mb_app, mb_map_MD; cbn; auto|]. split.
        * apply marked_post. rewrite rev_app_distr in Hm |- *. cbn [rev] in Hm. rewrite <- app_assoc in Hm. apply marked_drop in Hm. exact Hm.
        * clear -Hp. intros a b0 c E. revert a E. assert (G : prev_ok ms').
          { intros a' b' c' ->. apply (Hp ((map MD up ++ [MB b]) ++ a') b' c'). rewrite <- !app_assoc. reflexivity. }
          induction up as [|d up IH]; intros a E; cbn in E; [eapply G, E|]. destruct a as [|m a]; cbn in E; [discriminate|]. injection E as _ E.
          eapply IH; [|exact E]. intros a' b' c' E'. apply (Hp (MD d :: a') b' c'). cbn. rewrite E'. reflexivity.
      + rewrite map_app. apply Forall_app. split; [exact I7|]. apply Forall_one. apply inline_text. repeat constructor; apply HQ; unfold plain_char; lia.
      + intros k id t0 E ->. apply snoc_inj in E as [_ E]. discriminate.
    - assert (Hi : inv s) by (constructor; auto; exists ms; auto).
      destruct (link_emphasis s b bs Hi Hbs) as (up & ms' & pre' & tb' & post' & ks' & nx' & Ed & Hbs' & Hp' & Es & Ek & Hm' & Ee & Hnx & Hg).
      rewrite Hsp in Es. apply Some_inj in Es. injection Es as <- <- <-. rewrite Hpe in Ee. apply Ok_inj in Ee. injection Ee as -> <- <-.
      assert (Hpre : NoDup (ids pre) /\ Forall (fun i => i < ip_next s) (ids pre) /\ Forall inline_tree (map snd pre)).
      { rewrite Ek in I4, I5, I7. rewrite ids_app in I4, I5. rewrite map_app in I7. apply Forall_app in I5 as [G5 _]. apply Forall_app in I7 as [G7 _].
        split; [|auto]. apply NoDup_rev in I4. rewrite rev_app_distr in I4. apply NoDup_app_remove_l in I4. apply NoDup_rev in I4. rewrite rev_involutive in I4. exact I4. }
      destruct Hpre as (P1 & P2 & P3). destruct (kids_snoc pre (T (set_n_title (Some title) (set_n_destination (Some dest)
                                            (new_node (if b_image b then image else link) None))) (map snd ks)) (ip_next s) P1 P2) as [N1 N2].
      constructor; cbn [ip_subject ip_pos ip_refmap ip_delims ip_brackets ip_kids ip_next]; auto.
      + unfold pos_ok. cbn. lia.
      + eapply Forall_impl; [|exact N2]. cbn. lia.
      + exists (if b_image b then ms' else map deact_mark ms'). destruct (b_image b).
        * split; [reflexivity|]. split; [auto|]. split; [apply marked_post, Hm'|exact Hp'].
        * rewrite md_deact, mb_deact, Hbs'. split; [reflexivity|]. split; [reflexivity|]. split; [|apply prev_ok_deact, Hp'].
          rewrite <- map_rev. apply marked_post, marked_deact, Hm'.
      + rewrite map_app. apply Forall_app. split; [exact P3|]. apply Forall_one. cbn [snd]. apply inline_unfold. split; [|exact Hg].
        assert (Hqd : Qs dest) by (apply uri_chars_plain; assumption).
        destruct (b_image b); (split; [repeat constructor; assumption|cbn; eauto]).
      + intros k id t0 E ->. apply snoc_inj in E as [_ E]. discriminate.
  Qed.

  (** ** The whole inline parser *)
  Theorem parseInline_spec s : inv s ->
    match parseInline s with
    | Ok (true, s') => istep s s'
    | Ok (false, s') => s' = s /\ ip_pos s = length (ip_subject s)
    | Err e => may_raise Q s e
    end.
  Proof.
    intros Hi. unfold parseInline. destruct (ip_peek s) as [c|] eqn:Ep.
    2:{ split; [reflexivity|]. unfold ip_peek in Ep. apply nth_error_None in Ep. pose proof (iv_pos _ _ Hi) as G. unfold pos_ok in G. lia. }
    match goal with |- match (let* _ := ?x in _) with _ => _ end => set (r := x) end.
    assert (Hf : fine s r).
    { subst r. destruct (N.eqb_spec c LF) as [->|]; [apply parseNewline_fine; assumption|].
      destruct (N.eqb_spec c 92) as [->|]; [apply parseBackslash_fine; assumption|].
      destruct (N.eqb_spec c 96) as [->|]; [apply parseBackticks_fine; assumption|].
      destruct (N.eqb c 42 || N.eqb c 95) eqn:E1; [apply handleDelim_fine; auto; left; unfold is_emph_char; lia|].
      destruct (N.eqb c 39 || N.eqb c 34) eqn:E2; [destruct (ip_smart s); [apply handleDelim_fine; auto; right; unfold is_quote_char; lia|reflexivity]|].
      destruct (N.eqb_spec c 91) as [->|]; [apply parseOpenBracket_fine; assumption|].
      destruct (N.eqb_spec c 33) as [->|]; [apply parseBang_fine; assumption|].
      destruct (N.eqb_spec c 93) as [->|]; [apply parseCloseBracket_fine; assumption|].
      destruct (N.eqb_spec c 60) as [->|].
      { pose proof (parseAutolink_fine Q HQ HQc s Hi) as G. destruct (parseAutolink s) as [[[|] s1]|e]; cbn [bind]; [exact G| |exact G].
        cbn in G. subst s1. apply parseHtmlTag_fine; assumption. }
      destruct (N.eqb_spec c 38) as [->|]; [apply parseEntity_fine; assumption|]. apply parseString_fine; assumption. }
    clearbody r. destruct r as [[b s1]|e]; [|exact Hf]. cbn [bind]. destruct b; [exact Hf|]. cbn in Hf. subst s1.
    apply peek_some in Ep as Hl. apply (is_leaf Q s (text_node [c]) (ip_pos s + 1)); [|unfold at_pos; lia|lia].
    apply text1_leaf. apply peek_in in Ep. pose proof (iv_subj _ _ Hi) as G. unfold InlineFacts.Qs in G. rewrite Forall_forall in G. auto.
  Qed.

  (** reflexive transitive closure *)
  Inductive isteps (s : ip) : ip -> Prop :=
  | iss_refl : isteps s s
  | iss_step s1 s2 : isteps s s1 -> istep s1 s2 -> isteps s s2.
  Lemma isteps_inv s s' : inv s -> isteps s s' -> inv s' /\ ip_pos s <= ip_pos s' /\ ip_subject s' = ip_subject s /\ ip_refmap s' = ip_refmap s /\ ip_smart s' = ip_smart s.
  Proof.
    intros Hi. induction 1 as [|s1 s2 H IH H2]; [auto|]. destruct IH as (I1 & I2 & I3 & I4 & I5).
    destruct (istep_inv _ _ I1 H2) as (J1 & J2 & J3 & J4 & J5). split; [exact J1|]. split; [lia|]. rewrite J3, J4, J5. auto.
  Qed.
  Lemma isteps_trans a b c : isteps a b -> isteps b c -> isteps a c.
  Proof. intros H1 H2. induction H2; [exact H1|]. eapply iss_step; eassumption. Qed.

  Lemma inline_loop_spec : forall n s, inv s -> length (ip_subject s) - ip_pos s < n ->
    match inline_loop n s with
    | Ok s' => isteps s s' /\ inv s' /\ ip_pos s' = length (ip_subject s)
    | Err e => may_raise Q s e
    end.
  Proof.
    induction n as [|n IH]; intros s Hi Hn; [lia|]. cbn [inline_loop]. pose proof (parseInline_spec s Hi) as H.
    destruct (parseInline s) as [[b s1]|e]; [|exact H]. cbn [bind]. destruct b.
    - destruct (istep_inv _ _ Hi H) as (J1 & J2 & J3 & J4 & J5). specialize (IH s1 J1). rewrite J3 in IH. pose proof (iv_pos _ _ J1) as G. unfold pos_ok in G. rewrite J3 in G.
      assert (Hlt : length (ip_subject s) - ip_pos s1 < n) by lia. specialize (IH Hlt). destruct (inline_loop n s1) as [s2|e]; [|unfold may_raise in *; rewrite J3 in IH; exact IH].
      destruct IH as (K1 & K2 & K3). split; [|auto]. eapply isteps_trans; [|exact K1]. eapply iss_step; [apply iss_refl|exact H].
    - destruct H as [-> H]. split; [apply iss_refl|auto].
  Qed.

  Definition ip0 (content : str) (s : ip) : ip := IP (strip content) 0 (ip_refmap s) (ip_smart s) [] [] [] 0.
  Lemma ip0_inv content s : Qs content -> refs_ok (ip_refmap s) -> inv (ip0 content s).
  Proof.
    intros Hc Hr. constructor; cbn; auto; try constructor.
    - eapply Qs_infix; [apply infix_strip|exact Hc].
    - unfold pos_ok. cbn. lia.
    - exists []. repeat split; [constructor|]. intros a b c E. destruct a; discriminate.
    - intros k id t E. destruct k; discriminate.
  Qed.
  Lemma final_emphasis s : inv s -> exists ks nx, processEmphasis None (ip_delims s) (ip_kids s) (ip_next s) = Ok ([], ks, nx) /\ Forall inline_tree (map snd ks).
  Proof.
    intros Hi. destruct (iv_marks _ _ Hi) as (ms & Hd & Hb & Hm & Hp).
    destruct (emphasis_fine None (ip_delims s) [] (ip_kids s) (ip_next s)) as (ks & nx & E & _ & _ & _ & Hg).
    - reflexivity.
    - rewrite app_nil_r, Hd. eapply md_NoDup; [exact Hm|apply (iv_nodup _ _ Hi)].
    - apply marked_md in Hm. rewrite Hd. replace (md (rev ms)) with (rev (md ms)) in Hm; [exact Hm|].
      clear. induction ms as [|[d|b] ms IH]; [reflexivity|..]; cbn; rewrite md_app; cbn; rewrite ?app_nil_r.
      + change (flat_map _ ms) with (md ms). rewrite IH. reflexivity.
      + change (flat_map _ ms) with (md ms). exact IH.
    - apply (iv_nodup _ _ Hi).
    - apply (iv_ids _ _ Hi).
    - apply (iv_good _ _ Hi).
    - rewrite app_nil_r in E. exists ks, nx. auto.
  Qed.

  Theorem parseInlines_spec content s : Qs content -> refs_ok (ip_refmap s) ->
    match parseInlines content s with
    | Ok (kids, s') => Forall inline_tree kids /\ ip_refmap s' = ip_refmap s /\ ip_smart s' = ip_smart s
    | Err e => (e = IndexError /\ infix [38; 35]%N content) \/ (e = UnicodeEncodeError /\ raises_unicode)
    end.
  Proof.
    intros Hc Hr. unfold parseInlines. fold (ip0 content s).
    pose proof (inline_loop_spec (S (length (strip content))) (ip0 content s) (ip0_inv _ _ Hc Hr)) as H. cbn [ip0 ip_subject ip_pos] in H.
    specialize (H ltac:(lia)). fold (ip0 content s) in H. destruct (inline_loop _ (ip0 content s)) as [s1|e].
    - destruct H as (H1 & H2 & H3). destruct (isteps_inv _ _ (ip0_inv _ _ Hc Hr) H1) as (_ & _ & _ & E1 & E2).
      cbn [bind]. destruct (final_emphasis s1 H2) as (ks & nx & -> & Hg). cbn [bind]. cbn. auto.
    - cbn [bind]. destruct H as [[-> H]|H]; [left|right; exact H]. split; [reflexivity|]. eapply infix_trans; [exact H|apply infix_strip].
  Qed.

  (** something is built from anything but white space *)
  Lemma istep_ne s s' : istep s s' -> ip_kids s' <> [].
  Proof. intros H E. destruct H; cbn [ip_kids] in E; apply app_eq_nil in E as [_ E]; discriminate. Qed.
  Lemma delim_text_ne d l : delim_text d l -> l <> [].
  Proof. intros [(_ & H & ->)|(_ & _ & [[_ [->| ->]]|[_ [->| ->]]])]; try discriminate. destruct (d_num d); [lia|discriminate]. Qed.
  Lemma writes_text_ne a l b w : writes_all (a ++ text_node l :: b) w -> l <> [] -> w <> [].
  Proof.
    intros H Hl. revert w H. induction a as [|t a IH]; intros w H; cbn [app] in H; inversion H as [|t0 ts w1 ws H1 H2]; subst; intros E; apply app_eq_nil in E as [E1 E2].
    - subst w1. inversion H1; subst; cbn [n_t text_node text_data] in *; try discriminate; try congruence.
      destruct l; [congruence|]. match goal with G : n_literal _ = Some _ |- _ => cbn in G; injection G as <- end. discriminate.
    - exact (IH _ H2 E2).
  Qed.
  Lemma final_emphasis_ne s ds ks nx : inv s -> processEmphasis None (ip_delims s) (ip_kids s) (ip_next s) = Ok (ds, ks, nx) -> ip_kids s <> [] -> ks <> [].
  Proof.
    intros Hi E Hne. destruct (iv_marks _ _ Hi) as (ms & Hd & Hb & Hm & Hp). destruct (writes_all_exists _ (iv_good _ _ Hi)) as [w Hw].
    assert (Hmd : marked (map MD (rev (ip_delims s))) (ip_kids s)).
    { apply marked_md in Hm. rewrite Hd. replace (md (rev ms)) with (rev (md ms)) in Hm; [exact Hm|].
      clear. induction ms as [|[d|b] ms IH]; [reflexivity|..]; cbn; rewrite md_app; cbn; rewrite ?app_nil_r.
      + change (flat_map _ ms) with (md ms). rewrite IH. reflexivity.
      + change (flat_map _ ms) with (md ms). exact IH. }
    destruct (processEmphasis_spec inline_tree inline_emph inline_strong inline_delim inline_quote same_tok True same_tok_refl same_tok_trans (fun _ _ _ H => H) None (ip_delims s) [] (ip_kids s) (ip_next s) w)
      as (ks' & nx' & E' & _ & _ & _ & _ & (w' & Hw' & Hs)).
    - reflexivity.
    - rewrite app_nil_r, Hd. eapply md_NoDup; [exact Hm|apply (iv_nodup _ _ Hi)].
    - exact Hmd.
    - apply (iv_nodup _ _ Hi).
    - apply (iv_ids _ _ Hi).
    - apply (iv_good _ _ Hi).
    - apply Forall_forall. intros x _ _. exact I.
    - exists w. split; [exact Hw|]. clear. induction w; constructor; [apply same_tok_refl|assumption].
    - rewrite app_nil_r in E'. rewrite E in E'. apply Ok_inj in E'. injection E' as -> -> ->. intros ->. inversion Hw'; subst. inversion Hs; subst.
      destruct (rev (ip_delims s)) as [|d l] eqn:Er.
      + apply (f_equal (@rev _)) in Er. rewrite rev_involutive in Er. cbn [rev] in Er. rewrite Er in E. unfold processEmphasis in E. cbn in E. injection E. intros. congruence.
      + cbn [map] in Hmd. apply marked_cons_inv in Hmd as (t & pre & post & Ek & (lo & -> & Hlo) & _). rewrite Ek, map_app in Hw. cbn [map snd] in Hw.
        apply (writes_text_ne _ _ _ _ Hw); [eapply delim_text_ne; exact Hlo|reflexivity].
  Qed.
  Theorem parseInlines_ne content s kids s' : Qs content -> refs_ok (ip_refmap s) -> strip content <> [] -> parseInlines content s = Ok (kids, s') -> kids <> [].
  Proof.
    intros Hc Hr Hne. unfold parseInlines. fold (ip0 content s).
    pose proof (inline_loop_spec (S (length (strip content))) (ip0 content s) (ip0_inv _ _ Hc Hr)) as H. cbn [ip0 ip_subject ip_pos] in H.
    specialize (H ltac:(lia)). fold (ip0 content s) in H. destruct (inline_loop _ (ip0 content s)) as [s1|e]; cbn [bind]; [|discriminate].
    destruct H as (H1 & H2 & H3). destruct (processEmphasis _ _ _ _) as [[[ds ks] nx]|e] eqn:E; cbn [bind]; [|discriminate]. intros X. apply Ok_inj in X. injection X as <- _.
    apply (final_emphasis_ne s1 ds ks nx H2) in E.
    - intros X. apply map_eq_nil in X. exact (E X).
    - destruct H1 as [|s2 s3 _ H1]; [|exact (istep_ne _ _ H1)]. cbn in H3. destruct (strip content); [congruence|cbn in H3; lia].
  Qed.

  (** ** Link reference definitions *)
  Theorem parseReference_spec subj rm s : Qs subj -> refs_ok rm ->
    match parseReference subj rm s with
    | Ok (n, s', rm') => n <= length subj /\ refs_ok rm' /\ ip_smart s' = ip_smart s /\ ip_refmap s' = ip_refmap s
    | Err e => e = UnicodeEncodeError /\ raises_unicode
    end.
  Proof.
    intros Hs Hr. unfold parseReference. set (s0 := set_ip_pos 0 (set_ip_subject subj s)).
    assert (S0 : ip_subject s0 = subj) by reflexivity.
    destruct (parseLinkLabel_spec s0) as (p1 & E1 & Hp1); [unfold pos_ok; cbn; lia|].
    destruct (parseLinkLabel s0) as [n s1]. cbn in E1. subst s1. unfold at_pos in Hp1. rewrite S0 in Hp1.
    destruct (Nat.eqb n 0 || Nat.eqb n 2); [cbn; repeat split; auto; lia|].
    destruct (peek_is 58 (set_ip_pos p1 s0)) eqn:E58; cbn [negb]; [|cbn; repeat split; auto; lia].
    apply peek_is_true, peek_some in E58. cbn in E58.
    destruct (spnl_pos (ip_adv 1 (set_ip_pos p1 s0))) as (p2 & -> & Hp2); [unfold pos_ok; cbn; lia|]. unfold at_pos in Hp2. cbn in Hp2.
    change (set_ip_pos p2 (ip_adv 1 (set_ip_pos p1 s0))) with (set_ip_pos p2 s0).
    assert (Hok : pos_ok (set_ip_pos p2 s0)) by (unfold pos_ok; cbn; lia).
    pose proof (parseLinkDestination_spec (set_ip_pos p2 s0) Hs Hok) as HD. destruct (parseLinkDestination (set_ip_pos p2 s0)) as [[dest s3]|e]; [|exact HD].
    cbn [unicode_or fst snd] in HD. destruct HD as (p3 & -> & Hp3 & Hd). unfold at_pos in Hp3. cbn in Hp3.
    change (set_ip_pos p3 (set_ip_pos p2 s0)) with (set_ip_pos p3 s0). cbn [bind].
    destruct dest as [dest|]; [|cbn; repeat split; auto; lia].
    destruct (spnl_pos (set_ip_pos p3 s0)) as (p4 & -> & Hp4); [unfold pos_ok; cbn; lia|]. unfold at_pos in Hp4. cbn in Hp4.
    change (set_ip_pos p4 (set_ip_pos p3 s0)) with (set_ip_pos p4 s0). cbn [ip_pos set_ip_pos].
    assert (HT : exists p5 title0, (if Nat.eqb p4 p3 then (None, set_ip_pos p4 s0) else parseLinkTitle (set_ip_pos p4 s0)) = (title0, set_ip_pos p5 s0)
              /\ p5 <= length subj /\ Qs (or_empty title0)).
    { destruct (Nat.eqb p4 p3); [exists p4, None; split; [reflexivity|]; split; [lia|constructor]|].
      destruct (parseLinkTitle_spec (set_ip_pos p4 s0)) as (p5 & E5 & Hp5 & HT); [exact Hs|unfold pos_ok; cbn; lia|].
      destruct (parseLinkTitle (set_ip_pos p4 s0)) as [title s5]. cbn in E5, HT. subst s5. unfold at_pos in Hp5. cbn in Hp5. exists p5, title. repeat split; [lia|exact HT]. }
    destruct HT as (p5 & title0 & -> & Hp5 & HT). cbn [set_ip_pos] in *.
    assert (HT2 : exists p6 title, (match title0 with None => ([], set_ip_pos p3 (set_ip_pos p5 s0)) | Some t => (t, set_ip_pos p5 s0) end) = (title, set_ip_pos p6 s0) /\ p6 <= length subj /\ Qs title).
    { destruct title0 as [t|]; [exists p5, t|exists p3, []]; (split; [reflexivity|]; split; [lia|]); [exact HT|constructor]. }
    destruct HT2 as (p6 & title & -> & Hp6 & HT2).
    assert (HE : exists b p7, (match ip_match reSpaceAtEndOfLine (set_ip_pos p6 s0) with
              | Some (_, x) => (true, x)
              | None => if is_nil title then (false, set_ip_pos p6 s0)
                  else match ip_match reSpaceAtEndOfLine (set_ip_pos p3 (set_ip_pos p6 s0)) with
                       | Some (_, x) => (true, x)
                       | None => (false, set_ip_pos p3 (set_ip_pos p6 s0)) end end) = (b, set_ip_pos p7 s0) /\ p7 <= length subj).
    { destruct (ip_match reSpaceAtEndOfLine (set_ip_pos p6 s0)) as [[m x]|] eqn:Em.
      - apply ip_match_some in Em as (b & a & q & -> & _ & Hq & Hq2 & Him); [|unfold pos_ok; cbn; lia]. exists true, q. split; [reflexivity|exact Hq2].
      - destruct (is_nil title); [exists false, p6; split; [reflexivity|lia]|].
        destruct (ip_match reSpaceAtEndOfLine (set_ip_pos p3 (set_ip_pos p6 s0))) as [[m x]|] eqn:Em2.
        + apply ip_match_some in Em2 as (b & a & q & -> & _ & Hq & Hq2 & Him); [|unfold pos_ok; cbn; lia]. exists true, q. split; [reflexivity|exact Hq2].
        + exists false, p3. split; [reflexivity|lia]. }
    destruct HE as (b & p7 & -> & Hp7). destruct b; cbn [negb]; [|cbn; repeat split; auto; lia].
    destruct (is_nil (normalize_reference (firstn n subj))); [cbn; repeat split; auto; lia|].
    cbn [ip_pos set_ip_pos]. split; [lia|]. split; [|split; reflexivity].
    destruct (assoc_str _ rm); [exact Hr|]. apply Forall_app. split; [exact Hr|]. repeat constructor; cbn; [apply Hd; reflexivity|exact HT2].
  Qed.
End Q.
