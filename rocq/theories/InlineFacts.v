(** * What one step of the inline parser does *)
From Verif Require Import Base Regex Common NormRef Node Inlines RegexFacts StrFacts Spec SpecTree TreeFacts CommonFacts LabelFacts StrProp EmphFacts.
From Verif Require AngleFacts.
From Coq Require Import ZifyBool ZifyNat ZifyN.

(** ** Matches that consume something *)
Fixpoint nullable (r : regex) : bool :=
  match r with
  | RChr _ => false
  | RSeq a b => nullable a && nullable b
  | RAlt a b => nullable a || nullable b
  | RRep _ mn _ a => Nat.eqb mn 0 || nullable a
  | RGrp _ a => nullable a
  | _ => true
  end.
Lemma eats_len g st st' : eats g st st' -> length (ms_rest st) = length g + length (ms_rest st').
Proof. intros [H _]. rewrite H, app_length. reflexivity. Qed.
Lemma results_len r st st' : In st' (results r st) -> length (ms_rest st') <= length (ms_rest st).
Proof. intros H. apply results_eats in H as [g H]. apply eats_len in H. lia. Qed.
Lemma nullable_spec r : nullable r = false -> forall st st', In st' (results r st) -> length (ms_rest st') < length (ms_rest st).
Proof.
  induction r as [|cs|a IHa b IHb|a IHa b IHb|g mn mx a IHa|n a IHa| | | |neg a IHa]; cbn [nullable]; intros Hn st st' Hin; try discriminate; cbn [results] in Hin.
  - destruct (ms_rest st) as [|c s] eqn:E; [destruct Hin|]. destruct (cmatch cs c); [|destruct Hin]. destruct Hin as [<-|[]]. cbn. lia.
  - apply in_flat_map in Hin as (x & Hx & Hin). pose proof (results_len _ _ _ Hx). pose proof (results_len _ _ _ Hin).
    apply andb_false_iff in Hn as [Hn|Hn]; [apply (IHa Hn) in Hx|apply (IHb Hn) in Hin]; lia.
  - apply orb_false_iff in Hn as [H1 H2]. apply in_app_or in Hin as [Hin|Hin]; auto.
  - apply orb_false_iff in Hn as [H1 H2]. apply in_flat_map in Hin as (x & Hx & Hin).
    assert (G : length (ms_rest x) < length (ms_rest st)).
    { destruct mn as [|mn]; [discriminate|]. cbn [times_res] in Hx. apply in_flat_map in Hx as (y & Hy & Hx).
      apply (IHa H2) in Hy.
      destruct (times_res_eats (results a) (results_eats a) _ _ _ Hx) as [g0 Hg]. apply eats_len in Hg. lia. }
    destruct (upto_res_eats (results a) g (results_eats a) _ _ _ Hin) as [g0 Hg]. apply eats_len in Hg. lia.
  - apply in_map_iff in Hin as (x & <- & Hx). cbn. apply (IHa Hn _ _ Hx).
Qed.
Lemma re_search_nonempty r s m : nullable r = false -> re_search r s = Some m -> rm_group m <> [].
Proof.
  intros Hn H. apply re_search_some in H as (E & Hm & _). apply match_at_spec in Hm as (_ & st & Hst & Ha & _ & _).
  intros E0. rewrite E0 in *. cbn [app] in *.
  assert (Hin : In st (results r (MS (prev_of None (rm_before m)) (rm_after m) []))) by (destruct (results r _); [discriminate|]; injection Hst as ->; left; reflexivity).
  apply (nullable_spec _ Hn) in Hin. cbn in Hin. rewrite Ha in Hin. lia.
Qed.

(** ** Moving the position *)
Definition at_pos (s : ip) (p : nat) : Prop := ip_pos s <= p <= length (ip_subject s).
Definition pos_ok (s : ip) : Prop := ip_pos s <= length (ip_subject s).
Lemma ip_match_some r s m s' : pos_ok s -> ip_match r s = Some (m, s') ->
  exists b a p, s' = set_ip_pos p s /\ skipn (ip_pos s) (ip_subject s) = b ++ m ++ a /\
    p = ip_pos s + length b + length m /\ p <= length (ip_subject s) /\ infix m (ip_subject s).
Proof.
  unfold ip_match, pos_ok. intros Hp H. destruct (re_search r (skipn (ip_pos s) (ip_subject s))) as [x|] eqn:E; [|discriminate].
  apply Some_inj in H. injection H as <- <-. pose proof (re_search_some _ _ _ E) as (Es & _ & _).
  exists (rm_before x), (rm_after x), (ip_pos s + rm_end x). unfold rm_end. split; [reflexivity|]. split; [exact Es|].
  assert (Hl : length (skipn (ip_pos s) (ip_subject s)) = length (rm_before x) + (length (rm_group x) + length (rm_after x))) by (rewrite Es, !app_length; reflexivity).
  rewrite skipn_length in Hl. split; [lia|]. split; [lia|].
  eapply infix_trans; [|apply infix_skipn]. rewrite Es. exists (rm_before x), (rm_after x). reflexivity.
Qed.
Lemma ip_match_nonempty r s m s' : nullable r = false -> ip_match r s = Some (m, s') -> m <> [].
Proof.
  unfold ip_match. intros Hn H. destruct (re_search r _) as [x|] eqn:E; [|discriminate]. apply Some_inj in H. injection H as <- _.
  eapply re_search_nonempty; eassumption.
Qed.
Lemma ip_match_none_pos r s p : ip_match r (set_ip_pos p s) = ip_match r (set_ip_pos p s). Proof. reflexivity. Qed.
Lemma ip_skip_pos r s : pos_ok s -> exists p, ip_skip r s = set_ip_pos p s /\ at_pos s p.
Proof.
  unfold ip_skip, at_pos. intros Hp. destruct (ip_match r s) as [[m s']|] eqn:E.
  - apply ip_match_some in E as (b & a & p & -> & _ & H1 & H2 & _); [|exact Hp]. exists p. split; [reflexivity|lia].
  - exists (ip_pos s). split; [destruct s; reflexivity|]. unfold pos_ok in Hp. lia.
Qed.
Lemma spnl_pos s : pos_ok s -> exists p, spnl s = set_ip_pos p s /\ at_pos s p.
Proof. apply ip_skip_pos. Qed.
Lemma peek_some s c : ip_peek s = Some c -> ip_pos s < length (ip_subject s).
Proof. unfold ip_peek. intros H. apply nth_error_Some. congruence. Qed.
Lemma peek_is_true c s : peek_is c s = true -> ip_peek s = Some c.
Proof. unfold peek_is. destruct (ip_peek s) as [x|]; [|discriminate]. intros H. apply N.eqb_eq in H as ->. reflexivity. Qed.
Lemma peek_in s c : ip_peek s = Some c -> In c (ip_subject s).
Proof. unfold ip_peek. apply nth_error_In. Qed.
Lemma set_pos_twice a b s : set_ip_pos a (set_ip_pos b s) = set_ip_pos a s.
Proof. reflexivity. Qed.

Lemma infix_slice a b s : infix (slice a b s) s.
Proof. unfold slice. eapply infix_trans; [apply infix_firstn|apply infix_skipn]. Qed.

Section Q.
  Variable Q : N -> Prop.
  Hypothesis HQ : forall c, plain_char c -> Q c.
  Hypothesis HQc : forall c, Q c -> code_point c.

  Definition Qs (s : str) : Prop := Forall Q s.
  Lemma Qs_infix a s : infix a s -> Qs s -> Qs a.
  Proof. apply infix_Forall. Qed.
  Definition raises_unicode : Prop := exists c, Q c /\ surrogate c.

  (** ** Inline nodes *)
  Definition inl_node (t : tree) : Prop :=
    let 'T d kids := t in
    Forall Qs (node_strings d) /\
    match n_t d with
    | text => kids = [] /\ exists l, d = text_data l
    | code | html_inline => kids = [] /\ exists l, n_literal d = Some l
    | softbreak | linebreak => kids = []
    | emph | strong => True
    | link | image => (exists x, n_destination d = Some x /\ forallb uri_char x = true) /\ exists x, n_title d = Some x
    | _ => False
    end.
  Definition inline_tree := tree_every inl_node.
  Lemma inline_unfold d kids : inline_tree (T d kids) <-> inl_node (T d kids) /\ Forall inline_tree kids.
  Proof. apply tree_every_unfold. Qed.

  Lemma inline_text l : Qs l -> inline_tree (text_node l).
  Proof.
    intros H. apply inline_unfold. split; [|constructor]. split; [repeat constructor; exact H|]. cbn. eauto.
  Qed.
  Lemma inline_text_inv t : inline_tree t -> t_type t = text -> exists l, t = text_node l /\ Qs l.
  Proof.
    destruct t as [d kids]. intros H E. apply inline_unfold in H as [[Hs H] _]. change (n_t d = text) in E. rewrite E in H. destruct H as [-> [l ->]].
    exists l. split; [reflexivity|]. cbn in Hs. inversion Hs as [|? ? _ Hs']; subst. inversion Hs'; subst. assumption.
  Qed.

  (** ** One step *)
  Definition leaf (s : ip) (t : tree) : Prop :=
    (exists l, t = text_node l /\ Qs l /\ (l = [] -> infix [38; 35]%N (ip_subject s)))
    \/ (exists l ty, t = T (set_n_literal (Some l) (new_node ty None)) [] /\ (ty = code \/ ty = html_inline) /\ Qs l)
    \/ t = T (new_node linebreak None) []
    \/ (exists dest url, t = autolink_node dest url /\ dest <> [] /\ Qs dest /\ (normalize_uri dest = Ok url \/ normalize_uri (u "mailto:" ++ dest) = Ok url) /\
          AngleFacts.angle_word dest (ip_subject s)).

  Inductive istep (s : ip) : ip -> Prop :=
  | is_leaf t p : leaf s t -> at_pos s p -> ip_pos s < p ->
      istep s (IP (ip_subject s) p (ip_refmap s) (ip_smart s) (ip_delims s) (ip_brackets s)
                  (ip_kids s ++ [(ip_next s, t)]) (S (ip_next s)))
  | is_newline ty p ks : ty = softbreak \/ ty = linebreak -> at_pos s p -> ip_pos s < p ->
      (ks = ip_kids s \/ exists k id l, ip_kids s = k ++ [(id, text_node l)] /\ last_opt l = Some SP /\
          ks = k ++ [(id, text_node (re_sub reFinalSpace (fun _ => []) l))]) ->
      istep s (IP (ip_subject s) p (ip_refmap s) (ip_smart s) (ip_delims s) (ip_brackets s)
                  (ks ++ [(ip_next s, T (new_node ty None) [])]) (S (ip_next s)))
  | is_delim d l p : d_node d = ip_next s -> delim_text d l -> Qs l -> at_pos s p -> ip_pos s < p ->
      istep s (IP (ip_subject s) p (ip_refmap s) (ip_smart s) (d :: ip_delims s) (ip_brackets s)
                  (ip_kids s ++ [(ip_next s, text_node l)]) (S (ip_next s)))
  | is_bracket b p : b_node b = ip_next s -> b_prevdelim b = hd_id (ip_delims s) -> b_active b = true -> at_pos s p -> ip_pos s < p ->
      istep s (IP (ip_subject s) p (ip_refmap s) (ip_smart s) (ip_delims s) (b :: ip_brackets s)
                  (ip_kids s ++ [(ip_next s, text_node (if b_image b then [33; 91]%N else [91]%N))]) (S (ip_next s)))
  | is_close b bs p : ip_brackets s = b :: bs -> at_pos s p -> ip_pos s < p ->
      istep s (IP (ip_subject s) p (ip_refmap s) (ip_smart s) (ip_delims s) bs
                  (ip_kids s ++ [(ip_next s, text_node [93%N])]) (S (ip_next s)))
  | is_link b bs p dest title pre tb post ds ks nx : ip_brackets s = b :: bs -> b_active b = true ->
      at_pos s p -> ip_pos s < p -> forallb uri_char dest = true -> Qs title ->
      split_kid (b_node b) (ip_kids s) = Some (pre, tb, post) ->
      processEmphasis (b_prevdelim b) (ip_delims s) post (S (ip_next s)) = Ok (ds, ks, nx) ->
      istep s (IP (ip_subject s) p (ip_refmap s) (ip_smart s) ds
                  (if b_image b then bs else map (fun b => if b_image b then b else set_b_active false b) bs)
                  (pre ++ [(ip_next s, T (set_n_title (Some title) (set_n_destination (Some dest)
                                            (new_node (if b_image b then image else link) None))) (map snd ks))]) nx).

  (** what may be raised *)
  Definition may_raise (s : ip) (e : exn) : Prop :=
    (e = IndexError /\ infix [38; 35]%N (ip_subject s)) \/ (e = UnicodeEncodeError /\ raises_unicode).
  Definition fine (s : ip) (r : res (bool * ip)) : Prop :=
    match r with
    | Ok (true, s') => istep s s'
    | Ok (false, s') => s' = s
    | Err e => may_raise s e
    end.

  (** ** The invariant *)
  Definition prev_ok (ms : list mark) : Prop :=
    forall a b c, ms = a ++ MB b :: c -> b_prevdelim b = hd_id (md c).
  Definition refs_ok (rm : refmap_t) : Prop :=
    Forall (fun x => forallb uri_char (fst (snd x)) = true /\ Qs (snd (snd x))) rm.
  Record inv (s : ip) : Prop := {
    iv_subj : Qs (ip_subject s);
    iv_pos : pos_ok s;
    iv_refs : refs_ok (ip_refmap s);
    iv_nodup : NoDup (ids (ip_kids s));
    iv_ids : Forall (fun i => i < ip_next s) (ids (ip_kids s));
    iv_marks : exists ms, ip_delims s = md ms /\ ip_brackets s = mb ms /\ marked (rev ms) (ip_kids s) /\ prev_ok ms;
    iv_good : Forall inline_tree (map snd (ip_kids s));
    iv_last : forall k id t, ip_kids s = k ++ [(id, t)] -> t = text_node [] -> infix [38; 35]%N (ip_subject s) }.

  (** *** URIs *)
  Lemma normalize_uri_case s : Qs s ->
    (exists v, normalize_uri s = Ok v /\ forallb uri_char v = true) \/
    (normalize_uri s = Err UnicodeEncodeError /\ raises_unicode).
  Proof.
    intros H. destruct (normalize_uri s) as [v|e] eqn:E.
    - left. exists v. split; [reflexivity|]. eapply normalize_uri_uri_chars; [|exact E]. eapply Forall_impl; [|exact H]. exact HQc.
    - right. pose proof (normalize_uri_err _ _ E) as ->. split; [reflexivity|].
      assert (Hn : ~ Forall (fun c => ~ surrogate c) s) by (intros G; apply normalize_uri_ok in G as [l G]; congruence).
      clear E. induction s as [|c s IH]; [exfalso; apply Hn; constructor|]. inversion H; subst.
      assert (Dc : surrogate c \/ ~ surrogate c) by (unfold surrogate; lia).
      destruct Dc as [Hc|Hc]; [exists c; auto|]. apply IH; [assumption|]. intros G. apply Hn. constructor; assumption.
  Qed.
  Lemma mailto_Q : Qs (u "mailto:").
  Proof. repeat constructor; apply HQ; unfold plain_char; lia. Qed.

  (** *** Each parser *)
  Lemma ticks_loop_fine ticks s0 after : inv s0 -> ip_pos s0 < after -> at_pos s0 after -> infix ticks (ip_subject s0) -> ticks <> [] ->
    forall n s p, s = set_ip_pos p s0 -> after <= p <= length (ip_subject s0) -> length (ip_subject s0) - p < n ->
    exists s', ticks_loop n ticks after s = Ok s' /\ istep s0 s'.
  Proof.
    intros Hi Ha Hb Ht Hne. induction n as [|n IH]; intros s p -> Hp Hn; [lia|]. cbn [ticks_loop].
    destruct (ip_match reTicks (set_ip_pos p s0)) as [[m s1]|] eqn:E.
    - pose proof (ip_match_nonempty reTicks _ _ _ eq_refl E) as Hm.
      apply ip_match_some in E as (b & a & q & -> & _ & Hq & Hq2 & Him); [|unfold pos_ok; cbn; lia]. cbn [ip_pos ip_subject set_ip_pos] in *.
      assert (1 <= length m) by (destruct m; [congruence|cbn; lia]).
      destruct (str_eqb m ticks) eqn:Em.
      + eexists. split; [reflexivity|]. eapply (is_leaf s0 _ q); [|unfold at_pos; lia|lia].
        right; left. eexists _, code. split; [reflexivity|]. split; [auto|].
        set (c := replace_char LF SP (slice after (q - length ticks) (ip_subject s0))).
        assert (Hc : Qs c).
        { subst c. unfold replace_char. apply Forall_forall. intros x Hx. apply in_map_iff in Hx as (y & <- & Hy).
          destruct (N.eqb y LF); [apply HQ; unfold plain_char, SP; lia|].
          pose proof (Qs_infix _ _ (infix_slice after (q - length ticks) (ip_subject s0)) (iv_subj _ Hi)) as G.
          unfold Qs in G. rewrite Forall_forall in G. auto. }
        destruct (strip_left (N.eqb SP) c); [exact Hc|]. destruct c as [|c0 c']; [exact Hc|]. destruct (last_opt (c0 :: c')); [|exact Hc].
        destruct (N.eqb c0 SP && N.eqb n1 SP); [|exact Hc]. eapply Qs_infix; [apply infix_chop_ends|exact Hc].
      + apply (IH _ q); [reflexivity|lia|lia].
    - eexists. split; [reflexivity|]. eapply (is_leaf s0 _ after); [|exact Hb|lia]. left. exists ticks. split; [reflexivity|].
      split; [eapply Qs_infix; [exact Ht|apply (iv_subj _ Hi)]|congruence].
  Qed.
  Lemma parseBackticks_fine s : inv s -> fine s (parseBackticks s).
  Proof.
    intros Hi. unfold parseBackticks. destruct (ip_match reTicksHere s) as [[m s1]|] eqn:E; [|reflexivity].
    pose proof (ip_match_nonempty reTicksHere _ _ _ eq_refl E) as Hm.
    apply ip_match_some in E as (b & a & q & -> & _ & Hq & Hq2 & Him); [|apply (iv_pos _ Hi)].
    assert (1 <= length m) by (destruct m; [congruence|cbn; lia]).
    destruct (ticks_loop_fine m s q Hi) with (n := S (length (ip_subject s))) (s := set_ip_pos q s) (p := q) as (s' & E & Hs);
      try (unfold at_pos; lia); auto.
    cbn [ip_pos set_ip_pos]. rewrite E. exact Hs.
  Qed.
  Lemma text1_leaf s c : Q c -> leaf s (text_node [c]).
  Proof. intros H. left. exists [c]. split; [reflexivity|]. split; [repeat constructor; exact H|discriminate]. Qed.
  Lemma parseBackslash_fine s : inv s -> ip_peek s = Some 92%N -> fine s (parseBackslash s).
  Proof.
    intros Hi Hp. apply peek_some in Hp as Hl. unfold parseBackslash.
    destruct (peek_is LF (ip_adv 1 s)) eqn:E.
    - apply peek_is_true, peek_some in E. cbn in E. cbn [fine].
      eapply (is_leaf s (T (new_node linebreak None) []) (ip_pos s + 1 + 1)); [|unfold at_pos; lia|lia]. right. right. left. reflexivity.
    - assert (H92 : istep s (append_kid (text_node [92%N]) (ip_adv 1 s))).
      { eapply (is_leaf s (text_node [92%N]) (ip_pos s + 1)); [|unfold at_pos; lia|lia]. apply text1_leaf, HQ. unfold plain_char. lia. }
      destruct (nth_error (ip_subject (ip_adv 1 s)) (ip_pos (ip_adv 1 s))) as [c|] eqn:En; [|exact H92].
      cbn in En. destruct (re_test reEscapable [c]); [|exact H92]. cbn [fine].
      assert (ip_pos s + 1 < length (ip_subject s)) by (apply nth_error_Some; congruence).
      eapply (is_leaf s (text_node [c]) (ip_pos s + 1 + 1)); [|unfold at_pos; lia|lia]. apply text1_leaf.
      apply nth_error_In in En. pose proof (iv_subj _ Hi) as G. unfold Qs in G. rewrite Forall_forall in G. auto.
  Qed.
  Lemma chop_ends_nonempty m : 3 <= length m -> chop_ends m <> [].
  Proof. destruct m as [|a [|b [|c m]]]; cbn; try lia. intros _. destruct m; discriminate. Qed.
  (** lower bound on the length of a match *)
  Fixpoint min_len (r : regex) : nat :=
    match r with
    | RChr _ => 1
    | RSeq a b => min_len a + min_len b
    | RAlt a b => Nat.min (min_len a) (min_len b)
    | RRep _ mn _ a => mn * min_len a
    | RGrp _ a => min_len a
    | _ => 0
    end.
  Lemma min_len_spec r : forall st st', In st' (results r st) -> min_len r + length (ms_rest st') <= length (ms_rest st).
  Proof.
    induction r as [|cs|a IHa b IHb|a IHa b IHb|g mn mx a IHa|n a IHa| | | |neg a IHa]; intros st st' Hin; try (apply results_len in Hin; cbn [min_len]; lia); cbn [results] in Hin; cbn [min_len].
    - destruct (ms_rest st) as [|c s] eqn:E; [destruct Hin|]. destruct (cmatch cs c); [|destruct Hin]. destruct Hin as [<-|[]]. cbn. lia.
    - apply in_flat_map in Hin as (x & Hx & Hin). apply IHa in Hx. apply IHb in Hin. lia.
    - apply in_app_or in Hin as [Hin|Hin]; [apply IHa in Hin|apply IHb in Hin]; lia.
    - apply in_flat_map in Hin as (x & Hx & Hin). destruct (upto_res_eats (results a) g (results_eats a) _ _ _ Hin) as [g0 Hg]. apply eats_len in Hg.
      assert (G : mn * min_len a + length (ms_rest x) <= length (ms_rest st)).
      { clear Hin Hg. revert st Hx. induction mn as [|mn IH]; intros st Hx; cbn [times_res] in Hx.
        - destruct Hx as [->|[]]. lia.
        - apply in_flat_map in Hx as (y & Hy & Hx). apply IHa in Hy. apply IH in Hx. lia. }
      lia.
    - apply in_map_iff in Hin as (x & <- & Hx). cbn. apply (IHa _ _ Hx).
  Qed.
  Lemma ip_match_len r s m s' : ip_match r s = Some (m, s') -> min_len r <= length m.
  Proof.
    unfold ip_match. intros H. destruct (re_search r _) as [x|] eqn:E; [|discriminate]. apply Some_inj in H. injection H as <- _.
    apply re_search_some in E as (E & Hm & _). apply match_at_spec in Hm as (_ & st & Hst & Ha & _ & He).
    assert (Hin : In st (results r (MS (prev_of None (rm_before x)) (rm_group x ++ rm_after x) []))) by (destruct (results r _); [discriminate|]; injection Hst as ->; left; reflexivity).
    apply min_len_spec in Hin. cbn in Hin. rewrite Ha, app_length in Hin. lia.
  Qed.
  Lemma parseAutolink_fine s : inv s -> fine s (parseAutolink s).
  Proof.
    intros Hi. unfold parseAutolink.
    destruct (ip_match reEmailAutolink s) as [[m s1]|] eqn:E.
    - pose proof (AngleFacts.email_match _ _ _ E) as Ha. pose proof (ip_match_len _ _ _ _ E) as Hlen. change (min_len reEmailAutolink) with 5 in Hlen.
      apply ip_match_some in E as (b & a & q & -> & _ & Hq & Hq2 & Him); [|apply (iv_pos _ Hi)].
      assert (Hd : Qs (chop_ends m)) by (eapply Qs_infix; [|apply (iv_subj _ Hi)]; eapply infix_trans; [apply infix_chop_ends|exact Him]).
      destruct (normalize_uri_case (u "mailto:" ++ chop_ends m)) as [(v & Ev & Hv)|(Ev & Hv)]; [apply Forall_app; split; [apply mailto_Q|exact Hd]|..]; rewrite Ev; cbn [bind fine].
      + eapply (is_leaf s _ q); [|unfold at_pos; lia|lia]. right. right. right. exists (chop_ends m), v. split; [reflexivity|]. split; [apply chop_ends_nonempty; lia|]. auto.
      + right. auto.
    - destruct (ip_match reAutolink s) as [[m s1]|] eqn:E2; [|reflexivity].
      pose proof (AngleFacts.autolink_match _ _ _ E2) as Ha. pose proof (ip_match_len _ _ _ _ E2) as Hlen. change (min_len reAutolink) with 5 in Hlen. clear E.
      apply ip_match_some in E2 as (b & a & q & -> & _ & Hq & Hq2 & Him); [|apply (iv_pos _ Hi)].
      assert (Hd : Qs (chop_ends m)) by (eapply Qs_infix; [|apply (iv_subj _ Hi)]; eapply infix_trans; [apply infix_chop_ends|exact Him]).
      destruct (normalize_uri_case (chop_ends m) Hd) as [(v & Ev & Hv)|(Ev & Hv)]; rewrite Ev; cbn [bind fine].
      + eapply (is_leaf s _ q); [|unfold at_pos; lia|lia]. right. right. right. exists (chop_ends m), v. split; [reflexivity|]. split; [apply chop_ends_nonempty; lia|]. auto.
      + right. auto.
  Qed.
  Lemma parseHtmlTag_fine s : inv s -> fine s (parseHtmlTag s).
  Proof.
    intros Hi. unfold parseHtmlTag. destruct (ip_match reHtmlTag s) as [[m s1]|] eqn:E; [|reflexivity].
    pose proof (ip_match_nonempty reHtmlTag _ _ _ eq_refl E) as Hm.
    apply ip_match_some in E as (b & a & q & -> & _ & Hq & Hq2 & Him); [|apply (iv_pos _ Hi)].
    assert (1 <= length m) by (destruct m; [congruence|cbn; lia]). cbn [fine].
    eapply (is_leaf s _ q); [|unfold at_pos; lia|lia]. right. left. exists m, html_inline. split; [reflexivity|]. split; [auto|].
    eapply Qs_infix; [exact Him|apply (iv_subj _ Hi)].
  Qed.
  Lemma skipn_nth {A} (l : list A) n c : nth_error l n = Some c -> skipn n l = c :: skipn (S n) l.
  Proof. revert n. induction l as [|x l IH]; intros [|n] H; cbn in *; try discriminate; [congruence|]. apply IH, H. Qed.
  Lemma take_while_repeat c l : take_while (N.eqb c) l = repeat c (length (take_while (N.eqb c) l)).
  Proof. induction l as [|x l IH]; [reflexivity|]. cbn. destruct (N.eqb_spec c x); [|reflexivity]. subst. cbn. congruence. Qed.
  Lemma take_while_prefix c l : firstn (length (take_while (N.eqb c) l)) l = take_while (N.eqb c) l.
  Proof. induction l as [|x l IH]; [reflexivity|]. cbn. destruct (N.eqb c x); [|reflexivity]. cbn. congruence. Qed.
  Lemma take_while_len {A} (f : A -> bool) l : length (take_while f l) <= length l.
  Proof. induction l as [|x l IH]; cbn; [lia|]. destruct (f x); cbn; lia. Qed.
  Lemma handleDelim_fine s c : inv s -> ip_peek s = Some c -> is_emph_char c \/ is_quote_char c -> fine s (handleDelim c s).
  Proof.
    intros Hi Hp Hc. unfold handleDelim. destruct (scanDelims c s) as [[[num co] cc]|] eqn:E; [|reflexivity].
    unfold scanDelims in E. pose proof (peek_some _ _ Hp) as Hl. unfold ip_peek in Hp. rewrite (skipn_nth _ _ _ Hp) in E.
    set (rest := skipn (S (ip_pos s)) (ip_subject s)) in *. pose proof (skipn_length (S (ip_pos s)) (ip_subject s)) as Hr. fold rest in Hr.
    destruct (Nat.eqb (if N.eqb c 39 || N.eqb c 34 then 1 else length (take_while (N.eqb c) (c :: rest))) 0); [discriminate|].
    assert (Hnum : num = if N.eqb c 39 || N.eqb c 34 then 1 else length (take_while (N.eqb c) (c :: rest))).
    { destruct (if N.eqb c 95 then _ else _) as [x y]. apply Some_inj in E. congruence. }
    clear E. cbn [take_while] in Hnum. rewrite N.eqb_refl in Hnum. cbn [length] in Hnum.
    pose proof (take_while_len (N.eqb c) rest) as Htl.
    cbn [fine].
    change (istep s (IP (ip_subject s) (ip_pos s + num) (ip_refmap s) (ip_smart s) (DL c num num (ip_next s) co cc :: ip_delims s) (ip_brackets s)
      (ip_kids s ++ [(ip_next s, text_node (if N.eqb c 39 then [8217%N] else if N.eqb c 34 then [8220%N] else slice (ip_pos s) (ip_pos s + num) (ip_subject s)))]) (S (ip_next s)))).
    assert (Hsl : is_emph_char c -> slice (ip_pos s) (ip_pos s + num) (ip_subject s) = repeat c num).
    { intros He. unfold is_emph_char in He. replace (N.eqb c 39 || N.eqb c 34) with false in Hnum by lia. unfold slice.
      replace (ip_pos s + num - ip_pos s) with num by lia. rewrite (skipn_nth _ _ _ Hp). fold rest.
      rewrite Hnum. cbn [firstn repeat]. f_equal. rewrite take_while_prefix. apply take_while_repeat. }
    assert (Hq : is_quote_char c -> num = 1) by (unfold is_quote_char; intros Hq; replace (N.eqb c 39 || N.eqb c 34) with true in Hnum by lia; exact Hnum).
    apply is_delim; [reflexivity| | |unfold at_pos; destruct (N.eqb c 39 || N.eqb c 34); lia|destruct (N.eqb c 39 || N.eqb c 34); lia].
    - destruct Hc as [Hc|Hc].
      + left. cbn. split; [exact Hc|]. unfold is_emph_char in Hc. replace (N.eqb c 39) with false by lia. replace (N.eqb c 34) with false by lia.
        split; [destruct (N.eqb c 39 || N.eqb c 34); lia|]. apply Hsl, Hc.
      + right. cbn. split; [exact Hc|]. split; [auto|]. destruct Hc as [-> | ->]; cbn; auto.
    - destruct (N.eqb c 39); [repeat constructor; apply HQ; unfold plain_char; lia|].
      destruct (N.eqb c 34); [repeat constructor; apply HQ; unfold plain_char; lia|].
      eapply Qs_infix; [apply infix_slice|apply (iv_subj _ Hi)].
  Qed.
  Lemma parseOpenBracket_fine s : inv s -> ip_peek s = Some 91%N -> fine s (parseOpenBracket s).
  Proof.
    intros Hi Hp. apply peek_some in Hp. cbn [parseOpenBracket fine].
    apply (is_bracket s (BK (ip_next s) (hd_id (ip_delims s)) (ip_pos s) false true) (ip_pos s + 1)); try reflexivity; [unfold at_pos; lia|lia].
  Qed.
  Lemma parseBang_fine s : inv s -> ip_peek s = Some 33%N -> fine s (parseBang s).
  Proof.
    intros Hi Hp. apply peek_some in Hp. unfold parseBang. destruct (peek_is 91 (ip_adv 1 s)) eqn:E.
    - apply peek_is_true, peek_some in E. cbn in E. cbn [fine].
      apply (is_bracket s (BK (ip_next s) (hd_id (ip_delims s)) (ip_pos s + 1) true true) (ip_pos s + 1 + 1)); try reflexivity; [unfold at_pos; lia|lia].
    - cbn [fine]. eapply (is_leaf s (text_node [33%N]) (ip_pos s + 1)); [|unfold at_pos; lia|lia]. apply text1_leaf, HQ. unfold plain_char. lia.
  Qed.
  Lemma parseEntity_fine s : inv s -> ip_peek s = Some 38%N -> fine s (parseEntity s).
  Proof.
    intros Hi Hp. unfold parseEntity. destruct (ip_match reEntityHere s) as [[m s1]|] eqn:E; [|reflexivity].
    pose proof (ip_match_nonempty reEntityHere _ _ _ eq_refl E) as Hm.
    assert (Hb : forall x, re_search reEntityHere (skipn (ip_pos s) (ip_subject s)) = Some x -> rm_before x = []).
    { intros x Hx. assert (exists r, reEntityHere = RSeq RBol r) as [r Hr] by (eexists; vm_compute; reflexivity). rewrite Hr, re_search_bol in Hx.
      destruct (match_at r None _) as [[[g a] caps]|]; [|discriminate]. apply Some_inj in Hx as <-. reflexivity. }
    unfold ip_match in E. destruct (re_search reEntityHere _) as [x|] eqn:Ex; [|discriminate]. specialize (Hb x eq_refl).
    apply Some_inj in E. injection E as <- <-. pose proof (re_search_some _ _ _ Ex) as (Es & _). rewrite Hb in Es. cbn [app] in Es.
    unfold ip_peek in Hp. pose proof Hp as Hp'. rewrite (skipn_nth _ _ _ Hp) in Es.
    assert (Hl : ip_pos s < length (ip_subject s)) by (apply nth_error_Some; congruence).
    pose proof (f_equal (@length _) Es) as El. cbn [length] in El. rewrite skipn_length, app_length in El.
    assert (1 <= length (rm_group x)) by (destruct (rm_group x); [congruence|cbn; lia]).
    assert (Him : infix (rm_group x) (ip_subject s)).
    { eapply infix_trans; [|apply (infix_skipn (ip_pos s))]. rewrite (skipn_nth _ _ _ Hp), Es. apply infix_app_l. }
    cbn [fine]. eapply (is_leaf s _ (ip_pos s + rm_end x)); [|unfold at_pos, rm_end; rewrite Hb; cbn; lia|unfold rm_end; lia].
    left. eexists. split; [reflexivity|]. split; [apply html_unescape_chars; [exact HQ|eapply Qs_infix; [exact Him|apply (iv_subj _ Hi)]]|].
    intros Hnil. destruct (rm_group x) as [|c g]; [congruence|]. cbn in Es. injection Es as <- Es.
    destruct g as [|c2 g].
    - exfalso. revert Hnil. apply unescape_nonempty. discriminate.
    - destruct (N.eq_dec c2 35) as [->|Hne].
      + eapply infix_trans; [|exact Him]. exists [], g. reflexivity.
      + exfalso. revert Hnil. apply unescape_nonempty. cbn. congruence.
  Qed.
  Lemma smart_dashes_chars s : Qs (smart_dashes s).
  Proof.
    unfold smart_dashes. destruct (if Nat.eqb _ 0 then _ else _) as [en em]. apply Forall_app.
    split; apply Forall_forall; intros c Hc; apply repeat_spec in Hc as ->; apply HQ; unfold plain_char; lia.
  Qed.
  Lemma sub_nonempty r f s : (forall m, rm_group m <> [] -> f m <> []) -> nullable r = false -> s <> [] -> re_sub r f s <> [].
  Proof.
    intros Hf Hn Hs. unfold re_sub. rewrite sub_loop_S. destruct (match_at r None s) as [[[g a] caps]|] eqn:E.
    - assert (Hg : g <> []).
      { apply match_at_spec in E as (Es & st & Hst & Ha & _ & _). intros ->. cbn in Es. subst a.
        assert (Hin : In st (results r (MS None s []))) by (destruct (results r _); [discriminate|]; injection Hst as ->; left; reflexivity).
        apply (nullable_spec _ Hn) in Hin. cbn in Hin. rewrite Ha in Hin. lia. }
      intros X. apply app_eq_nil in X as [X _]. revert X. apply Hf. exact Hg.
    - destruct s; [congruence|discriminate].
  Qed.
  Lemma smart_dashes_nonempty s : 2 <= length s -> smart_dashes s <> [].
  Proof.
    intros H X. apply (f_equal (@length _)) in X. unfold smart_dashes in X. set (n := length s) in *. clearbody n.
    assert (H3 : n = 3 * (n / 3) + n mod 3) by (apply Nat.div_mod; lia). assert (H2 : n = 2 * (n / 2) + n mod 2) by (apply Nat.div_mod; lia).
    pose proof (Nat.mod_upper_bound n 3). pose proof (Nat.mod_upper_bound n 2).
    destruct (Nat.eqb_spec (n mod 3) 0); [|destruct (Nat.eqb_spec (n mod 2) 0); [|destruct (Nat.eqb_spec (n mod 3) 2)]];
      rewrite app_length, !repeat_length in X; cbn [length] in X; lia.
  Qed.
  Lemma dash_sub_nonempty s : s <> [] -> re_sub reDash (fun x => smart_dashes (rm_group x)) s <> [].
  Proof.
    intros Hs. unfold re_sub. rewrite sub_loop_S. destruct (match_at reDash None s) as [[[g a] caps]|] eqn:E.
    - assert (Hg : 2 <= length g).
      { apply match_at_spec in E as (Es & st & Hst & Ha & _ & _).
        assert (Hin : In st (results reDash (MS None s []))) by (destruct (results reDash _); [discriminate|]; injection Hst as ->; left; reflexivity).
        apply min_len_spec in Hin. change (min_len reDash) with 2 in Hin. cbn [ms_rest] in Hin. rewrite Es, app_length, Ha in Hin. lia. }
      intros X. apply app_eq_nil in X as [X _]. revert X. cbn [rm_group]. apply smart_dashes_nonempty, Hg.
    - destruct s; [congruence|discriminate].
  Qed.
  Lemma parseString_fine s : inv s -> fine s (parseString s).
  Proof.
    intros Hi. unfold parseString. destruct (ip_match reMain s) as [[m s1]|] eqn:E; [|reflexivity].
    pose proof (ip_match_nonempty reMain _ _ _ eq_refl E) as Hm.
    apply ip_match_some in E as (b & a & q & -> & _ & Hq & Hq2 & Him); [|apply (iv_pos _ Hi)].
    assert (1 <= length m) by (destruct m; [congruence|cbn; lia]).
    assert (HQm : Qs m) by (eapply Qs_infix; [exact Him|apply (iv_subj _ Hi)]).
    destruct (ip_smart s) eqn:Esm; cbn [fine]; (eapply (is_leaf s _ q); [|unfold at_pos; lia|lia]); left.
    - eexists. split; [reflexivity|]. split.
      + apply re_sub_chars; [intros; apply smart_dashes_chars|]. apply re_sub_chars; [|exact HQm].
        intros _ _ _. repeat constructor. apply HQ. unfold plain_char. lia.
      + intros X. exfalso. revert X. apply dash_sub_nonempty. apply sub_nonempty; [discriminate|reflexivity|exact Hm].
    - exists m. split; [reflexivity|]. split; [exact HQm|]. congruence.
  Qed.
  Lemma last_opt_snoc {A} (l : list A) x : last_opt (l ++ [x]) = Some x.
  Proof. rewrite last_opt_app. reflexivity. Qed.
  Lemma last_opt_inv {A} (l : list A) x : last_opt l = Some x -> exists k, l = k ++ [x].
  Proof.
    destruct (rev l) as [|y k] eqn:E.
    - apply (f_equal (@rev _)) in E. rewrite rev_involutive in E. subst. discriminate.
    - apply (f_equal (@rev _)) in E. rewrite rev_involutive in E. subst. cbn. rewrite last_opt_snoc. intros H. injection H as ->. eauto.
  Qed.
  Lemma parseNewline_fine s : inv s -> ip_peek s = Some LF -> fine s (parseNewline s).
  Proof.
    intros Hi Hp. apply peek_some in Hp. unfold parseNewline.
    assert (Hend : forall ty ks, ty = softbreak \/ ty = linebreak ->
      (ks = ip_kids s \/ exists k id l, ip_kids s = k ++ [(id, text_node l)] /\ last_opt l = Some SP /\
          ks = k ++ [(id, text_node (re_sub reFinalSpace (fun _ => []) l))]) ->
      fine s (Ok (true, ip_skip reInitialSpace (append_kid (T (new_node ty None) []) (set_ip_kids ks (ip_adv 1 s)))))).
    { intros ty ks Hty Hks. cbn [fine].
      destruct (ip_skip_pos reInitialSpace (append_kid (T (new_node ty None) []) (set_ip_kids ks (ip_adv 1 s)))) as (p & -> & Hap).
      { unfold pos_ok. cbn. lia. }
      unfold at_pos in Hap. cbn [ip_pos ip_subject append_kid set_ip_next set_ip_kids ip_adv set_ip_pos] in Hap.
      apply (is_newline s ty p ks); [exact Hty|unfold at_pos; lia|lia|exact Hks]. }
    assert (Hsame : forall ty, append_kid (T (new_node ty None) []) (ip_adv 1 s) = append_kid (T (new_node ty None) []) (set_ip_kids (ip_kids s) (ip_adv 1 s))) by reflexivity.
    unfold newline_kids. change (ip_kids (ip_adv 1 s)) with (ip_kids s).
    destruct (last_opt (ip_kids s)) as [[id [d k]]|] eqn:El.
    2:{ cbn [bind]. rewrite Hsame. apply Hend; auto. }
    apply last_opt_inv in El as [k0 Ek]. destruct (ntype_eqb (n_t d) text) eqn:Et.
    2:{ cbn [bind]. rewrite Hsame. apply Hend; auto. }
    assert (Hg : inline_tree (T d k)).
    { pose proof (iv_good _ Hi) as G. rewrite Ek, map_app in G. apply Forall_app in G as [_ G]. inversion G; subst. assumption. }
    assert (Ety : t_type (T d k) = text) by (change (n_t d = text); destruct (n_t d); try discriminate; reflexivity).
    apply inline_text_inv in Hg as (l & E & Hl); [|exact Ety]. injection E as -> ->. cbn [text_data set_n_literal n_literal of_option bind].
    destruct (last_opt l) as [c1|] eqn:Ec.
    2:{ cbn [of_option bind fine]. left. split; [reflexivity|]. eapply (iv_last _ Hi); [exact Ek|]. apply (f_equal text_node).
        destruct (rev l) as [|y r] eqn:Er; [apply (f_equal (@rev _)) in Er; rewrite rev_involutive in Er; exact Er|].
        apply (f_equal (@rev _)) in Er. rewrite rev_involutive in Er. subst l. cbn in Ec. rewrite last_opt_snoc in Ec. discriminate. }
    cbn [of_option bind]. destruct (N.eqb_spec c1 SP) as [->|Hc1].
    - cbn [bind]. change (set_n_literal (Some (re_sub reFinalSpace (fun _ => []) l)) (text_data l)) with (text_data (re_sub reFinalSpace (fun _ => []) l)).
      rewrite Ek, removelast_last.
      apply Hend; [destruct (match last_opt (removelast l) with Some c2 => N.eqb c2 SP | None => false end); auto|].
      right. exists k0, id, l. auto.
    - cbn [bind]. rewrite Hsame. apply Hend; auto.
  Qed.
End Q.
