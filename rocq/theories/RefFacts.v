(** * Link definitions: C43, C25, C26 *)
From Verif Require Import Base Regex Common NormRef Node Inlines Blocks Html Main RegexFacts StrFacts Spec SpecTree SpecSame
  TreeFacts CommonFacts StrProp EmphFacts InlineFacts InlineInv HtmlFacts RenderFacts BlockFacts LineFacts ParseFacts Sim SimFacts SameHtml DocFacts TextFacts WordFacts.
From Verif Require RegexLang.
From Coq Require Import ZifyBool ZifyNat ZifyN.

Lemma ip_match_bol r r' s m s' : r = RSeq RBol r' -> RegexLang.good r' = true -> ip_match r s = Some (m, s') ->
  exists a, skipn (ip_pos s) (ip_subject s) = m ++ a /\ s' = set_ip_pos (ip_pos s + length m) s /\ RegexLang.L r' None m a.
Proof.
  intros -> Hg. unfold ip_match. rewrite re_search_bol. destruct (match_at r' None _) as [[[g a] caps]|] eqn:E; [|discriminate].
  cbn [rm_group rm_end rm_before length]. intros H. injection H as <- <-. apply RegexLang.match_at_L in E as [E HL]; [|exact Hg]. exists a. auto.
Qed.
Definition title_re : regex := ltac:(let v := eval vm_compute in (match reLinkTitle with RSeq _ r => r | r => r end) in exact v).
Lemma reLinkTitle_shape : reLinkTitle = RSeq RBol title_re.
Proof. vm_compute. reflexivity. Qed.
Definition eol_re : regex := ltac:(let v := eval vm_compute in (match reSpaceAtEndOfLine with RSeq _ r => r | r => r end) in exact v).
Lemma reSpaceAtEndOfLine_shape : reSpaceAtEndOfLine = RSeq RBol eol_re.
Proof. vm_compute. reflexivity. Qed.
Definition spnl_re : regex := ltac:(let v := eval vm_compute in (match reSpnl with RSeq _ r => r | r => r end) in exact v).
Lemma reSpnl_shape : reSpnl = RSeq RBol spnl_re.
Proof. vm_compute. reflexivity. Qed.

Lemma spaces_repeat g : Forall (fun c => cmatch (CS false false [CRange 32 32]) c = true) g -> g = repeat SP (length g).
Proof. induction 1 as [|c g Hc _ IH]; [reflexivity|]. cbn [length repeat]. rewrite <- IH. f_equal. cm_unfold_in Hc. unfold in_range, SP in *. lia. Qed.
Lemma repeat_spaces k : Forall (fun c => cmatch (CS false false [CRange 32 32]) c = true) (repeat SP k).
Proof. apply Forall_forall. intros x Hx. apply repeat_spec in Hx as ->. reflexivity. Qed.
Lemma eol_some s m s' : ip_match reSpaceAtEndOfLine s = Some (m, s') -> blank_to_eol (skipn (ip_pos s) (ip_subject s)) /\ s' = set_ip_pos (ip_pos s + length m) s /\
  exists k a, skipn (ip_pos s) (ip_subject s) = m ++ a /\ (m = repeat SP k ++ [LF] \/ m = repeat SP k /\ (a = [] \/ a = [LF])).
Proof.
  intros H. apply (ip_match_bol _ eol_re) in H as (a & E & -> & HL); [|apply reSpaceAtEndOfLine_shape|reflexivity]. unfold eol_re in HL. cbn [RegexLang.L] in HL.
  destruct HL as (g1 & g2 & -> & H1 & H2). apply (proj1 (RegexLang.L_rep_chr true 0 None _ None g1 _)) in H1 as (_ & _ & H1). apply spaces_repeat in H1. rewrite H1 in *.
  assert (Hc : g2 = [LF] \/ g2 = [] /\ (a = [] \/ a = [LF])).
  { destruct H2 as [(c & -> & Hc)|H2]; [|right; exact H2]. left. cm_unfold_in Hc. unfold in_range, LF in *. f_equal. lia. }
  split.
  - rewrite E. exists (length g1). destruct Hc as [->|[-> Ha]].
    + exists ([LF] ++ a). rewrite <- !app_assoc. split; [reflexivity|right; reflexivity].
    + exists a. rewrite app_nil_r. split; [reflexivity|]. destruct Ha as [->| ->]; [left|right]; reflexivity.
  - split; [reflexivity|]. exists (length g1), a. split; [exact E|]. destruct Hc as [->|[-> Ha]]; [left; reflexivity|right; rewrite app_nil_r; auto].
Qed.
Lemma eol_none s : ip_match reSpaceAtEndOfLine s = None -> ~ blank_to_eol (skipn (ip_pos s) (ip_subject s)).
Proof.
  unfold ip_match. rewrite reSpaceAtEndOfLine_shape, re_search_bol. destruct (match_at eol_re None _) as [[[g a] caps]|] eqn:E; [discriminate|]. intros _ (k & q & Eq & Hq).
  pose proof (proj1 (RegexLang.match_at_none_L eol_re None _ eq_refl) E) as E'. clear E. rename E' into E. destruct Hq as [->|Hq].
  - apply (E (repeat SP k) []); [exact Eq|]. exists (repeat SP k), []. rewrite app_nil_r. split; [reflexivity|]. split; [apply RegexLang.L_rep_chr; split; [lia|]; split; [exact I|apply repeat_spaces]|]. right. split; [reflexivity|left; reflexivity].
  - destruct q as [|c q]; [discriminate|]. cbn [hd_error] in Hq. injection Hq as ->. apply (E (repeat SP k ++ [10%N]) q); [rewrite Eq, <- app_assoc; reflexivity|].
    exists (repeat SP k), [10%N]. split; [reflexivity|]. split; [apply RegexLang.L_rep_chr; split; [lia|]; split; [exact I|apply repeat_spaces]|]. left. exists 10%N. split; reflexivity.
Qed.
Lemma L_last r cs p g q : RegexLang.L (RSeq r (RChr cs)) p g q -> cmatch cs (last g 0%N) = true.
Proof. cbn [RegexLang.L]. intros (g1 & g2 & -> & _ & c & -> & H). rewrite last_last. exact H. Qed.
Lemma title_last p g q : RegexLang.L title_re p g q -> In (last g 0%N) [34; 39; 41]%N.
Proof.
  unfold title_re. intros [H|[H|H]]; destruct H as (g1 & g2 & -> & (c1 & -> & _) & H); apply L_last in H; cm_unfold_in H; unfold in_range in H;
    destruct g2 as [|x g2]; try (exfalso; revert H; cbn [last]; lia); change (last ([c1] ++ x :: g2) 0%N) with (last (x :: g2) 0%N); cbn [In]; lia.
Qed.
Lemma title_some s t s' : parseLinkTitle s = (Some t, s') ->
  exists c r a, skipn (ip_pos s) (ip_subject s) = (c :: r) ++ a /\ s' = set_ip_pos (ip_pos s + length (c :: r)) s /\ t = unescape_string (chop_ends (c :: r)) /\ In c [34; 39; 40]%N /\ In (last (c :: r) 0%N) [34; 39; 41]%N.
Proof.
  unfold parseLinkTitle. destruct (ip_match reLinkTitle s) as [[m s1]|] eqn:E; [|discriminate]. intros H. injection H as <- <-.
  apply (ip_match_bol _ title_re) in E as (a & E & -> & HL); [|apply reLinkTitle_shape|vm_compute; reflexivity].
  destruct m as [|c r]; [exfalso; apply (RegexLang.L_nonempty title_re) in HL; [congruence|vm_compute; reflexivity]|].
  exists c, r, a. split; [exact E|]. split; [reflexivity|]. split; [reflexivity|]. split; [|apply title_last in HL; exact HL]. destruct (begins title_re c) eqn:Eb.
  - revert Eb. firsts_calc. cbn [In]. lia.
  - apply (begins_L _ _ _ _ c (r ++ a)) in HL; [discriminate|reflexivity|exact Eb].
Qed.

(** where the title of a new entry of the reference map comes from *)
Definition title_from (subj : str) (n : nat) (title : str) : Prop :=
  exists pre c r post, subj = pre ++ (c :: r) ++ post /\ In c [34; 39; 40]%N /\ In (last (c :: r) 0%N) [34; 39; 41]%N /\ title = unescape_string (chop_ends (c :: r)) /\
    ((length (pre ++ c :: r) <= n /\ blank_to_eol post) \/
     (n <= length pre /\ ~ blank_to_eol post /\ exists k, firstn n subj = firstn k subj ++ [LF])).
Lemma skipn_split (s : str) p w : skipn p s = w -> w <> [] -> s = firstn p s ++ w /\ length (firstn p s) = p.
Proof. intros <- H. split; [symmetry; apply firstn_skipn|]. rewrite firstn_length. destruct (Nat.le_gt_cases p (length s)); [lia|]. rewrite skipn_all2 in H by lia. congruence. Qed.
Lemma dest_subject s d s' : Forall code_point (ip_subject s) -> pos_ok s -> parseLinkDestination s = Ok (d, s') -> exists p, s' = set_ip_pos p s /\ at_pos s p.
Proof.
  intros Hc Hp E. assert (HQ : forall c, plain_char c -> code_point c) by (unfold plain_char, code_point; intros; lia).
  pose proof (parseLinkDestination_spec code_point HQ (fun c H => H) s Hc Hp) as H. rewrite E in H. cbn [unicode_or snd fst] in H. destruct H as (p & H1 & H2 & _). exists p. auto.
Qed.
Theorem reference_title subj rm s n s' rm' : Forall code_point subj -> parseReference subj rm s = Ok (n, s', rm') ->
  rm' = rm \/ exists label dest title, rm' = rm ++ [(label, (dest, title))] /\ (title = [] \/ title_from subj n title).
Proof.
  intros Hcp. unfold parseReference. set (s0 := set_ip_pos 0 (set_ip_subject subj s)).
  assert (H0 : pos_ok s0) by (unfold pos_ok; cbn; lia). destruct (parseLinkLabel_spec s0 H0) as (p1 & E1 & Hp1). destruct (parseLinkLabel s0) as [nl s1]. cbn [snd] in E1. subst s1.
  destruct (_ || _); [intros H; injection H as _ _ ->; left; reflexivity|].
  destruct (negb _) eqn:E58; [intros H; injection H as _ _ ->; left; reflexivity|]. apply negb_false_iff, peek_is_true, peek_some in E58.
  destruct (spnl_pos (ip_adv 1 (set_ip_pos p1 s0))) as (p2 & -> & Hp2); [unfold pos_ok; cbn in *; lia|]. change (set_ip_pos p2 (ip_adv 1 (set_ip_pos p1 s0))) with (set_ip_pos p2 s0).
  destruct (parseLinkDestination (set_ip_pos p2 s0)) as [[d s3]|e] eqn:E3; [|discriminate]. cbn [bind].
  destruct (dest_subject (set_ip_pos p2 s0) _ _ Hcp ltac:(unfold pos_ok, at_pos in *; cbn in *; lia) E3) as (b & -> & Hb). change (set_ip_pos b (set_ip_pos p2 s0)) with (set_ip_pos b s0).
  destruct d as [d|]; [|intros H; injection H as _ _ ->; left; reflexivity].
  destruct (spnl_pos (set_ip_pos b s0)) as (p4 & -> & Hp4); [unfold pos_ok, at_pos in *; cbn in *; lia|]. change (set_ip_pos p4 (set_ip_pos b s0)) with (set_ip_pos p4 s0).
  cbn [ip_pos set_ip_pos]. unfold at_pos in *. cbn [ip_pos set_ip_pos ip_subject] in *.
  destruct (if Nat.eqb p4 b then _ else _) as [t5 s5] eqn:E5.
  assert (H5 : match t5 with None => exists p, s5 = set_ip_pos p s0 | Some t => parseLinkTitle (set_ip_pos p4 s0) = (Some t, s5) end).
  { destruct (Nat.eqb p4 b); [injection E5 as <- <-; exists p4; reflexivity|]. destruct t5 as [t|]; [exact E5|]. destruct (parseLinkTitle_spec (fun _ => True) (fun _ _ => I) (set_ip_pos p4 s0)) as (p & E & _); [apply Forall_forall; auto|unfold pos_ok; cbn in *; lia|]. rewrite E5 in E. exists p. exact E. }
  clear E5. destruct t5 as [t|].
  - apply title_some in H5 as (c & r & a & Ea & -> & Ht & Hc & Hc'). cbn [ip_pos set_ip_pos ip_subject] in *. change (set_ip_pos (p4 + length (c :: r)) (set_ip_pos p4 s0)) with (set_ip_pos (p4 + length (c :: r)) s0).
    change (ip_subject s0) with subj in *. destruct (skipn_split subj p4 _ Ea ltac:(discriminate)) as [Es El].
    assert (Ek : skipn (p4 + length (c :: r)) subj = a). { rewrite Es, skipn_app, El, skipn_all2 by lia. replace (_ + _ - p4) with (length (c :: r)) by lia. rewrite app_nil_l, skipn_app, skipn_all, Nat.sub_diag. reflexivity. }
    destruct (ip_match reSpaceAtEndOfLine (set_ip_pos (p4 + length (c :: r)) s0)) as [[m x]|] eqn:E6.
    + apply eol_some in E6 as (Hbl & -> & _). cbn [ip_pos set_ip_pos ip_subject] in *. change (ip_subject s0) with subj in *. rewrite Ek in Hbl. cbn [negb]. destruct (is_nil _); [intros H; injection H as _ _ ->; left; reflexivity|].
      destruct (assoc_str _ rm); intros H; apply Ok_inj in H; [apply (f_equal snd) in H; left; symmetry; exact H|]. apply pair_equal_spec in H as [H <-]. apply pair_equal_spec in H as [<- _]. right.
      exists (normalize_reference (firstn nl subj)), d, t. split; [reflexivity|]. right. exists (firstn p4 subj), c, r, a. split; [exact Es|]. split; [exact Hc|]. split; [exact Hc'|]. split; [exact Ht|]. left. split; [rewrite app_length; lia|exact Hbl].
    + apply eol_none in E6. cbn [ip_pos set_ip_pos ip_subject] in E6. change (ip_subject s0) with subj in E6. rewrite Ek in E6.
      destruct (is_nil t); [intros H; injection H as _ _ ->; left; reflexivity|].
      change (set_ip_pos b (set_ip_pos (p4 + length (c :: r)) s0)) with (set_ip_pos b s0).
      destruct (ip_match reSpaceAtEndOfLine (set_ip_pos b s0)) as [[m x]|] eqn:E7; [|intros H; injection H as _ _ ->; left; reflexivity].
      apply eol_some in E7 as (_ & -> & k & q & Eq & Hm). cbn [ip_pos set_ip_pos ip_subject] in *. change (ip_subject s0) with subj in *. cbn [negb]. destruct (is_nil _); [intros H; injection H as _ _ ->; left; reflexivity|].
      destruct (assoc_str _ rm); intros H; apply Ok_inj in H; [apply (f_equal snd) in H; left; symmetry; exact H|]. apply pair_equal_spec in H as [H <-]. apply pair_equal_spec in H as [<- _]. right.
      exists (normalize_reference (firstn nl subj)), d, t. split; [reflexivity|]. right. exists (firstn p4 subj), c, r, a. split; [exact Es|]. split; [exact Hc|]. split; [exact Hc'|]. split; [exact Ht|]. right.
      assert (Hin : forall x, In x (repeat SP k ++ [LF]) -> x <> c). { intros x Hx. apply in_app_or in Hx as [Hx|[<-|[]]]; [apply repeat_spec in Hx as ->|]; intros <-; cbn in Hc; unfold SP, LF in Hc; lia. }
      assert (Hn : nth_error (m ++ q) (p4 - b) = Some c). { rewrite <- Eq, <- (Nat.add_0_r (p4 - b)), <- nth_error_skipn, skipn_skipn. replace (p4 - b + b) with p4 by lia. rewrite Ea. reflexivity. }
      assert (Hl : length m <= p4 - b). { destruct (Nat.le_gt_cases (length m) (p4 - b)); [assumption|]. exfalso. rewrite nth_error_app1 in Hn by lia. apply nth_error_In in Hn. apply (Hin c); [|reflexivity]. destruct Hm as [->|[-> _]]; [exact Hn|apply in_or_app; left; exact Hn]. }
      destruct Hm as [->|[-> Hq]].
      2:{ exfalso. rewrite nth_error_app2 in Hn by lia. apply nth_error_In in Hn. destruct Hq as [->| ->]; [destruct Hn|]. apply (Hin c); [apply in_or_app; right; exact Hn|reflexivity]. }
      split; [rewrite El; lia|]. split; [exact E6|]. exists (b + k). rewrite app_length, repeat_length in *. cbn [length] in *.
      destruct (skipn_split subj b _ Eq) as [Fb Fl]; [destruct k; discriminate|]. remember (firstn b subj) as A eqn:Z. clear Z. rewrite Fb, <- Fl, !firstn_app_2, <- !app_assoc. f_equal.
      rewrite <- (repeat_length SP k) at 1 3. rewrite firstn_app_2. rewrite <- (Nat.add_0_r (length (repeat SP k))), firstn_app_2. cbn [firstn app]. rewrite app_nil_r. reflexivity.
  - destruct H5 as (p & ->). change (set_ip_pos b (set_ip_pos p s0)) with (set_ip_pos b s0). cbn [is_nil].
    destruct (ip_match reSpaceAtEndOfLine (set_ip_pos b s0)) as [[m x]|]; [|intros H; injection H as _ _ ->; left; reflexivity]. cbn [negb].
    destruct (is_nil _); [intros H; injection H as _ _ ->; left; reflexivity|].
    destruct (assoc_str _ rm); intros H; apply Ok_inj in H; [apply (f_equal snd) in H; left; symmetry; exact H|]. apply pair_equal_spec in H as [_ <-]. right. exists (normalize_reference (firstn nl subj)), d, []. auto.
Qed.
(** on one line the title is where it should be *)
Theorem reference_title_line x rm s n s' rm' : Forall code_point x -> ~ In LF x -> parseReference (x ++ [LF]) rm s = Ok (n, s', rm') ->
  rm' = rm \/ exists label dest title, rm' = rm ++ [(label, (dest, title))] /\ (title = [] \/
    exists pre c r k, x = pre ++ (c :: r) ++ repeat SP k /\ In c [34; 39; 40]%N /\ In (last (c :: r) 0%N) [34; 39; 41]%N /\ title = unescape_string (chop_ends (c :: r))).
Proof.
  intros Hx Hlf E. apply reference_title in E; [|apply Forall_app; split; [exact Hx|repeat constructor; unfold code_point, LF; lia]].
  destruct E as [E|(l & d & t & E & H)]; [left; exact E|]. right. exists l, d, t. split; [exact E|]. destruct H as [H|(pre & c & r & post & Es & Hc & Hc' & Ht & H)]; [left; exact H|]. right.
  assert (Hpost : post = [] \/ exists post', post = post' ++ [LF] /\ x = pre ++ (c :: r) ++ post').
  { destruct post as [|y post _] using rev_ind; [left; reflexivity|]. right. exists post. rewrite !app_assoc in Es. apply app_inj_tail in Es as [Es <-]. rewrite <- app_assoc in Es. auto. }
  destruct H as [[Hn (k & q & Ep & Hq)]|(Hn & Hnb & k & Ek)].
  - destruct Hpost as [->|(post' & -> & Ex)].
    + exfalso. rewrite app_nil_r in Es. 
      assert (Hcr : exists r', c :: r = r' ++ [LF]). { destruct (exists_last (l := c :: r) ltac:(discriminate)) as (r' & y & Ey). rewrite Ey, app_assoc in Es. apply app_inj_tail in Es as [_ <-]. exists r'. exact Ey. }
      destruct Hcr as (r' & Er). rewrite Er, last_last in Hc'. unfold LF in Hc'. cbn in Hc'. lia.
    + destruct Hq as [->|Hq].
      * rewrite app_nil_r in Ep. exfalso. assert (X : In LF (repeat SP k)) by (change (In LF (repeat 32%N k)); rewrite <- Ep; apply in_or_app; right; left; reflexivity). apply repeat_spec in X. discriminate X.
      * destruct q as [|y q]; [discriminate|]. injection Hq as ->. exists pre, c, r, k. rewrite Ex.
        assert (q = []). { destruct q as [|z q _] using rev_ind; [reflexivity|]. exfalso. apply Hlf. rewrite Ex. apply in_or_app. right. apply in_or_app. right. change (10%N :: q ++ [z]) with ((10%N :: q) ++ [z]) in Ep. rewrite app_assoc in Ep. apply app_inj_tail in Ep as [-> _]. apply in_or_app. right. left. reflexivity. }
        subst q. apply app_inj_tail in Ep as [-> _]. auto.
  - exfalso. assert (H1 : In LF pre).
    { rewrite <- (firstn_skipn n pre). apply in_or_app. left. rewrite Es, firstn_app in Ek. replace (n - length pre) with 0 in Ek by lia. cbn [firstn] in Ek. rewrite app_nil_r in Ek. rewrite Ek. apply in_or_app. right. left. reflexivity. }
    apply Hlf. destruct Hpost as [->|(post' & -> & ->)]; [|apply in_or_app; left; exact H1].
    destruct (exists_last (l := c :: r) ltac:(discriminate)) as (r' & y & Ey). rewrite app_nil_r, Ey, app_assoc in Es. apply app_inj_tail in Es as [-> _]. apply in_or_app. left. exact H1.
Qed.

(** ** Inputs on which the properties fail *)
Lemma empty_paragraph : exists s t x, Forall code_point s /\ (forall c, In c s -> is_space c = true -> In c [9; 10; 13; 32]%N) /\
  parse_doc false s = Ok t /\ In x (subtrees t) /\ t_type x = paragraph /\ t_kids x = [].
Proof.
  exists (u "[foo]: /url" ++ [10%N] ++ u "---").
  match eval vm_compute in (parse_doc false (u "[foo]: /url" ++ [10%N] ++ u "---")) with Ok (T ?d (?p :: ?k)) => exists (T d (p :: k)), p end.
  split; [apply Forall_forall; intros c Hc; vm_compute in Hc; unfold code_point; repeat (destruct Hc as [<-|Hc]; [lia|]); destruct Hc|].
  split; [intros c Hc; vm_compute in Hc; repeat (destruct Hc as [<-|Hc]; [intros X; (discriminate X || (cbn [In]; tauto))|]); destruct Hc|].
  vm_compute. auto 10.
Qed.
Lemma blank_paragraph : exists s t x, Forall code_point s /\ ~ In 91%N s /\ parse_doc false s = Ok t /\ In x (subtrees t) /\ t_type x = paragraph /\ t_kids x = [].
Proof.
  exists [160%N].
  match eval vm_compute in (parse_doc false [160%N]) with Ok (T ?d (?p :: ?k)) => exists (T d (p :: k)), p end.
  split; [repeat constructor; unfold code_point; lia|]. split; [intros [X|[]]; discriminate X|]. vm_compute. auto 10.
Qed.
Lemma discarded_title : md_to_html false default_opts (u "[foo]: /url" ++ [10] ++ u """title"" ok" ++ [10; 10] ++ u "[foo]")%N =
    Ok (u "<p>&quot;title&quot; ok</p>" ++ [10] ++ u "<p><a href=""/url"" title=""title"">foo</a></p>" ++ [10])%N.
Proof. vm_compute. reflexivity. Qed.
Lemma lost_text : md_to_html false default_opts (u "[foo](/url [bar]" ++ [10; 10] ++ u "[bar]: /x")%N = Ok (u "<p><a href=""/x"">foo</a></p>" ++ [10])%N.
Proof. vm_compute. reflexivity. Qed.
