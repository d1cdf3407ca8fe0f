(** * Lines that define a label: C25, C26 *)
From Verif Require Import Base Regex Common NormRef Node Inlines Blocks RegexFacts StrFacts Spec SpecLines SpecRefs
  TreeFacts CommonFacts LabelFacts StrProp EmphFacts InlineFacts RenderFacts TextFacts WordFacts RefFacts RefMapFacts.
From Verif Require RegexLang.
From Coq Require Import ZifyBool ZifyNat ZifyN.

(** ** Words *)
Lemma word_letter c : word_char c -> letter_or_digit c.
Proof. intros [H|[H|H]]; [exists 48%N, 57%N|exists 65%N, 90%N|exists 97%N, 122%N]; (split; [cbn; auto|exact H]). Qed.
Lemma word_main c : word_char c -> main_special c = false.
Proof. unfold word_char, main_special. cbn [existsb]. lia. Qed.
Lemma word_key w : plain_word w -> normalize_reference (in_brackets w) = map SpecLines.ascii_lower w.
Proof.
  intros (_ & _ & H). rewrite key_ascii_words.
  - apply map_ext. intros c. reflexivity.
  - apply forallb_forall. intros c Hc. rewrite Forall_forall in H. specialize (H c Hc). unfold word_char in H. unfold in_range. lia.
Qed.
Lemma word_key_ne w : plain_word w -> is_nil (normalize_reference (in_brackets w)) = false.
Proof. intros H. rewrite word_key by exact H. destruct H as (H & _). destruct w; [congruence|reflexivity]. Qed.

(** ** The label in brackets *)
Definition label_re : regex := ltac:(let v := eval vm_compute in (match reLinkLabel with RSeq _ r => r | r => r end) in exact v).
Lemma reLinkLabel_shape : reLinkLabel = RSeq RBol label_re.
Proof. vm_compute. reflexivity. Qed.
Definition piece_re : regex := ltac:(let v := eval vm_compute in (match label_re with RSeq _ (RSeq (RRep _ _ _ a) _) => a | r => r end) in exact v).
Lemma label_shape : label_re = RSeq (RChr (CS false false [CRange 91 91])) (RSeq (RRep true 0 (Some 1000) piece_re) (RChr (CS false false [CRange 93 93]))).
Proof. vm_compute. reflexivity. Qed.
Lemma pieces_word : forall n p g q w rest, RegexLang.Lrep (RegexLang.L piece_re) n p g (93%N :: q) -> g ++ 93%N :: q = w ++ 93%N :: rest -> Forall word_char w -> g = w.
Proof.
  induction n as [|n IH]; intros p g q w rest H E Hw; cbn [RegexLang.Lrep] in H.
  - subst g. destruct w as [|c w]; [reflexivity|]. injection E as <- _. exfalso. apply Forall_inv in Hw. unfold word_char in Hw. lia.
  - destruct H as (g1 & g2 & -> & H1 & H2). unfold piece_re in H1. cbn [RegexLang.L] in H1.
    destruct H1 as [(c & -> & Hc)|(a & b & -> & (c & -> & Hc) & _)]; cm_unfold_in Hc; unfold in_range in Hc.
    + destruct w as [|x w]; [injection E as -> _; lia|]. injection E as -> E. cbn [app]. f_equal. eapply IH; [exact H2|exact E|exact (Forall_inv_tail Hw)].
    + exfalso. destruct w as [|x w]; injection E as -> _; [lia|]. apply Forall_inv in Hw. unfold word_char in Hw. lia.
Qed.
Lemma word_pieces : forall w p q, Forall word_char w -> RegexLang.Lrep (RegexLang.L piece_re) (length w) p w q.
Proof.
  induction w as [|c w IH]; intros p q H; cbn [length RegexLang.Lrep]; [reflexivity|]. exists [c], w. split; [reflexivity|]. split; [|apply IH, (Forall_inv_tail H)].
  left. exists c. split; [reflexivity|]. cm_unfold. apply Forall_inv in H. unfold word_char in H. unfold in_range. lia.
Qed.
Lemma label_L w rest : Forall word_char w -> length w <= 1000 -> RegexLang.L label_re None (bracketed w) rest.
Proof.
  intros H Hl. rewrite label_shape. exists [91%N], (w ++ [93%N]). split; [reflexivity|]. split; [exists 91%N; split; reflexivity|].
  exists w, [93%N]. split; [reflexivity|]. split; [|exists 93%N; split; reflexivity]. exists (length w). split; [lia|]. split; [exact Hl|]. apply word_pieces, H.
Qed.
Lemma label_L_inv w rest g a : Forall word_char w -> bracketed w ++ rest = g ++ a -> RegexLang.L label_re None g a -> g = bracketed w.
Proof.
  intros H E HL. rewrite label_shape in HL. destruct HL as (g1 & g2 & -> & (c & -> & _) & g3 & g4 & -> & (n & _ & _ & Hn) & (d & -> & Hd)).
  cm_unfold_in Hd. unfold in_range in Hd. assert (d = 93%N) as -> by lia. clear Hd. unfold bracketed in *. rewrite <- !app_assoc in E. injection E as <- E. change (u "[" ++ w ++ u "]") with ([91%N] ++ w ++ [93%N]). do 2 f_equal.
  rewrite (pieces_word n _ g3 a w rest Hn); [reflexivity| |exact H]. symmetry. exact E.
Qed.
Lemma len_bracketed w : length (bracketed w) = length w + 2.
Proof. unfold bracketed. rewrite !app_length. change (length (u "[")) with 1. change (length (u "]")) with 1. lia. Qed.
Lemma match_label s w rest : skipn (ip_pos s) (ip_subject s) = bracketed w ++ rest -> Forall word_char w -> length w <= 1000 ->
  ip_match reLinkLabel s = Some (bracketed w, ip_adv (length w + 2) s).
Proof.
  intros E H Hl. unfold ip_match. rewrite E, reLinkLabel_shape, re_search_bol.
  destruct (RegexLang.match_at_exists label_re None (bracketed w) rest) as ([[g a] caps] & Em); [vm_compute; reflexivity|apply label_L; assumption|].
  rewrite Em. apply RegexLang.match_at_L in Em as [Ea HL]; [|vm_compute; reflexivity]. pose proof (label_L_inv w rest g a H Ea HL) as ->. unfold rm_end. cbn [rm_group rm_before length].
  unfold ip_adv. do 3 f_equal. unfold bracketed. rewrite !app_length. change (length (u "[")) with 1. change (length (u "]")) with 1. lia.
Qed.
Lemma label_word s w rest : skipn (ip_pos s) (ip_subject s) = bracketed w ++ rest -> Forall word_char w -> length w <= 999 ->
  parseLinkLabel s = (length w + 2, ip_adv (length w + 2) s).
Proof.
  intros E H Hl. unfold parseLinkLabel. rewrite (match_label s w rest E H) by lia. assert (El : length (bracketed w) = length w + 2) by (unfold bracketed; rewrite !app_length; change (length (u "[")) with 1; change (length (u "]")) with 1; lia).
  rewrite El. destruct (Nat.ltb_spec 1001 (length w + 2)) as [G|G]; [exfalso; lia|reflexivity].
Qed.
Lemma label_end s : skipn (ip_pos s) (ip_subject s) = [] -> parseLinkLabel s = (0, s).
Proof. intros E. unfold parseLinkLabel, ip_match. rewrite E. vm_compute. reflexivity. Qed.

(** ** The destination *)
Definition sp_star : regex := ltac:(let v := eval vm_compute in (match spnl_re with RSeq a _ => a | r => r end) in exact v).
Definition nl_opt : regex := ltac:(let v := eval vm_compute in (match spnl_re with RSeq _ b => b | r => r end) in exact v).
Lemma spnl_shape : spnl_re = RSeq sp_star nl_opt.
Proof. vm_compute. reflexivity. Qed.
Lemma spnl_one s c q : skipn (ip_pos s) (ip_subject s) = 32%N :: c :: q -> c <> 32%N -> c <> 10%N -> spnl s = ip_adv 1 s.
Proof.
  intros E H1 H2. unfold spnl, ip_skip, ip_match. rewrite E, reSpnl_shape, re_search_bol.
  rewrite (match_at_hd spnl_re None (32%N :: c :: q) (MS (Some 32%N) (c :: q) [])).
  - unfold rm_end. cbn [rm_group rm_before ms_rest length]. replace (S (S (length q)) - S (length q)) with 1 by lia. reflexivity.
  - rewrite spnl_shape. rewrite results_seq_app. eapply hd_flat_map.
    + unfold sp_star. rewrite results_star, star_res_hd. cbn [take_while drop_while].
      assert (C1 : cmatch (CS false false [CRange 32 32]) 32 = true) by reflexivity.
      assert (C2 : cmatch (CS false false [CRange 32 32]) c = false) by (cm_unfold; unfold in_range; lia). rewrite ?C1, ?C2. reflexivity.
    + assert (C2 : cmatch (CS false false [CRange 10 10]) c = false) by (cm_unfold; unfold in_range; lia).
      unfold nl_opt. cbn [results upto_res times_res Nat.sub Nat.min length flat_map ms_rest ms_prev ms_caps map app]. rewrite C2. reflexivity.
Qed.
Definition url_b (c : N) : bool := in_range 48 57 c || in_range 65 90 c || in_range 97 122 c || existsb (N.eqb c) (u "/.-_?=#+").
Lemma url_b_spec c : url_char c -> url_b c = true.
Proof.
  intros [H|H]; unfold url_b.
  - unfold word_char in H. unfold in_range. lia.
  - apply orb_true_iff. right. apply existsb_exists. exists c. split; [exact H|apply N.eqb_refl].
Qed.
Lemma url_small c : url_b c = true -> (c < 128)%N.
Proof. unfold url_b, in_range. change (u "/.-_?=#+") with [47; 46; 45; 95; 63; 61; 35; 43]%N. cbn [existsb]. lia. Qed.
Lemma url_facts c : url_char c -> uri_safe c = true /\ re_test reWhitespaceChar [c] = false /\ is_space c = false /\
  ~ In c [9; 10; 13; 32; 34; 38; 39; 40; 41; 58; 60; 62; 91; 92; 93]%N.
Proof.
  intros H%url_b_spec. pose proof (url_small c H) as Hs.
  assert (B : below 128 (fun c => negb (url_b c) || uri_safe c && negb (re_test reWhitespaceChar [c]) && negb (is_space c) && negb (existsb (N.eqb c) [9; 10; 13; 32; 34; 38; 39; 40; 41; 58; 60; 62; 91; 92; 93]%N)) = true) by (vm_compute; reflexivity).
  pose proof (below_spec _ _ B c Hs) as G. cbv beta in G. rewrite H in G. cbn [negb orb] in G. apply andb_prop in G as [G G4]. apply andb_prop in G as [G G3]. apply andb_prop in G as [G1 G2].
  split; [exact G1|]. split; [destruct (re_test _ _); [discriminate|reflexivity]|]. split; [destruct (is_space c); [discriminate|reflexivity]|].
  intros Hin. destruct (existsb _ _) eqn:E; [discriminate|]. assert (X : existsb (N.eqb c) [9; 10; 13; 32; 34; 38; 39; 40; 41; 58; 60; 62; 91; 92; 93]%N = true) by (apply existsb_exists; exists c; split; [exact Hin|apply N.eqb_refl]). congruence.
Qed.
Lemma dest_run : forall d s q fu, skipn (ip_pos s) (ip_subject s) = d ++ 10%N :: q -> Forall url_char d -> length d < fu ->
  dest_loop fu 0 s = Ok (Some 10%N, ip_adv (length d) s).
Proof.
  induction d as [|c d IH]; intros s q fu E Hd Hf; (destruct fu as [|fu]; [lia|]); cbn [dest_loop].
  - rewrite (peek_skipn s 10%N q E). change (N.eqb 10 92) with false. change (N.eqb 10 40) with false. change (N.eqb 10 41) with false. cbn [andb].
    assert (W : re_test reWhitespaceChar [10%N] = true) by (vm_compute; reflexivity). rewrite W. unfold ip_adv. cbn [length]. rewrite Nat.add_0_r. destruct s; reflexivity.
  - rewrite (peek_skipn s c (d ++ 10%N :: q) E). destruct (url_facts c (Forall_inv Hd)) as (_ & W & _ & N).
    assert (N1 : N.eqb c 92 = false) by (apply N.eqb_neq; intros ->; apply N; cbn; auto 20). assert (N2 : N.eqb c 40 = false) by (apply N.eqb_neq; intros ->; apply N; cbn; auto 20). assert (N3 : N.eqb c 41 = false) by (apply N.eqb_neq; intros ->; apply N; cbn; auto 20).
    rewrite N1, N2, N3, W. cbn [andb]. rewrite (IH (ip_adv 1 s) q fu).
    + unfold ip_adv. cbn [set_ip_pos ip_pos ip_subject ip_refmap ip_smart ip_delims ip_brackets ip_kids ip_next length]. rewrite <- Nat.add_assoc. reflexivity.
    + cbn [ip_adv set_ip_pos ip_pos ip_subject]. apply (skipn_adv s [c]); [exact E|reflexivity].
    + exact (Forall_inv_tail Hd).
    + cbn [length] in Hf. lia.
Qed.
Lemma braces_none s c q : skipn (ip_pos s) (ip_subject s) = c :: q -> c <> 60%N -> ip_match reLinkDestinationBraces s = None.
Proof.
  intros E H. unfold ip_match. rewrite E.
  assert (R : exists r, reLinkDestinationBraces = RSeq RBol r /\ RegexLang.good r = true /\ RegexLang.nullable r = false /\ begins r c = N.eqb c 60).
  { eexists. split; [vm_compute; reflexivity|]. split; [reflexivity|]. split; [reflexivity|]. firsts_calc. lia. }
  destruct R as (r & -> & G1 & G2 & G3). rewrite begins_search; [reflexivity|exact G1|exact G2|]. rewrite G3. apply N.eqb_neq, H.
Qed.
Lemma dest_word s d q : skipn (ip_pos s) (ip_subject s) = d ++ 10%N :: q -> url d -> parseLinkDestination s = Ok (Some d, ip_adv (length d) s).
Proof.
  intros E [Hne Hd]. unfold parseLinkDestination. assert (Hh : exists c r, d = c :: r) by (destruct d; [congruence|eauto]). destruct Hh as (c & r & Ed).
  assert (Ec : skipn (ip_pos s) (ip_subject s) = c :: (r ++ 10%N :: q)) by (rewrite E, Ed; reflexivity).
  assert (N60 : c <> 60%N). { intros ->. destruct (url_facts 60%N) as (_ & _ & _ & N); [rewrite Ed in Hd; exact (Forall_inv Hd)|]. apply N. cbn; auto 20. }
  rewrite (braces_none s c _ Ec N60). unfold peek_is. rewrite (peek_skipn s _ _ Ec). rewrite (proj2 (N.eqb_neq c 60) N60).
  assert (Hlen : length d < S (length (ip_subject s))). { pose proof (f_equal (@length N) E) as L. rewrite skipn_length, app_length in L. cbn [length] in L. lia. }
  rewrite (dest_run d s q _ E Hd Hlen). cbn [bind]. cbn [ip_adv set_ip_pos ip_pos ip_subject].
  assert (Hz : Nat.eqb (ip_pos s + length d) (ip_pos s) = false) by (apply Nat.eqb_neq; rewrite Ed; cbn [length]; lia). rewrite Hz. cbn [andb].
  assert (Hsl : slice (ip_pos s) (ip_pos s + length d) (ip_subject s) = d). { unfold slice. rewrite E. replace (ip_pos s + length d - ip_pos s) with (length d) by lia. rewrite firstn_app, firstn_all, Nat.sub_diag. cbn [firstn]. apply app_nil_r. }
  rewrite Hsl. assert (Hx : forall x, In x d -> url_char x) by (apply Forall_forall; exact Hd).
  rewrite unescape_string_plain; [|intros X; apply Hx in X; apply url_facts in X as (_ & _ & _ & N); apply N; cbn; auto 20|intros X; apply Hx in X; apply url_facts in X as (_ & _ & _ & N); apply N; cbn; auto 20].
  rewrite normalize_uri_safe; [reflexivity|]. apply forallb_forall. intros x Hxd. apply (url_facts x (Hx x Hxd)).
Qed.

(** ** A definition *)
Definition definition_line (w d : str) : str := bracketed w ++ u ": " ++ d ++ [LF].
Definition add_ref (rm : refmap_t) (k d : str) : refmap_t := match assoc_str k rm with Some _ => rm | None => rm ++ [(k, (d, []))] end.
Lemma skipn_self (a b : str) : skipn (length a) (a ++ b) = b.
Proof. rewrite skipn_app, skipn_all, Nat.sub_diag. reflexivity. Qed.
Theorem define_line w d rm s : plain_word w -> url d -> exists s',
  parseReference (definition_line w d) rm s = Ok (length (definition_line w d), s', add_ref rm (map SpecLines.ascii_lower w) d).
Proof.
  intros Hw Hd. pose proof Hw as (Hne & Hl & Hc). unfold parseReference. set (s0 := set_ip_pos 0 (set_ip_subject (definition_line w d) s)).
  assert (E0 : skipn (ip_pos s0) (ip_subject s0) = bracketed w ++ u ": " ++ d ++ [LF]) by reflexivity.
  rewrite (label_word s0 w _ E0 Hc Hl). destruct (Nat.eqb_spec (length w + 2) 0) as [G|_]; [lia|]. destruct (Nat.eqb_spec (length w + 2) 2) as [G|_]; [destruct w; [congruence|cbn [length] in G; lia]|]. cbn [orb].
  set (s1 := ip_adv (length w + 2) s0). assert (Eb : length w + 2 = length (bracketed w)) by (unfold bracketed; rewrite !app_length; change (length (u "[")) with 1; change (length (u "]")) with 1; lia).
  assert (E1 : skipn (ip_pos s1) (ip_subject s1) = 58%N :: 32%N :: d ++ [LF]) by (apply (skipn_adv s0 (bracketed w)); [exact E0|exact Eb]).
  unfold peek_is. rewrite (peek_skipn s1 _ _ E1). change (negb (N.eqb 58 58)) with false. cbv iota.
  set (s2 := ip_adv 1 s1). assert (E2 : skipn (ip_pos s2) (ip_subject s2) = 32%N :: d ++ [LF]) by (apply (skipn_adv s1 [58%N]); [exact E1|reflexivity]).
  destruct d as [|c r] eqn:Ed; [destruct Hd; congruence|]. rewrite <- Ed in *. assert (E2' : skipn (ip_pos s2) (ip_subject s2) = 32%N :: c :: (r ++ [LF])) by (rewrite E2, Ed; reflexivity).
  assert (Nc : c <> 32%N /\ c <> 10%N). { destruct Hd as [_ Hd]. rewrite Ed in Hd. destruct (url_facts c (Forall_inv Hd)) as (_ & _ & _ & N). split; intros ->; apply N; cbn; auto 20. }
  rewrite (spnl_one s2 c _ E2' (proj1 Nc) (proj2 Nc)). set (s3 := ip_adv 1 s2).
  assert (E3 : skipn (ip_pos s3) (ip_subject s3) = d ++ [10%N]) by (apply (skipn_adv s2 [32%N]); [exact E2|reflexivity]).
  rewrite (dest_word s3 d [] E3 Hd). cbn [bind]. set (s4 := ip_adv (length d) s3).
  assert (E4 : skipn (ip_pos s4) (ip_subject s4) = [10%N]) by (apply (skipn_adv s3 d); [exact E3|reflexivity]).
  assert (Esp : spnl s4 = ip_adv 1 s4). { unfold spnl, ip_skip, ip_match. rewrite E4. vm_compute (re_search _ _). reflexivity. }
  rewrite Esp. destruct (Nat.eqb_spec (ip_pos (ip_adv 1 s4)) (ip_pos s4)) as [G|_]; [cbn [ip_adv set_ip_pos ip_pos] in G; lia|].
  assert (E5 : skipn (ip_pos (ip_adv 1 s4)) (ip_subject (ip_adv 1 s4)) = []) by (apply (skipn_adv s4 [10%N]); [exact E4|reflexivity]).
  assert (Et : parseLinkTitle (ip_adv 1 s4) = (None, ip_adv 1 s4)). { unfold parseLinkTitle, ip_match. rewrite E5. vm_compute (re_search _ _). reflexivity. }
  rewrite Et. assert (Er : set_ip_pos (ip_pos s4) (ip_adv 1 s4) = s4) by (destruct s; reflexivity). rewrite Er.
  assert (Ee : ip_match reSpaceAtEndOfLine s4 = Some ([10%N], ip_adv 1 s4)). { unfold ip_match. rewrite E4. vm_compute (re_search _ _). reflexivity. }
  rewrite Ee. cbn [negb]. assert (Ef : firstn (length w + 2) (definition_line w d) = in_brackets w). { rewrite Eb. unfold definition_line. rewrite firstn_app, firstn_all, Nat.sub_diag. cbn [firstn]. rewrite app_nil_r. reflexivity. }
  rewrite Ef, (word_key_ne w Hw), (word_key w Hw). eexists. unfold add_ref. do 3 f_equal.
  assert (Elen : ip_pos (ip_adv 1 s4) = length (definition_line w d)). { unfold s4, s3, s2, s1, s0, definition_line. cbn [ip_adv set_ip_pos ip_pos set_ip_subject]. rewrite !app_length, <- Eb. change (length (u ": ")) with 2. change (length [LF]) with 1. lia. }
  rewrite Elen. reflexivity.
Qed.
(** a bracketed plain_word with something else behind it defines nothing *)
Lemma not_definition w rest rm s : plain_word w -> (forall c r, rest = c :: r -> c <> 58%N) -> exists s', parseReference (bracketed w ++ rest) rm s = Ok (0, s', rm).
Proof.
  intros Hw Hr. pose proof Hw as (Hne & Hl & Hc). unfold parseReference. set (s0 := set_ip_pos 0 (set_ip_subject (bracketed w ++ rest) s)).
  assert (E0 : skipn (ip_pos s0) (ip_subject s0) = bracketed w ++ rest) by reflexivity.
  rewrite (label_word s0 w _ E0 Hc Hl). destruct (Nat.eqb_spec (length w + 2) 0) as [G|_]; [lia|]. destruct (Nat.eqb_spec (length w + 2) 2) as [G|_]; [destruct w; [congruence|cbn [length] in G; lia]|]. cbn [orb].
  set (s1 := ip_adv (length w + 2) s0). assert (Eb : length w + 2 = length (bracketed w)) by (unfold bracketed; rewrite !app_length; change (length (u "[")) with 1; change (length (u "]")) with 1; lia).
  assert (E1 : skipn (ip_pos s1) (ip_subject s1) = rest) by (apply (skipn_adv s0 (bracketed w)); [exact E0|exact Eb]).
  assert (Ep : peek_is 58 s1 = false). { unfold peek_is. destruct rest as [|c r]; [rewrite (peek_end s1 E1); reflexivity|]. rewrite (peek_skipn s1 _ _ E1). apply N.eqb_neq. eapply Hr. reflexivity. }
  rewrite Ep. eexists. reflexivity.
Qed.
