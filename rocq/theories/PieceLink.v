(** * Destinations and titles of links: C53 *)
From Verif Require Import Base Regex Common NormRef Node Inlines Blocks RegexFacts StrFacts Spec SpecLines SpecRefs SpecPieces
  CommonFacts StrProp HtmlFacts TextFacts RenderFacts AngleFacts RefFacts RefLine RefInline PieceRegex PieceMatch.
From Verif Require Import RegexLang.
From Coq Require Import ZifyBool ZifyNat ZifyN.

Lemma adv_adv a b s : ip_adv b (ip_adv a s) = ip_adv (a + b) s.
Proof. unfold ip_adv. cbn [set_ip_pos ip_pos ip_subject ip_refmap ip_smart ip_delims ip_brackets ip_kids ip_next]. rewrite Nat.add_assoc. reflexivity. Qed.
Lemma adv_0 s : ip_adv 0 s = s.
Proof. unfold ip_adv. rewrite Nat.add_0_r. destruct s; reflexivity. Qed.
Lemma adv_rest s g q n : skipn (ip_pos s) (ip_subject s) = g ++ q -> n = length g -> skipn (ip_pos (ip_adv n s)) (ip_subject (ip_adv n s)) = q.
Proof. intros E H. apply (skipn_adv s g); assumption. Qed.
(** ** Spaces *)
Lemma spnl_many s k c q : skipn (ip_pos s) (ip_subject s) = repeat 32%N k ++ c :: q -> c <> 32%N -> c <> 10%N -> spnl s = ip_adv k s.
Proof.
  intros E H1 H2. unfold spnl, ip_skip, ip_match. rewrite E, reSpnl_shape, re_search_bol.
  assert (C2 : cmatch (CS false false [CRange 32 32]) c = false) by (cm_unfold; unfold in_range; lia).
  assert (C3 : cmatch (CS false false [CRange 10 10]) c = false) by (cm_unfold; unfold in_range; lia).
  destruct (take_while_app_stop (cmatch (CS false false [CRange 32 32])) (repeat 32%N k) (c :: q)) as [T1 T2].
  { apply forallb_forall. intros x Hx. apply repeat_spec in Hx as ->. reflexivity. }
  { intros x q' X. injection X as <- _. exact C2. }
  rewrite (match_at_hd spnl_re None (repeat 32%N k ++ c :: q) (MS (prev_of None (repeat 32%N k)) (c :: q) [])).
  - unfold rm_end. cbn [rm_group rm_before ms_rest]. replace (length (repeat 32%N k ++ c :: q) - length (c :: q)) with (length (repeat 32%N k)) by (rewrite app_length; lia).
    rewrite firstn_app, firstn_all, Nat.sub_diag. cbn [firstn]. rewrite app_nil_r, repeat_length. cbn [length Nat.add]. reflexivity.
  - rewrite spnl_shape. rewrite results_seq_app. eapply hd_flat_map.
    + unfold sp_star. rewrite results_star, star_res_hd, T1, T2. reflexivity.
    + unfold nl_opt. cbn [results upto_res times_res Nat.sub Nat.min length flat_map ms_rest ms_prev ms_caps map app]. rewrite C3. reflexivity.
Qed.
(** ** The destination *)
Lemma dest_paren : forall d k s c q fu, skipn (ip_pos s) (ip_subject s) = d ++ c :: q -> Forall dest_char d -> balanced k d = true -> c = 32%N \/ c = 41%N -> length d < fu ->
  dest_loop fu k s = Ok (Some c, ip_adv (length d) s).
Proof.
  induction d as [|x d IH]; intros k s c q fu E Hd Hb Hc Hf; (destruct fu as [|fu]; [lia|]); cbn [dest_loop].
  - cbn [balanced] in Hb. apply Nat.eqb_eq in Hb as ->. rewrite (peek_skipn s c q E). cbn [length]. rewrite adv_0. destruct Hc as [-> | ->]; reflexivity.
  - rewrite (peek_skipn s x (d ++ c :: q) E). destruct (dest_facts x (Forall_inv Hd)) as (_ & _ & Nx & W). assert (N1 : N.eqb x 92 = false) by (apply N.eqb_neq; cbn [In] in Nx; lia). rewrite N1, W. cbn [andb].
    assert (E1 : skipn (ip_pos (ip_adv 1 s)) (ip_subject (ip_adv 1 s)) = d ++ c :: q) by (apply (adv_rest s [x]); [exact E|reflexivity]). cbn [balanced] in Hb. cbn [length] in Hf |- *.
    pose proof (Forall_inv_tail Hd) as Ht. assert (Hf' : length d < fu) by lia. change (S (length d)) with (1 + length d). rewrite <- adv_adv. destruct (N.eqb x 40); [apply (IH _ _ _ q); assumption|]. destruct (N.eqb x 41); [|apply (IH _ _ _ q); assumption]. destruct k as [|k]; [discriminate|apply (IH _ _ _ q); assumption].
Qed.
Lemma dest_normal d : Forall dest_char d -> normalize_uri (unescape_string d) = Ok d.
Proof.
  intros H. assert (Hx : forall x, In x d -> dest_char x) by (apply Forall_forall; exact H).
  rewrite unescape_string_plain; [|intros X; apply Hx in X; apply dest_facts in X as (_ & _ & N & _); apply N; cbn; auto 20|intros X; apply Hx in X; apply dest_facts in X as (_ & _ & N & _); apply N; cbn; auto 20].
  apply normalize_uri_safe. apply forallb_forall. intros x Hxd. apply (dest_facts x (Hx x Hxd)).
Qed.
(** repetitions that stop before [c] *)
Lemma rep_until r c : (forall p g q, L r p g q -> exists x y, g = x :: y /\ x <> c /\ (y = [] \/ x = 92%N)) ->
  forall n p g q w rest, Lrep (L r) n p g (c :: q) -> g ++ c :: q = w ++ c :: rest -> ~ In 92%N w -> ~ In c w -> c <> 92%N -> g = w.
Proof.
  intros Hr. induction n as [|n IH]; intros p g q w rest H E H1 H2 H3; cbn [Lrep] in H.
  - subst g. destruct w as [|x w]; [reflexivity|]. injection E as <- _. destruct H2. left. reflexivity.
  - destruct H as (g1 & g2 & -> & G1 & G2). apply Hr in G1 as (x & y & -> & Hx & Hy). destruct w as [|z w]; cbn [app] in E; [injection E as -> _; congruence|]. injection E as -> E.
    destruct Hy as [->|Hy]; [|subst z; destruct H1; left; reflexivity]. cbn [app] in *. f_equal. eapply IH; [exact G2|exact E| | |exact H3]; intros X; [apply H1|apply H2]; right; exact X.
Qed.
Lemma rep_all r (P : N -> Prop) : (forall c p q, P c -> L r p [c] q) -> forall w p q, Forall P w -> Lrep (L r) (length w) p w q.
Proof.
  intros H. induction w as [|c w IH]; intros p q Hw; cbn [length Lrep]; [reflexivity|]. exists [c], w. split; [reflexivity|]. split; [apply H, (Forall_inv Hw)|apply IH, (Forall_inv_tail Hw)].
Qed.
(** a pattern [a], pieces, [z] *)
Lemma ip_match_between re r a z s w q (P : N -> Prop) : re = RSeq RBol (RSeq (RChr (CS false false [CRange a a])) (RSeq (RRep true 0 None r) (RChr (CS false false [CRange z z])))) -> good r && negb (nullable r) = true ->
  (forall p g q, L r p g q -> exists x y, g = x :: y /\ x <> z /\ (y = [] \/ x = 92%N)) -> (forall c p q, P c -> L r p [c] q) ->
  skipn (ip_pos s) (ip_subject s) = ([a] ++ w ++ [z]) ++ q -> Forall P w -> ~ In 92%N w -> ~ In z w -> z <> 92%N -> ip_match re s = Some ([a] ++ w ++ [z], ip_adv (length w + 2) s).
Proof.
  intros Er Hg Hr HP E Hw H1 H2 H3. replace (length w + 2) with (length ([a] ++ w ++ [z])) by (rewrite !app_length; cbn [length]; lia).
  assert (C : forall c, cmatch (CS false false [CRange c c]) c = true) by (intros c; cm_unfold; lia).
  apply (ip_match_only _ _ s _ q Er); [cbn [good andb nullable]; rewrite andb_true_r; exact Hg|exact E| |].
  - apply L_chr_seq; [apply C|]. intros p. apply L_seq; [|intros p'; apply L_chr, C]. exists (length w). split; [lia|]. split; [exact I|]. apply (rep_all r P HP w), Hw.
  - intros g' q' Eq H. cbn [L] in H. destruct H as (g1 & g2 & -> & (x & -> & Hx) & g3 & g4 & -> & (n & _ & _ & Hn) & (y & -> & Hy)). apply chr_plain in Hx, Hy. subst x y. do 2 f_equal.
    rewrite <- !app_assoc in Eq. cbn [app] in Eq. injection Eq as Eq. f_equal. eapply (rep_until r z Hr n _ g3 q' w q); [exact Hn|symmetry; exact Eq|exact H1|exact H2|exact H3].
Qed.
Definition brace_re : regex := ltac:(let v := eval vm_compute in (match reLinkDestinationBraces with RSeq _ (RSeq _ (RSeq (RRep _ _ _ r) _)) => r | r => r end) in exact v).
Lemma braces_shape : reLinkDestinationBraces = RSeq RBol (RSeq (RChr (CS false false [CRange 60 60])) (RSeq (RRep true 0 None brace_re) (RChr (CS false false [CRange 62 62])))).
Proof. vm_compute. reflexivity. Qed.
Lemma dest_piece s d c q : skipn (ip_pos s) (ip_subject s) = dest_text d ++ c :: q -> c = 32%N \/ c = 41%N -> dest_ok d -> parseLinkDestination s = Ok (Some (dest_of d), ip_adv (length (dest_text d)) s).
Proof.
  intros E Hc [Hd Hb]. unfold parseLinkDestination. destruct d as [d|d]; cbn [dest_text dest_of] in *.
  - destruct Hb as [Hne Hb]. assert (Hh : exists y r, d = y :: r) by (destruct d; [congruence|eauto]). destruct Hh as (y & r & Ed).
    assert (Ec : skipn (ip_pos s) (ip_subject s) = y :: (r ++ c :: q)) by (rewrite E, Ed; reflexivity).
    assert (N60 : y <> 60%N). { destruct (dest_facts y) as (_ & _ & N & _); [rewrite Ed in Hd; exact (Forall_inv Hd)|]. cbn [In] in N. lia. }
    rewrite (braces_none s y _ Ec N60). unfold peek_is. rewrite (peek_skipn s _ _ Ec). rewrite (proj2 (N.eqb_neq y 60) N60).
    assert (Hlen : length d < S (length (ip_subject s))). { pose proof (f_equal (@length N) E) as X. rewrite skipn_length, app_length in X. cbn [length] in X. lia. }
    rewrite (dest_paren d 0 s c q _ E Hd Hb Hc Hlen). cbn [bind]. cbn [ip_adv set_ip_pos ip_pos ip_subject].
    assert (Hz : Nat.eqb (ip_pos s + length d) (ip_pos s) = false) by (apply Nat.eqb_neq; rewrite Ed; cbn [length]; lia). rewrite Hz. cbn [andb].
    rewrite (slice_at s d (c :: q) E), (dest_normal d Hd). reflexivity.
  - change (u "<") with [60%N] in *. change (u ">") with [62%N] in *.
    rewrite (ip_match_between _ brace_re 60 62 s d (c :: q) dest_char braces_shape); [| | | |exact E|exact Hd| | |discriminate]; try reflexivity.
    + replace (length ([60%N] ++ d ++ [62%N])) with (length d + 2) by (rewrite !app_length; cbn [length]; lia). assert (Ech : chop_ends ([60%N] ++ d ++ [62%N]) = d) by (unfold chop_ends; cbn [app tl]; apply removelast_last). rewrite Ech, (dest_normal d Hd). reflexivity.
    + unfold brace_re. cbn [L]. intros p g x [(y & -> & Hy)|(g1 & g2 & -> & (y & -> & Hy) & (z & -> & _))].
      * exists y, []. split; [reflexivity|]. split; [intros ->; vm_compute in Hy; discriminate|auto].
      * apply chr_plain in Hy as ->. exists 92%N, [z]. split; [reflexivity|]. split; [discriminate|auto].
    + intros x p x' Hx. left. exists x. split; [reflexivity|]. destruct (dest_facts x Hx) as (F1 & _ & F3 & _). cbn [In] in F3. chars.
    + intros X. rewrite Forall_forall in Hd. apply Hd, dest_facts in X as (_ & _ & N & _). apply N. cbn; auto 20.
    + intros X. rewrite Forall_forall in Hd. apply Hd, dest_facts in X as (_ & _ & N & _). apply N. cbn; auto 20.
Qed.
(** ** The title *)
Lemma no_title s q : skipn (ip_pos s) (ip_subject s) = 41%N :: q -> parseLinkTitle s = (None, s).
Proof.
  intros E. unfold parseLinkTitle, ip_match. rewrite E, reLinkTitle_shape, begins_search; reflexivity.
Qed.
Definition tp_re (a : N) : regex := ltac:(let x := eval vm_compute in (match title_re with RAlt (RSeq _ (RSeq (RRep _ _ _ r) _)) _ => r | r => r end) in let y := eval vm_compute in (match title_re with RAlt _ (RAlt (RSeq _ (RSeq (RRep _ _ _ r) _)) _) => r | r => r end) in
  let z := eval vm_compute in (match title_re with RAlt _ (RAlt _ (RSeq _ (RSeq (RRep _ _ _ r) _))) => r | r => r end) in exact (if N.eqb a 34 then x else if N.eqb a 39 then y else z)).
Definition tq_re (a z : N) : regex := RSeq (RChr (CS false false [CRange a a])) (RSeq (RRep true 0 None (tp_re a)) (RChr (CS false false [CRange z z]))).
Lemma title_shape : title_re = RAlt (tq_re 34 34) (RAlt (tq_re 39 39) (tq_re 40 41)).
Proof. vm_compute. reflexivity. Qed.
Lemma tq_L a z w p q : In (a, z) [(34, 34); (39, 39); (40, 41)]%N -> Forall (fun c => ordinary_char c /\ ~ In c [34; 39; 40; 41]%N) w -> L (tq_re a z) p ([a] ++ w ++ [z]) q.
Proof.
  intros Haz Hw. assert (C : forall c, cmatch (CS false false [CRange c c]) c = true) by (intros c; cm_unfold; lia).
  apply L_chr_seq; [apply C|]. intros p1. apply L_seq; [|intros p'; apply L_chr, C]. exists (length w). split; [lia|]. split; [exact I|]. eapply rep_all; [|exact Hw].
  intros c p2 q2 [Hc Hn]. unfold ordinary_char in Hc. change ([10; 13; 0]%N ++ u "`[\<&*_") with [10; 13; 0; 96; 91; 92; 60; 38; 42; 95]%N in Hc. cbn [In] in Hc, Hn.
  cbn [In] in Haz. destruct Haz as [X|[X|[X|[]]]]; injection X as <- <-; right; apply L_chr; chars.
Qed.
Lemma tp_first a z p g q : In (a, z) [(34, 34); (39, 39); (40, 41)]%N -> L (tp_re a) p g q -> exists x y, g = x :: y /\ x <> z /\ (y = [] \/ x = 92%N).
Proof.
  intros Haz H. cbn [In] in Haz. destruct Haz as [X|[X|[X|[]]]]; injection X as <- <-; unfold tp_re in H; cbn [N.eqb Pos.eqb L] in H; destruct H as [(g1 & g2 & -> & (y & -> & Hy) & (z & -> & _))|(y & -> & Hy)];
  first [apply chr_plain in Hy as ->; exists 92%N, [z]; split; [reflexivity|]; split; [discriminate|auto]|exists y, []; split; [reflexivity|]; split; [intros ->; vm_compute in Hy; discriminate|auto]].
Qed.
Lemma title_piece s a z w q : skipn (ip_pos s) (ip_subject s) = ([a] ++ w ++ [z]) ++ q -> In (a, z) [(34, 34); (39, 39); (40, 41)]%N -> Forall (fun c => ordinary_char c /\ ~ In c [34; 39; 40; 41]%N) w ->
  parseLinkTitle s = (Some w, ip_adv (length ([a] ++ w ++ [z])) s).
Proof.
  intros E Haz Hw. assert (Hno : forall c, In c [34; 38; 39; 40; 41; 92]%N -> ~ In c w).
  { intros c Hc X. rewrite Forall_forall in Hw. apply Hw in X as [X1 X2]. unfold ordinary_char in X1. change ([10; 13; 0]%N ++ u "`[\<&*_") with [10; 13; 0; 96; 91; 92; 60; 38; 42; 95]%N in X1. cbn [In] in *. lia. }
  unfold parseLinkTitle. rewrite (ip_match_only _ title_re s ([a] ++ w ++ [z]) q reLinkTitle_shape); [|vm_compute; reflexivity|exact E| |].
  - assert (Ech : chop_ends ([a] ++ w ++ [z]) = w) by (unfold chop_ends; cbn [app tl]; apply removelast_last). rewrite Ech, unescape_string_plain; [reflexivity| |]; apply Hno; cbn; auto 10.
  - pose proof (tq_L a z w None q Haz Hw) as H. rewrite title_shape. cbn [In] in Haz. destruct Haz as [X|[X|[X|[]]]]; injection X as <- <-; [left|right; left|right; right]; exact H.
  - intros g' q' Eq H. rewrite title_shape in H. assert (Hz : exists a' z', In (a', z') [(34, 34); (39, 39); (40, 41)]%N /\ L (tq_re a' z') None g' q') by (destruct H as [H|[H|H]]; eexists; eexists; (split; [|exact H]); cbn; auto).
    destruct Hz as (a' & z' & Hz & H'). unfold tq_re in H'. cbn [L] in H'. destruct H' as (g1 & g2 & -> & (x & -> & Hx) & g3 & g4 & -> & (n & _ & _ & Hn) & (y & -> & Hy)). apply chr_plain in Hx, Hy. subst x y.
    rewrite <- !app_assoc in Eq. cbn [app] in Eq. injection Eq as <- Eq. assert (z' = z) as -> by (cbn [In] in Haz, Hz; clear -Haz Hz; destruct Haz as [X|[X|[X|[]]]], Hz as [Y|[Y|[Y|[]]]]; congruence). cbn [app]. do 2 f_equal.
    eapply (rep_until (tp_re a) z); [intros; eapply tp_first; eassumption|exact Hn|symmetry; exact Eq| | |]; [apply Hno; cbn; auto 10| |]; cbn [In] in Haz; destruct Haz as [X|[X|[X|[]]]]; injection X as <- <-; first [discriminate|apply Hno; cbn; auto 10].
Qed.
(** ** The whole tail *)
Lemma last_snoc {A} (l : list A) x : last_opt (l ++ [x]) = Some x.
Proof. rewrite last_opt_app. reflexivity. Qed.
Lemma nth_before s g q c : skipn (ip_pos s) (ip_subject s) = g ++ q -> last_opt g = Some c -> nth_error (ip_subject s) (ip_pos s + length g - 1) = Some c.
Proof.
  intros E H. destruct g as [|y g0]; [discriminate|]. destruct (exists_last (l := y :: g0) ltac:(discriminate)) as (m & x & Em). rewrite Em in *. rewrite last_snoc in H. injection H as ->.
  rewrite <- (firstn_skipn (ip_pos s) (ip_subject s)). rewrite E. assert (Hp : length (firstn (ip_pos s) (ip_subject s)) = ip_pos s).
  { apply firstn_length_le. destruct (Nat.le_gt_cases (ip_pos s) (length (ip_subject s))) as [G|G]; [exact G|]. rewrite skipn_all2 in E by lia. destruct m; discriminate. }
  rewrite app_length. cbn [length]. rewrite nth_error_app2 by lia. rewrite Hp. replace (ip_pos s + (length m + 1) - 1 - ip_pos s) with (length m) by lia. rewrite <- app_assoc, nth_error_app2, Nat.sub_diag by lia. reflexivity.
Qed.
Definition link_tail (i : nat) (d : dest) (t : option title) (j : nat) : str := u "(" ++ repeat 32%N i ++ dest_text d ++ title_text t ++ repeat 32%N j ++ u ")".
Lemma tail_piece s i d t j q : skipn (ip_pos s) (ip_subject s) = link_tail i d t j ++ q -> dest_ok d -> match t with None => True | Some t => title_ok t end ->
  inline_tail s = Ok (Some (dest_of d, option_map ti_text t), ip_adv (length (link_tail i d t j)) s).
Proof.
  intros E Hd Ht. unfold link_tail in *. rewrite <- !app_assoc in E. unfold inline_tail. unfold peek_is at 1. rewrite (peek_skipn s _ _ E). change (N.eqb 40 40) with true. cbv iota.
  assert (Hfirst : exists c r, dest_text d = c :: r /\ c <> 32%N /\ c <> 10%N).
  { destruct Hd as [Hd Hb]. destruct d as [d|d]; cbn [dest_text dest_of] in *; [|eexists; eexists; split; [reflexivity|split; discriminate]]. destruct Hb as [Hne _]. destruct d as [|c r]; [congruence|]. exists c, r. split; [reflexivity|]. destruct (dest_facts c (Forall_inv Hd)) as (F & _). lia. }
  assert (Hlast : exists m c, dest_text d = m ++ [c] /\ re_test reWhitespaceChar [c] = false).
  { destruct Hd as [Hd Hb]. destruct d as [d|d]; cbn [dest_text dest_of] in *.
    - destruct Hb as [Hne _]. destruct (exists_last Hne) as (m & c & Em). exists m, c. split; [exact Em|]. rewrite Em in Hd. apply Forall_app in Hd as [_ Hd]. apply dest_facts, (Forall_inv Hd).
    - exists (u "<" ++ d), 62%N. split; [apply app_assoc|vm_compute; reflexivity]. }
  pose proof (adv_rest s (u "(") _ 1 E eq_refl) as E1. set (s0 := ip_adv 1 s) in *.
  destruct Hfirst as (c & r & Ed & Hc1 & Hc2). assert (E1' : skipn (ip_pos s0) (ip_subject s0) = repeat 32%N i ++ c :: (r ++ title_text t ++ repeat 32%N j ++ u ")" ++ q)) by (rewrite E1, Ed; reflexivity).
  rewrite (spnl_many s0 i c _ E1' Hc1 Hc2). pose proof (adv_rest s0 _ _ i E1 (eq_sym (repeat_length _ _))) as E2. set (s1 := ip_adv i s0) in *.
  set (rest := title_text t ++ repeat 32%N j ++ u ")" ++ q) in *.
  assert (Hr : exists y z, rest = y :: z /\ (y = 32%N \/ y = 41%N)).
  { unfold rest. destruct t as [t|]; cbn [title_text].
    - destruct Ht as (G & _). destruct (ti_gap t) as [|g]; [lia|]. cbn [repeat app]. eauto.
    - destruct j; cbn [repeat app u]; eauto. }
  destruct Hr as (y & z & Er & Hy). assert (E2' : skipn (ip_pos s1) (ip_subject s1) = dest_text d ++ y :: z) by (rewrite E2, Er; reflexivity).
  rewrite (dest_piece s1 d y z E2' Hy Hd). cbn [bind]. pose proof (adv_rest s1 _ _ _ E2 eq_refl) as E3. set (s2 := ip_adv (length (dest_text d)) s1) in *.
  set (gap := match t with Some t => ti_gap t | None => j end).
  set (rest2 := match t with Some t => ([ti_open t] ++ ti_text t ++ [ti_close t]) ++ repeat 32%N j ++ 41%N :: q | None => 41%N :: q end).
  assert (Eg : rest = repeat 32%N gap ++ rest2). { unfold rest, gap, rest2. destruct t as [t|]; cbn [title_text]; rewrite <- ?app_assoc; reflexivity. }
  assert (Hr2 : exists a b, rest2 = a :: b /\ a <> 32%N /\ a <> 10%N).
  { unfold rest2. destruct t as [t|]; [|eexists; eexists; split; [reflexivity|split; discriminate]]. destruct Ht as (_ & Ho & _). eexists; eexists; split; [reflexivity|]. cbn [In] in Ho. destruct Ho as [X|[X|[X|[]]]]; injection X as <- _; split; discriminate. }
  destruct Hr2 as (a & b & Er2 & Ha1 & Ha2). assert (E3' : skipn (ip_pos s2) (ip_subject s2) = repeat 32%N gap ++ a :: b) by (rewrite E3, Eg, Er2; reflexivity).
  rewrite (spnl_many s2 gap a b E3' Ha1 Ha2). assert (E3'' : skipn (ip_pos s2) (ip_subject s2) = repeat 32%N gap ++ rest2) by (rewrite E3; exact Eg). pose proof (adv_rest s2 _ _ gap E3'' (eq_sym (repeat_length _ _))) as E4. set (s3 := ip_adv gap s2) in *.
  (* the character before the title *)
  assert (Hprev : exists pc, nth_error (ip_subject s3) (ip_pos s3 - 1) = Some pc /\ re_test reWhitespaceChar [pc] = negb (Nat.eqb gap 0)).
  { destruct Hlast as (m & lc & Em & Hlc). assert (EE : skipn (ip_pos s1) (ip_subject s1) = (dest_text d ++ repeat 32%N gap) ++ rest2) by (rewrite E2, Eg, <- app_assoc; reflexivity).
    replace (ip_pos s3 - 1) with (ip_pos s1 + length (dest_text d ++ repeat 32%N gap) - 1) by (unfold s3, s2; cbn [ip_adv set_ip_pos ip_pos]; rewrite app_length, repeat_length; lia).
    change (ip_subject s3) with (ip_subject s1). destruct gap as [|g]; [exists lc; split; [|exact Hlc]|exists 32%N; split; [|vm_compute; reflexivity]]; (eapply nth_before; [exact EE|]).
    - cbn [repeat]. rewrite app_nil_r, Em. apply last_snoc.
    - cbn [repeat]; rewrite repeat_cons, app_assoc. apply last_snoc. }
  destruct Hprev as (pc & Hp1 & Hp2). rewrite Hp1. cbn [of_option bind]. rewrite Hp2.
  assert (Hend : forall s4, skipn (ip_pos s4) (ip_subject s4) = repeat 32%N j ++ 41%N :: q -> spnl s4 = ip_adv j s4 /\ peek_is 41 (ip_adv j s4) = true).
  { intros s4 E5. split; [apply (spnl_many s4 j 41%N q E5); discriminate|]. unfold peek_is. rewrite (peek_skipn (ip_adv j s4) 41%N q); [reflexivity|]. apply (adv_rest s4 (repeat 32%N j)); [exact E5|symmetry; apply repeat_length]. }
  destruct t as [t|].
  - destruct Ht as (G & Ho & Hw). assert (Hz : Nat.eqb gap 0 = false) by (apply Nat.eqb_neq; unfold gap; lia). rewrite Hz. cbn [negb]. rewrite (title_piece s3 _ _ _ _ E4 Ho Hw).
    pose proof (adv_rest s3 _ _ _ E4 eq_refl) as E5. destruct (Hend _ E5) as [X1 X2]. rewrite X1, X2. cbn [option_map]. do 2 f_equal. unfold s3, s2, s1, s0. rewrite !adv_adv. f_equal.
    unfold gap. cbn [title_text]. rewrite !app_length, !repeat_length. cbn [length u]. lia.
  - assert (Ets : (if negb (Nat.eqb gap 0) then parseLinkTitle s3 else (None, s3)) = (None, s3)) by (destruct (Nat.eqb gap 0); cbn [negb]; [reflexivity|apply (no_title s3 q E4)]). rewrite Ets.
    assert (X1 : spnl s3 = ip_adv 0 s3) by (apply (spnl_many s3 0 41%N q E4); discriminate). rewrite X1, adv_0. unfold peek_is. rewrite (peek_skipn s3 _ _ E4). change (N.eqb 41 41) with true. cbv iota.
    cbn [option_map]. do 2 f_equal. unfold s3, s2, s1, s0. rewrite !adv_adv. f_equal. unfold gap. cbn [title_text]. rewrite !app_length, !repeat_length. cbn [length u]. lia.
Qed.
