(** * Fenced code blocks: C17 *)
From Verif Require Import Base Regex Common NormRef Node Inlines Blocks Html Main RegexFacts StrFacts Spec SpecTree SpecSame SpecLines
  TreeFacts StrProp InlineFacts HtmlFacts RenderFacts BlockFacts BlockInv BlockRun LineFacts ParseFacts Sim SimFacts DocFacts ColumnFacts RuleFacts MarkFacts LeafFacts.
From Verif Require RegexLang TextFacts.
From Coq Require Import ZifyBool ZifyNat ZifyN.

(** ** The expressions *)
Definition any_cs : cset := match reCodeFence with RAlt (RSeq _ (RSeq _ (RLook _ (RSeq (RRep _ _ _ (RChr cs)) _)))) _ => cs | _ => CS false false [] end.
Definition ticks_open : regex := RSeq RBol (RSeq (RRep true 3 None (RChr (cs1 96))) (RLook true (RSeq (RRep true 0 None (RChr any_cs)) (RChr (cs1 96))))).
Definition tildes_open : regex := RSeq RBol (RRep true 3 None (RChr (cs1 126))).
Lemma reCodeFence_shape : reCodeFence = RAlt ticks_open tildes_open.
Proof. vm_compute. reflexivity. Qed.
Lemma any_cs_spec c : c <> 10%N -> cmatch any_cs c = true.
Proof. intros H. unfold any_cs. match goal with |- cmatch ?x c = true => let y := eval vm_compute in x in change x with y end. cm_unfold. lia. Qed.
Lemma runs_inj c n m (a b : str) : repeat c n ++ a = repeat c m ++ b -> hd_error a <> Some c -> hd_error b <> Some c -> n = m /\ a = b.
Proof.
  revert m. induction n as [|n IH]; intros [|m] E Ha Hb; cbn in E.
  - auto.
  - subst a. cbn in Ha. congruence.
  - subst b. cbn in Hb. congruence.
  - injection E as E. destruct (IH m E Ha Hb). auto.
Qed.
Lemma repeat_hd (c : N) n a : 1 <= n -> hd_error (repeat c n ++ a) = Some c.
Proof. destruct n; [lia|reflexivity]. Qed.
Lemma L_ticks_open p g q : RegexLang.L ticks_open p g q -> p = None /\ 3 <= length g /\ g = repeat 96%N (length g) /\ ((forall c, In c q -> c <> 10%N) -> ~ In 96%N q).
Proof.
  intros (g1 & g2 & Eg & [-> Hp] & H). cbn [app] in Eg. subst g2. destruct H as (h & e & Eh & H1 & [-> H2]). rewrite app_nil_r in Eh. subst h. apply L_run in H1 as [L1 L2]. split; [exact Hp|]. split; [exact L1|]. split; [exact L2|].
  intros Hlf Hin. apply H2. apply in_split in Hin as (a & b & ->). exists (a ++ [96%N]), b. split; [rewrite <- app_assoc; reflexivity|]. exists a, [96%N]. split; [reflexivity|]. split.
  - apply (RegexLang.L_rep_chr true 0 None). split; [lia|]. split; [exact I|]. apply Forall_forall. intros x Hx. apply any_cs_spec, Hlf. apply in_or_app. left. exact Hx.
  - exists 96%N. split; reflexivity.
Qed.
Lemma ticks_open_L g q : 3 <= length g -> g = repeat 96%N (length g) -> ~ In 96%N q -> RegexLang.L ticks_open None g q.
Proof.
  intros H1 H2 H3. exists [], g. split; [reflexivity|]. split; [split; reflexivity|]. exists g, []. split; [rewrite app_nil_r; reflexivity|]. split.
  - apply L_run. auto.
  - split; [reflexivity|]. intros (g' & q' & E & h & e & Eh & _ & x & -> & Hx). rewrite cs1_spec in Hx. apply N.eqb_eq in Hx as ->. apply H3. subst. rewrite !in_app_iff. left. right. left. reflexivity.
Qed.
Lemma fence_match l c n info : opens_fence l c n info -> ~ In 10%N l -> exists m, re_search reCodeFence l = Some m /\ rm_group m = repeat c n.
Proof.
  intros (El & Hc & Hn & Hh & Hi) Hlf.
  assert (G : exists g q caps, match_at reCodeFence None l = Some (g, q, caps) /\ g = repeat c n).
  { destruct Hc as [-> | ->].
    - destruct (RegexLang.match_at_exists reCodeFence None (repeat 96%N n) info) as ([[g q] caps] & E); [vm_compute; reflexivity| |].
      + rewrite reCodeFence_shape. left. apply ticks_open_L; rewrite ?repeat_length; auto.
      + rewrite <- El in E. exists g, q, caps. split; [exact E|]. apply RegexLang.match_at_L in E as [E HL]; [|vm_compute; reflexivity]. rewrite reCodeFence_shape in HL.
        destruct HL as [HL|HL].
        * apply L_ticks_open in HL as (_ & L1 & L2 & L3). rewrite El, L2 in E.
          assert (Hq : ~ In 96%N q) by (apply L3; intros x Hx ->; apply Hlf; rewrite El, E; apply in_or_app; right; exact Hx).
          apply runs_inj in E as [E _]; [congruence|exact Hh|destruct q; [discriminate|intros [= ->]; apply Hq; left; reflexivity]].
        * destruct HL as (g1 & g2 & Eg & [-> _] & HL). cbn [app] in Eg. subst g2. apply L_run in HL as [L1 L2]. rewrite El in E. apply (f_equal (@hd_error N)) in E. rewrite L2, !repeat_hd in E by lia. discriminate.
    - assert (EA : results ticks_open (MS None l []) = []).
      { apply match_at_none. apply RegexLang.match_at_none_L; [vm_compute; reflexivity|]. intros g a E HL. apply L_ticks_open in HL as (_ & L1 & L2 & _). rewrite El in E. apply (f_equal (@hd_error N)) in E. rewrite L2, !repeat_hd in E by lia. discriminate. }
      destruct (rep_hd (cs1 126) 3 None (repeat 126%N n) info []) as (st & Hst & Er).
      + rewrite repeat_length. exact Hn.
      + apply run_repeat. rewrite repeat_length. reflexivity.
      + intros x Hx. rewrite cs1_spec. apply N.eqb_neq. intros ->. apply Hh. exact Hx.
      + assert (EB : results tildes_open (MS None l []) = results (RRep true 3 None (RChr (cs1 126))) (MS None (repeat 126%N n ++ info) [])).
        { unfold tildes_open. change (results (RSeq RBol ?r) (MS None l [])) with (flat_map (results r) [MS None l []]). cbn [flat_map]. rewrite app_nil_r, El. reflexivity. }
        destruct (match_at reCodeFence None l) as [[[g q] caps]|] eqn:E.
        * exists g, q, caps. split; [reflexivity|]. pose proof (match_at_spec _ _ _ _ _ _ E) as (Es & _). rewrite match_at_results, reCodeFence_shape in E.
          change (results (RAlt ticks_open tildes_open) (MS None l [])) with (results ticks_open (MS None l []) ++ results tildes_open (MS None l [])) in E. rewrite EA, EB in E. cbn [app] in E.
          destruct (results (RRep true 3 None _) _) as [|s0 rest] eqn:Es0; [discriminate|]. injection Hst as ->. injection E as _ Hq _. rewrite <- Hq, Er, El in Es. apply app_inv_tail in Es. congruence.
        * exfalso. apply match_at_none in E. rewrite reCodeFence_shape in E. change (results (RAlt ticks_open tildes_open) (MS None l [])) with (results ticks_open (MS None l []) ++ results tildes_open (MS None l [])) in E.
          rewrite EA, EB in E. cbn [app] in E. rewrite E in Hst. discriminate. }
  destruct G as (g & q & caps & E & ->). exists (RM [] (repeat c n) q caps). split; [|reflexivity]. unfold re_search. destruct l; cbn [search_from]; rewrite E; reflexivity.
Qed.

(** the closing fence *)
Definition close_look : regex := RLook false (RSeq (RRep true 0 None (RChr (cs1 32))) REol).
Lemma reClosing_shape : reClosingCodeFence = RSeq RBol (RSeq (RAlt (RRep true 3 None (RChr (cs1 96))) (RRep true 3 None (RChr (cs1 126)))) close_look).
Proof. vm_compute. reflexivity. Qed.
Lemma L_close p g q : ~ In 10%N q -> RegexLang.L (RSeq (RAlt (RRep true 3 None (RChr (cs1 96))) (RRep true 3 None (RChr (cs1 126)))) close_look) p g q <->
  3 <= length g /\ (exists c, fence_char c /\ g = repeat c (length g)) /\ exists m, q = repeat 32%N m.
Proof.
  intros Hq. split.
  - intros (h & e & E & H1 & [-> (g' & q' & Eq & a & b & Ea & Ha & -> & Hq')]). rewrite app_nil_r in E. subst h. rewrite app_nil_r in Ea. subst g'. apply L_run in Ha as [_ Ha].
    assert (Hm : exists m, q = repeat 32%N m). { exists (length a). rewrite <- Ha. destruct Hq' as [-> | ->]; [rewrite app_nil_r in Eq; exact Eq|]. exfalso. apply Hq. rewrite Eq. apply in_or_app. right. left. reflexivity. }
    destruct H1 as [H1|H1]; apply L_run in H1 as [L1 L2]; (split; [exact L1|]); (split; [|exact Hm]); [exists 96%N|exists 126%N]; (split; [|exact L2]); [left|right]; reflexivity.
  - intros (H1 & (c & Hc & Eg) & m & ->). exists g, []. split; [rewrite app_nil_r; reflexivity|]. split.
    + destruct Hc as [-> | ->]; [left|right]; apply L_run; auto.
    + split; [reflexivity|]. exists (repeat 32%N m), []. split; [rewrite app_nil_r; reflexivity|]. exists (repeat 32%N m), []. split; [rewrite app_nil_r; reflexivity|]. split; [|split; [reflexivity|left; reflexivity]].
      apply L_run. rewrite repeat_length. split; [lia|reflexivity].
Qed.
Lemma closing_some c k m : fence_char c -> 3 <= k -> exists x, re_search reClosingCodeFence (repeat c k ++ repeat 32%N m) = Some x /\ length (rm_group x) = k.
Proof.
  intros Hc Hk. assert (Hlf : ~ In 10%N (repeat c k ++ repeat 32%N m)) by (rewrite in_app_iff; intros [H|H]; apply repeat_spec in H; [destruct Hc; lia|lia]).
  rewrite reClosing_shape, re_search_bol. destruct (match_at _ None (repeat c k ++ repeat 32%N m)) as [[[g q] caps]|] eqn:E.
  - eexists. split; [reflexivity|]. cbn [rm_group]. apply RegexLang.match_at_L in E as [E HL]; [|vm_compute; reflexivity]. apply L_close in HL as (H1 & (c' & Hc' & Eg) & m' & ->); [|intros Hz; apply Hlf; rewrite E; apply in_or_app; right; exact Hz].
    rewrite Eg in E. assert (c' = c) as ->. { apply (f_equal (@hd_error N)) in E. rewrite !repeat_hd in E by lia. congruence. }
    apply runs_inj in E as [E _]; [symmetry; exact E| |]; [destruct m as [|m0]|destruct m' as [|m0]]; try discriminate; cbn; intros [= <-]; destruct Hc; discriminate.
  - exfalso. rewrite RegexLang.match_at_none_L in E by (vm_compute; reflexivity). apply (E (repeat c k) (repeat 32%N m) eq_refl). apply L_close; [intros Hz; apply Hlf; apply in_or_app; right; exact Hz|].
    rewrite repeat_length. split; [exact Hk|]. split; [exists c; auto|exists m; reflexivity].
Qed.
Lemma closing_inv s x : ~ In 10%N s -> re_search reClosingCodeFence s = Some x -> exists c m, fence_char c /\ 3 <= length (rm_group x) /\ s = repeat c (length (rm_group x)) ++ repeat 32%N m.
Proof.
  intros Hlf E. rewrite reClosing_shape, re_search_bol in E. destruct (match_at _ None s) as [[[g q] caps]|] eqn:Em; [|discriminate]. injection E as <-. cbn [rm_group].
  apply RegexLang.match_at_L in Em as [Em HL]; [|vm_compute; reflexivity]. apply L_close in HL as (H1 & (c & Hc & Eg) & m & ->); [|intros Hz; apply Hlf; rewrite Em; apply in_or_app; right; exact Hz].
  exists c, m. split; [exact Hc|]. split; [exact H1|]. rewrite <- Eg. exact Em.
Qed.

(** ** Blanks in front of a line *)
Lemma skip_blanks : forall w q i col, blanks w -> (forall c, hd_error q = Some c -> c <> SP /\ c <> TAB) -> skip_spaces (w ++ q) i col = (i + length w, width_from col w).
Proof.
  induction w as [|c w IH]; intros q i col Hw Hq; cbn [app length width_from].
  - destruct q as [|x q]; cbn [skip_spaces]; [f_equal; lia|]. destruct (Hq x eq_refl) as [H1 H2]. rewrite (proj2 (N.eqb_neq x SP) H1), (proj2 (N.eqb_neq x TAB) H2). f_equal. lia.
  - cbn [skip_spaces]. destruct (Forall_inv Hw) as [-> | ->].
    + change (N.eqb 32 SP) with true. change (N.eqb 32 9) with false. cbv iota. rewrite IH by (exact (Forall_inv_tail Hw) || exact Hq). f_equal; [lia|f_equal; lia].
    + change (N.eqb 9 SP) with false. change (N.eqb 9 TAB) with true. change (N.eqb 9 9) with true. cbv iota. rewrite IH by (exact (Forall_inv_tail Hw) || exact Hq). rewrite next_stop. f_equal; lia.
Qed.
Lemma fnn_blanks x w q : p_line x = w ++ q -> p_offset x = 0 -> p_column x = 0 -> blanks w -> (forall c, hd_error q = Some c -> c <> SP /\ c <> TAB /\ c <> 10%N /\ c <> 13%N) ->
  let z := find_next_nonspace x in
  keeps x z /\ p_next_nonspace z = length w /\ p_next_nonspace_column z = width w /\ p_indent z = width w /\ p_indented z = Nat.leb 4 (width w) /\ p_blank z = is_nil q /\ rest_nonspace z = q /\
  peek (p_line z) (p_next_nonspace z) = hd_error q /\ p_offset z = 0 /\ p_column z = 0 /\ p_pct z = p_pct x.
Proof.
  intros El Eo Ec Hw Hq z. split; [apply keeps_fnn|]. unfold z, find_next_nonspace. unfold rest_offset. rewrite Eo, Ec, El. cbn [skipn]. rewrite (skip_blanks w q 0 0 Hw) by (intros c H; destruct (Hq c H) as (A & B & _); auto). cbn [Nat.add].
  unfold rest_nonspace. cbn [p_next_nonspace p_next_nonspace_column p_indent p_indented p_blank p_offset p_column p_pct p_line set_p_indented set_p_indent set_p_next_nonspace_column set_p_next_nonspace set_p_blank].
  rewrite El, Nat.sub_0_r, skipn_exact by reflexivity. unfold width, CODE_INDENT. rewrite Eo, Ec.
  assert (Ep : peek (w ++ q) (length w) = hd_error q). { unfold peek. rewrite nth_error_app2, Nat.sub_diag by lia. destruct q; reflexivity. } rewrite Ep. repeat split.
  destruct q as [|c q]; [reflexivity|]. cbn [hd_error is_nil]. destruct (Hq c eq_refl) as (_ & _ & A & B). apply N.eqb_neq in A, B. rewrite A, B. reflexivity.
Qed.
Lemma width_blanks w : blanks w -> width w <= 3 -> w = repeat 32%N (length w) /\ width w = length w.
Proof.
  assert (G : forall w col, blanks w -> col <= width_from col w /\ (width_from col w <= 3 -> w = repeat 32%N (length w) /\ width_from col w = col + length w)).
  { clear. induction w as [|c w IH]; intros col Hw; cbn [width_from length repeat]; [split; [lia|intros _; split; [reflexivity|lia]]|].
    destruct (Forall_inv Hw) as [-> | ->].
    - change (N.eqb 32 9) with false. cbv iota. destruct (IH (col + 1) (Forall_inv_tail Hw)) as [A B]. split; [lia|]. intros H. destruct (B H) as [E1 E2]. split; [f_equal; exact E1|lia].
    - change (N.eqb 9 9) with true. cbv iota. destruct (IH (4 * (col / 4 + 1)) (Forall_inv_tail Hw)) as [A B]. pose proof (Nat.div_mod col 4). pose proof (Nat.mod_upper_bound col 4). split; lia. }
  intros Hw Hl. destruct (G w 0 Hw) as [_ H]. apply H. exact Hl.
Qed.
Lemma width_spaces i : width (repeat 32%N i) = i.
Proof. unfold width. assert (G : forall i col, width_from col (repeat 32%N i) = col + i). { clear. induction i as [|i IH]; intros col; cbn [repeat width_from]; [lia|]. change (N.eqb 32 9) with false. cbv iota. rewrite IH. lia. } rewrite G. reflexivity. Qed.

(** ** The indentation of the fence is taken off the lines *)
Lemma keeps_skip_fence : forall i x, keeps x (skip_fence_offset i x).
Proof. induction i as [|i IH]; intros x; cbn [skip_fence_offset]; [apply keeps_refl|]. destruct (is_space_or_tab _); [|apply keeps_refl]. eapply keeps_trans; [|apply IH]. apply keeps_adv. Qed.
Lemma skip_fence_tab : forall i p j t, p_offset p = j -> p_column p = j + t -> p_pct p = true -> nth_error (p_line p) j = Some TAB -> j + t + i <= 3 ->
  remaining (skip_fence_offset i p) = repeat SP (4 - (j + t + i)) ++ skipn (S j) (p_line p).
Proof.
  induction i as [|i IH]; intros p j t Ho Hc Hp Hn Hle; cbn [skip_fence_offset].
  - unfold remaining. rewrite Hp, Ho, Hc. rewrite Nat.mod_small by lia. f_equal. f_equal. lia.
  - unfold peek. rewrite Ho, Hn. cbn [is_space_or_tab]. change (N.eqb TAB SP || N.eqb TAB TAB) with true. cbv iota.
    unfold advance_offset. cbn [advance_loop]. unfold peek. rewrite Ho, Hn. change (N.eqb TAB TAB) with true. cbv iota zeta. rewrite Hc. rewrite (Nat.mod_small (j + t)) by lia.
    replace (Nat.ltb 1 (4 - (j + t))) with true by lia. replace (Nat.min 1 (4 - (j + t))) with 1 by lia. change (1 - 1) with 0. cbn [advance_loop].
    erewrite (IH _ j (t + 1)); cbn [p_offset p_column p_pct p_line set_p_offset set_p_column set_p_pct]; [|reflexivity|lia|reflexivity|exact Hn|lia]. f_equal. f_equal. lia.
Qed.
Lemma skip_fence_remaining : forall i p j, p_offset p = j -> p_column p = j -> p_pct p = false -> j + i <= 3 ->
  remaining (skip_fence_offset i p) = unindent_from (j + i) i (skipn j (p_line p)).
Proof.
  induction i as [|i IH]; intros p j Ho Hc Hp Hle; cbn [skip_fence_offset].
  - unfold remaining, rest_offset. rewrite Hp, Ho. destruct (skipn j (p_line p)); reflexivity.
  - unfold peek. rewrite Ho. pose proof (nth_error_skipn j (p_line p) 0) as En. rewrite Nat.add_0_r in En. rewrite <- En. destruct (skipn j (p_line p)) as [|c l'] eqn:El; cbn [nth_error is_space_or_tab unindent_from].
    + unfold remaining, rest_offset. rewrite Hp, Ho, El. reflexivity.
    + cbn [nth_error] in En. assert (El' : skipn (S j) (p_line p) = l'). { rewrite <- (firstn_skipn j (p_line p)), El. assert (Hj : length (firstn j (p_line p)) = j) by (apply firstn_length_le; pose proof (f_equal (@length N) El) as X; rewrite skipn_length in X; cbn [length] in X; lia). change (c :: l') with ([c] ++ l'). rewrite app_assoc. apply skipn_exact. rewrite app_length, Hj. cbn [length]. lia. }
      fold SP. destruct (N.eqb_spec c SP) as [->|H1]; [|destruct (N.eqb_spec c TAB) as [->|H2]]; cbn [orb].
      * unfold advance_offset. cbn [advance_loop]. unfold peek. rewrite Ho, <- En. change (N.eqb SP TAB) with false. cbv iota.
        rewrite (IH _ (S j)); cbn [p_offset p_column p_pct p_line set_p_offset set_p_column set_p_pct]; [|congruence|congruence|reflexivity|lia]. rewrite El'. f_equal. lia.
      * change (N.eqb TAB 9) with true. cbv iota. unfold advance_offset. cbn [advance_loop]. unfold peek. rewrite Ho, <- En. change (N.eqb TAB TAB) with true. cbv iota zeta. rewrite Hc. rewrite (Nat.mod_small j) by lia.
        replace (Nat.ltb 1 (4 - j)) with true by lia. replace (Nat.min 1 (4 - j)) with 1 by lia. change (1 - 1) with 0. cbn [advance_loop].
        erewrite (skip_fence_tab i _ j 1); cbn [p_offset p_column p_pct p_line set_p_offset set_p_column set_p_pct]; [|reflexivity|lia|reflexivity|symmetry; exact En|lia]. rewrite El'. f_equal. f_equal. lia.
      * change 9%N with TAB. rewrite (proj2 (N.eqb_neq c TAB) H2). unfold remaining, rest_offset. rewrite Hp, Ho, El. reflexivity.
Qed.

(** ** The opening line *)
Definition fence_node (ln i : nat) (c : N) (n : nat) : ndata :=
  set_n_fence_offset (Some i) (set_n_fence_char (Some c) (set_n_fence_length n (set_n_is_fenced true (new_node code_block (Some (ln, S i, (0, 0))))))).
Lemma fence_open x i l c n info d k fu : p_stack x = [F d k] -> n_t d = document -> p_line x = repeat SP i ++ l -> i <= 3 -> p_offset x = 0 -> p_column x = 0 -> p_pct x = false -> p_all_closed x = true -> opens_fence l c n info -> ~ In 10%N l ->
  exists y, starts_loop (S fu) 1 x = Ok (2, y) /\ p_stack y = [F (fence_node (p_line_number x) i c n) []; F d k] /\
    p_all_closed y = true /\ remaining y = info /\ p_line_number y = p_line_number x /\ p_refmap y = p_refmap x /\ p_smart y = p_smart x.
Proof.
  intros Es Ed El Hi Eo Ec Epc Ea Hl Hlf. destruct (fence_match l c n info Hl Hlf) as (m & Em & Eg). destruct Hl as (Ell & Hc & Hn & Hh & Hin).
  assert (Eh : exists r, l = c :: r) by (destruct n as [|n]; [lia|]; subst l; eexists; reflexivity). destruct Eh as (r & Er). rewrite Er in El, Em.
  assert (Hcs : c <> SP /\ c <> TAB /\ c <> 10%N /\ c <> 13%N /\ c <> 62%N /\ c <> 35%N) by (destruct Hc; subst c; repeat split; discriminate). destruct Hcs as (C1 & C2 & C3 & C4 & C5 & C6).
  destruct (fnn_spec x i c r El Eo Ec C1 C2 C3 C4) as (Z0 & Z1 & Z2 & Z3 & Z4 & Z5 & Z6 & Z7 & Z8 & Z9 & Z10). destruct Z0 as (K1 & K2 & K3 & K4 & K5 & K6 & K7 & K8).
  assert (Et : exists y, try_starts block_starts document (find_next_nonspace x) = Ok (SLeaf, y) /\ p_stack y = [F (fence_node (p_line_number x) i c n) []; F d k] /\
    p_all_closed y = true /\ remaining y = info /\ p_line_number y = p_line_number x /\ p_refmap y = p_refmap x /\ p_smart y = p_smart x).
  { remember (find_next_nonspace x) as z eqn:Z. clear Z. assert (Ei : p_indented z = false) by (rewrite Z4; apply Nat.leb_gt; lia).
    unfold block_starts. cbn [try_starts]. unfold start_block_quote at 1. rewrite Ei, Z7. cbn [opt_is negb andb]. rewrite (proj2 (N.eqb_neq c 62) C5). cbn [bind].
    unfold start_atx_heading at 1. rewrite Ei, Z6. replace (re_search reATXHeadingMarker (c :: r)) with (@None rmatch).
    2:{ symmetry. change reATXHeadingMarker with (RSeq RBol (match reATXHeadingMarker with RSeq _ x => x | _ => REps end)). apply TextFacts.begins_search; [vm_compute; reflexivity|vm_compute; reflexivity|]. TextFacts.firsts_calc. lia. }
    cbn [bind]. unfold start_fenced_code at 1. rewrite Ei, Z6, Em. cbn zeta. rewrite close_none by congruence. cbn [bind]. rewrite (add_child_doc code_block _ z d k) by (congruence || reflexivity). cbn [bind]. rewrite Eg.
    replace (hd_error (repeat c n)) with (Some c) by (destruct n; [lia|reflexivity]). cbn [of_option bind]. unfold on_tip. cbn [p_stack set_p_stack bind set_f_data f_data f_kids p_indent]. rewrite repeat_length, Z1, Z3, Nat.add_1_r. fold (fence_node (p_line_number z) i c n).
    set (zz := advance_next_nonspace _). assert (Hpct : p_pct (advance_offset n false zz) = false).
    { unfold advance_offset. assert (G : forall f m q, p_pct q = false -> p_pct (advance_loop f m false q) = false). { clear. induction f as [|f IH]; intros m q H; cbn [advance_loop]; [exact H|]. destruct m; [exact H|]. destruct (peek _ _) as [ch|]; [|exact H]. destruct (N.eqb ch TAB); apply IH; reflexivity. } apply G. reflexivity. }
    assert (Hoff : p_offset (advance_offset n false zz) = i + n).
    { unfold advance_offset. rewrite adv_chars_offset; [unfold zz; cbn [advance_next_nonspace p_offset p_next_nonspace set_p_offset set_p_column set_p_pct set_p_stack]; lia|lia|]. unfold zz. cbn [advance_next_nonspace p_offset p_line p_next_nonspace set_p_offset set_p_column set_p_pct set_p_stack]. rewrite Z1, K2, El, <- Er, Ell, !app_length, !repeat_length. lia. }
    destruct (keeps_adv n n false zz) as (A1 & A2 & A3 & A4 & A5 & A6 & A7 & A8). fold (advance_offset n false zz) in A1, A2, A3, A4, A5, A6, A7, A8.
    remember (advance_offset n false zz) as y eqn:Z. clear Z. unfold zz in *. clear zz. cbn [advance_next_nonspace p_stack p_line p_line_number p_all_closed p_refmap p_smart set_p_offset set_p_column set_p_pct set_p_stack] in A1, A2, A3, A4, A6, A8.
    exists y. split; [reflexivity|]. split; [rewrite A1, K3; reflexivity|]. split; [congruence|]. split; [|repeat split; congruence].
    unfold remaining, rest_offset. rewrite Hpct, Hoff, A2, K2, El, <- Er, Ell, app_assoc. apply skipn_exact. rewrite app_length, !repeat_length. reflexivity. }
  destruct Et as (y & Et & Y1 & Y2). exists y. split; [|split; [exact Y1|exact Y2]].
  rewrite (starts_leaf x d k y fu Es Ed); [rewrite Y1; reflexivity| |exact Et]. right. rewrite Z6. rewrite (re_test_bol (RChr (match reMaybeSpecial with RSeq _ (RChr cs) => cs | _ => CS false false [] end))), match_at_chr.
  match goal with |- context [cmatch ?cs c] => replace (cmatch cs c) with true; [reflexivity|] end. destruct Hc; subst c; vm_compute; reflexivity.
Qed.

(** ** The lines inside *)
Record fenced (ld : ndata) (c : N) (n i : nat) (sc : str) : Prop := Fenced {
  fd_t : n_t ld = code_block; fd_is : n_is_fenced ld = true; fd_char : n_fence_char ld = Some c; fd_len : n_fence_length ld = n; fd_off : n_fence_offset ld = Some i;
  fd_sp : n_sourcepos ld <> None; fd_sc : n_string_content ld = Some sc }.
(** the state between the lines of the block *)
Record in_fence (p : parser) (ld d : ndata) (k : list tree) (c : N) (n i : nat) (sc : str) : Prop := InFence {
  if_stack : p_stack p = [F ld []; F d k]; if_ld : fenced ld c n i sc; if_d : n_t d = document; if_dsp : n_sourcepos d <> None }.
(** [continue_] sees a closing fence or goes on *)
Lemma split_line l : exists w q, l = w ++ q /\ blanks w /\ forall c, hd_error q = Some c -> c <> SP /\ c <> TAB.
Proof. destruct (split_while_blanks l) as (w & s & E & H1 & H2). exists w, s. auto. Qed.
Lemma fence_continue x ld c n i sc : fenced ld c n i sc -> fence_char c -> 3 <= n -> p_offset x = 0 -> p_column x = 0 -> no_eol (p_line x) ->
  (closes_fence c n (p_line x) /\ continue_ ld false (find_next_nonspace x) = let* p' := finalize_tip (p_line_number x) (find_next_nonspace x) in Ok (CDone, p')) \/
  (~ closes_fence c n (p_line x) /\ continue_ ld false (find_next_nonspace x) = Ok (CMatch, skip_fence_offset i (find_next_nonspace x))).
Proof.
  intros [F1 F2 F3 F4 F5 F6 F7] Hc Hn Eo Ec He. destruct (split_line (p_line x)) as (w & q & El & Hw & Hq).
  assert (Hq' : forall y, hd_error q = Some y -> c <> SP /\ y <> SP /\ y <> TAB /\ y <> 10%N /\ y <> 13%N).
  { intros y Hy. destruct (Hq y Hy). destruct (He y) as [A B]; [rewrite El; apply in_or_app; right; destruct q; [discriminate|injection Hy as ->; left; reflexivity]|]. split; [destruct Hc; subst c; discriminate|auto]. }
  destruct (fnn_blanks x w q El Eo Ec Hw) as (Z0 & Z1 & Z2 & Z3 & Z4 & Z5 & Z6 & Z7 & Z8 & Z9 & Z10); [intros y Hy; apply Hq'; exact Hy|]. destruct Z0 as (K1 & K2 & K3 & K4 & K5 & K6 & K7 & K8).
  remember (find_next_nonspace x) as z eqn:Z. clear Z. unfold continue_. rewrite F1, F2. cbv zeta. rewrite F3, Z7, Z3, Z1, Z6, K2.
  assert (Hlf : ~ In 10%N q) by (intros H; destruct (He 10%N); [rewrite El; apply in_or_app; right; exact H|congruence]).
  assert (Hno : forall y, hd_error q = Some y -> y <> c -> ~ closes_fence c n (p_line x)).
  { intros y Hy Hyc (j & kk & m & H1 & H2 & E). rewrite El in E. assert (Hwk : hd_error q = hd_error (repeat c kk ++ repeat 32%N m)).
    { clear -E Hw Hq Hc Hn H2. revert j E. induction w as [|a w IH]; intros j E.
      - cbn [app] in E. destruct j as [|j]; [cbn [repeat app] in E; congruence|]. exfalso. cbn [repeat app] in E. destruct (Hq 32%N) as [X _]; [rewrite E; reflexivity|apply X; reflexivity].
      - destruct j as [|j]; cbn [repeat app] in E.
        + exfalso. destruct kk; [lia|]. injection E as -> _. destruct (Forall_inv Hw), Hc; lia.
        + injection E as _ E. apply (IH (Forall_inv_tail Hw) j E). }
    rewrite Hy, repeat_hd in Hwk by lia. congruence. }
  destruct (Nat.leb_spec (width w) 3) as [Hwd|Hwd]; cbn [andb].
  2:{ right. split; [|rewrite F5; reflexivity]. intros (j & kk & m & H1 & H2 & E). rewrite El in E.
      assert (length w <= j).
      { clear -E Hw Hc Hn H2. revert j E. induction w as [|a w IH]; intros j E; [cbn; lia|]. destruct j as [|j]; cbn [repeat app] in E.
        + exfalso. destruct kk; [lia|]. injection E as -> _. destruct (Forall_inv Hw), Hc; lia.
        + injection E as _ E. cbn [length]. specialize (IH (Forall_inv_tail Hw) j E). lia. }
      assert (w = repeat 32%N (length w)).
      { clear -E H. revert j E H. induction w as [|a w IH]; intros j E H; [reflexivity|]. destruct j as [|j]; [cbn in H; lia|]. cbn [repeat app length] in *. injection E as -> E. f_equal. apply (IH j E). lia. }
      rewrite H0, width_spaces in Hwd. lia. }
  destruct (width_blanks w Hw Hwd) as [Ew Ewl]. destruct q as [|y q].
  { rewrite app_nil_r in El. replace (Nat.leb (length w + 1) (length (p_line x))) with false by (rewrite El; lia). cbn [andb]. right. split; [|rewrite F5; reflexivity].
    intros (j & kk & m & H1 & H2 & E). rewrite El, Ew in E. assert (In c (repeat 32%N (length w))) by (rewrite E; apply in_or_app; right; apply in_or_app; left; destruct kk; [lia|left; reflexivity]). apply repeat_spec in H. destruct Hc; lia. }
  replace (Nat.leb (length w + 1) (length (p_line x))) with true by (rewrite El, app_length; cbn [length]; lia). cbn [hd_error opt_eqb andb]. destruct (N.eqb_spec y c) as [->|Hyc].
  2:{ right. split; [apply (Hno y eq_refl Hyc)|rewrite F5; reflexivity]. }
  destruct (re_search reClosingCodeFence (c :: q)) as [m|] eqn:Em.
  - apply closing_inv in Em as (c' & mm & Hc' & Hg & E); [|exact Hlf]. assert (c' = c) as ->. { apply (f_equal (@hd_error N)) in E. rewrite repeat_hd in E by lia. cbn in E. congruence. }
    rewrite F4. destruct (Nat.leb_spec n (length (rm_group m))) as [Hle|Hle].
    + left. split; [|rewrite K3; reflexivity]. exists (length w), (length (rm_group m)), mm. split; [lia|]. split; [exact Hle|]. rewrite El, E. f_equal. exact Ew.
    + right. split; [|rewrite F5; reflexivity]. intros (j & kk & m' & H1 & H2 & E'). rewrite El, E, Ew in E'. apply runs_inj in E' as [_ E']; [|rewrite repeat_hd by lia; destruct Hc; subst c; discriminate..].
      apply runs_inj in E' as [E' _]; [lia| |]; [destruct mm|destruct m']; try discriminate; cbn; destruct Hc; subst c; discriminate.
  - right. split; [|rewrite F5; reflexivity]. intros (j & kk & m' & H1 & H2 & E'). rewrite El, Ew in E'. apply runs_inj in E' as [_ E']; [|cbn [hd_error]; destruct Hc; subst c; discriminate|rewrite repeat_hd by lia; destruct Hc; subst c; discriminate].
    destruct (closing_some c kk m' Hc) as (xx & Ex & _); [lia|]. rewrite <- E' in Ex. congruence.
Qed.
Lemma replace_no_eol l : no_eol l -> no_eol (replace_char 0 65533 l).
Proof. intros H x Hx. unfold replace_char in Hx. apply in_map_iff in Hx as (y & <- & Hy). destruct (N.eqb y 0); [split; discriminate|apply H, Hy]. Qed.
Lemma fence_line p ld d k c n i sc l : in_fence p ld d k c n i sc -> fence_char c -> 3 <= n -> i <= 3 -> no_eol l -> ~ closes_fence c n (replace_char 0 65533 l) ->
  exists b p', incorporate_line l p = Ok p' /\
    in_fence p' (set_n_string_content (Some (sc ++ unindent i (replace_char 0 65533 l) ++ [LF])) (set_n_last_line_blank b ld)) (set_n_last_line_blank b d) k c n i (sc ++ unindent i (replace_char 0 65533 l) ++ [LF]) /\
    p_line_number p' = S (p_line_number p) /\ p_refmap p' = p_refmap p /\ p_smart p' = p_smart p.
Proof.
  intros [Es Hld Hd Hdsp] Hc Hn Hi He Hcl. rewrite incorporate_line_eq. cbn zeta. pose proof (replace_no_eol l He) as He'. remember (replace_char 0 65533 l) as l' eqn:Zl. clear Zl.
  assert (P : p_stack (line_start l' p) = [F ld []; F d k] /\ p_line (line_start l' p) = l' /\ p_offset (line_start l' p) = 0 /\ p_column (line_start l' p) = 0 /\ p_pct (line_start l' p) = false /\ p_line_number (line_start l' p) = S (p_line_number p) /\ p_refmap (line_start l' p) = p_refmap p /\ p_smart (line_start l' p) = p_smart p) by (unfold line_start; cbn; auto 10).
  destruct P as (P1 & P2 & P3 & P4 & P5 & P6 & P7 & P8). remember (line_start l' p) as x eqn:Z. clear Z. rewrite P1. cbn [rev app tl descend f_data f_kids is_nil negb orb].
  destruct (fence_continue x ld c n i sc Hld Hc Hn P3 P4) as [[A _]|[_ ->]]; [rewrite P2; exact He'|rewrite P2 in A; contradiction|]. cbn [bind].
  destruct (keeps_trans _ _ _ (keeps_fnn x) (keeps_skip_fence i (find_next_nonspace x))) as (K1 & K2 & K3 & K4 & K5 & K6 & K7 & K8).
  assert (Hr : remaining (skip_fence_offset i (find_next_nonspace x)) = unindent i l').
  { rewrite (skip_fence_remaining i _ 0); [unfold unindent|..]; destruct (split_line (p_line x)) as (w & q & El & Hw & Hq); destruct (fnn_blanks x w q El P3 P4 Hw) as (Z0 & Z1 & Z2 & Z3 & Z4 & Z5 & Z6 & Z7 & Z8 & Z9 & Z10);
      try (intros y Hy; destruct (Hq y Hy); destruct (He' y); [rewrite <- P2, El; apply in_or_app; right; destruct q; [discriminate|injection Hy as ->; left; reflexivity]|auto]); try congruence; [|lia].
    destruct Z0 as (_ & Z0 & _). rewrite Z0, P2. reflexivity. }
  remember (skip_fence_offset i (find_next_nonspace x)) as y eqn:Z. clear Z. unfold line_rest. rewrite K1, P1. cbn [length Nat.eqb].
  unfold block_at. cbn [p_stack set_p_matched set_p_all_closed]. rewrite K1, P1. cbn [length Nat.sub nth_error of_option bind]. unfold f_type. cbn [f_data]. pose proof (fd_t _ _ _ _ _ Hld) as Ht. rewrite Ht. cbn [accepts_lines is_block_type bind ntype_eqb negb andb].
  destruct Hld as [F1 F2 F3 F4 F5 F6 F7].
  destruct (line_end_leaf l' (set_p_matched 2 (set_p_all_closed true y)) ld d k sc) as (b & y' & E & Y1 & Y2 & Y3 & Y4 & Y5); [cbn; congruence|reflexivity|left; exact F1|exact F6|exact F7|].
  exists b, y'. split; [exact E|]. assert (Hr' : remaining (set_p_matched 2 (set_p_all_closed true y)) = remaining y) by reflexivity. rewrite Hr', Hr in Y1. cbn [p_line_number p_refmap p_smart set_p_matched set_p_all_closed] in Y2, Y3, Y4.
  split; [|repeat split; congruence]. constructor; [exact Y1| |exact Hd|exact Hdsp]. constructor; cbn [n_t n_is_fenced n_fence_char n_fence_length n_fence_offset n_sourcepos n_string_content set_n_string_content set_n_last_line_blank]; auto.
Qed.
Lemma fence_lines : forall ls p ld d k c n i sc, in_fence p ld d k c n i sc -> fence_char c -> 3 <= n -> i <= 3 -> Forall no_eol ls -> Forall (fun l => ~ closes_fence c n (replace_char 0 65533 l)) ls ->
  exists ld' d' p', incorporate_lines ls p = Ok p' /\ in_fence p' ld' d' k c n i (sc ++ flat_map (fun l => unindent i (replace_char 0 65533 l) ++ [LF]) ls) /\ p_refmap p' = p_refmap p /\ p_smart p' = p_smart p /\ p_line_number p' = length ls + p_line_number p /\ n_string_content d' = n_string_content d.
Proof.
  induction ls as [|l ls IH]; intros p ld d k c n i sc H Hc Hn Hi He Hcl; cbn [incorporate_lines flat_map].
  - exists ld, d, p. rewrite app_nil_r. auto 10.
  - destruct (fence_line p ld d k c n i sc l H Hc Hn Hi (Forall_inv He) (Forall_inv Hcl)) as (b & p1 & -> & H1 & N1 & R1 & S1). cbn [bind].
    destruct (IH _ _ _ _ _ _ _ _ H1 Hc Hn Hi (Forall_inv_tail He) (Forall_inv_tail Hcl)) as (ld' & d' & p' & -> & H2 & R2 & S2 & N2 & D2). exists ld', d', p'. split; [reflexivity|]. split; [|cbn [length]; split; [congruence|split; [congruence|split; [lia|exact D2]]]].
    rewrite <- !app_assoc in H2. cbn [app] in H2. rewrite <- app_assoc. exact H2.
Qed.
Lemma index_line : forall (a b : str), ~ In LF a -> index_of LF (a ++ LF :: b) = Some (length a).
Proof.
  induction a as [|x a IH]; intros b H; cbn [app index_of length]; [reflexivity|]. rewrite (proj2 (N.eqb_neq x LF)) by (intros ->; apply H; left; reflexivity). rewrite IH by (intros X; apply H; right; exact X). reflexivity.
Qed.
(** What is left of the block when it is closed *)
Lemma fence_finalize p ld d k c n i info body ln : p_stack p = [F ld []; F d k] -> fenced ld c n i (info ++ LF :: body) -> ~ In LF info ->
  exists cd, finalize_tip ln p = Ok (attach (T cd []) (set_p_stack [F d k] p)) /\ n_t cd = code_block /\ n_info cd = Some (unescape_string (strip info)) /\ n_literal cd = Some body.
Proof.
  intros Es [F1 F2 F3 F4 F5 F6 F7] Hlf. unfold finalize_tip. rewrite Es. cbn [f_data f_kids n_sourcepos set_n_is_open]. destruct (n_sourcepos ld) as [[[a b] e]|] eqn:Esp; [|congruence]. cbn [of_option bind n_t set_n_sourcepos set_n_is_open]. rewrite F1.
  unfold finalize_code. cbn [n_string_content n_is_fenced set_n_sourcepos set_n_is_open]. rewrite F7, F2. cbn [of_option bind]. rewrite index_line by exact Hlf. cbn [of_option bind].
  rewrite firstn_app, Nat.sub_diag, firstn_all. cbn [firstn]. rewrite app_nil_r. replace (skipn (length info + 1) (info ++ LF :: body)) with body by (rewrite skipn_app, skipn_all2 by lia; replace (length info + 1 - length info) with 1 by lia; reflexivity).
  eexists. split; [reflexivity|]. split; [exact F1|]. split; reflexivity.
Qed.
Lemma fence_close p ld d k c n i info body l : in_fence p ld d k c n i (info ++ LF :: body) -> ~ In LF info -> fence_char c -> 3 <= n -> no_eol l -> closes_fence c n (replace_char 0 65533 l) ->
  exists cd p', incorporate_line l p = Ok p' /\ p_stack p' = [F d (k ++ [T cd []])] /\ n_t cd = code_block /\ n_info cd = Some (unescape_string (strip info)) /\ n_literal cd = Some body /\
    p_refmap p' = p_refmap p /\ p_smart p' = p_smart p /\ p_line_number p' = S (p_line_number p).
Proof.
  intros [Es Hld Hd Hdsp] Hlf Hc Hn He Hcl. rewrite incorporate_line_eq. cbn zeta. pose proof (replace_no_eol l He) as He'. remember (replace_char 0 65533 l) as l' eqn:Zl. clear Zl.
  assert (P : p_stack (line_start l' p) = [F ld []; F d k] /\ p_line (line_start l' p) = l' /\ p_offset (line_start l' p) = 0 /\ p_column (line_start l' p) = 0 /\ p_refmap (line_start l' p) = p_refmap p /\ p_smart (line_start l' p) = p_smart p /\ p_line_number (line_start l' p) = S (p_line_number p)) by (unfold line_start; cbn; auto 10).
  destruct P as (P1 & P2 & P3 & P4 & P7 & P8 & P9). remember (line_start l' p) as x eqn:Z. clear Z. rewrite P1. cbn [rev app tl descend f_data f_kids is_nil negb orb].
  destruct (fence_continue x ld c n i _ Hld Hc Hn P3 P4) as [[_ ->]|[A _]]; [rewrite P2; exact He'| |rewrite P2 in A; contradiction].
  destruct (keeps_fnn x) as (K1 & K2 & K3 & K4 & K5 & K6 & K7 & K8). destruct (fence_finalize (find_next_nonspace x) ld d k c n i info body (p_line_number x)) as (cd & -> & C1 & C2 & C3); [congruence|exact Hld|exact Hlf|]. cbn [bind line_rest].
  exists cd. eexists. split; [reflexivity|]. cbn [attach p_stack set_p_stack p_refmap p_smart p_line_number set_p_last_line_length f_data f_kids]. repeat split; congruence.
Qed.

(** ** NUL characters *)
Lemma replace_app a b : replace_char 0 65533 (a ++ b) = replace_char 0 65533 a ++ replace_char 0 65533 b.
Proof. apply map_app. Qed.
Lemma replace_repeat c n : c <> 0%N -> replace_char 0 65533 (repeat c n) = repeat c n.
Proof. intros H. apply replace_ascii. intros X. apply repeat_spec in X. congruence. Qed.
Lemma replace_in x l : In x (replace_char 0 65533 l) -> x <> 65533%N -> In x l.
Proof. intros H Hx. apply in_map_iff in H as (y & E & Hy). destruct (N.eqb y 0); [congruence|]. subst y. exact Hy. Qed.
Lemma opens_replace l c n info : opens_fence l c n info -> opens_fence (replace_char 0 65533 l) c n (replace_char 0 65533 info).
Proof.
  intros (-> & Hc & Hn & Hh & Hi). assert (c <> 0%N /\ c <> 65533%N) as [H0 H1] by (destruct Hc; subst c; split; discriminate). split; [rewrite replace_app, replace_repeat by exact H0; reflexivity|]. split; [exact Hc|]. split; [exact Hn|]. split.
  - destruct info as [|x info]; [discriminate|]. cbn [replace_char map hd_error] in *. destruct (N.eqb_spec x 0); congruence.
  - intros E H. apply (Hi E). apply replace_in; [exact H|discriminate].
Qed.
Lemma closes_replace c n l : fence_char c -> closes_fence c n (replace_char 0 65533 l) <-> closes_fence c n l.
Proof.
  intros Hc. assert (c <> 0%N /\ c <> 65533%N) as [H0 H1] by (destruct Hc; subst c; split; discriminate). split; intros (i & k & m & A & B & E); exists i, k, m; (split; [exact A|split; [exact B|]]).
  - rewrite <- E. symmetry. apply replace_ascii. intros X. assert (Y : In 65533%N (replace_char 0 65533 l)) by (apply in_map_iff; exists 0%N; auto). rewrite E, !in_app_iff in Y. destruct Y as [Y|[Y|Y]]; apply repeat_spec in Y; congruence.
  - rewrite E, !replace_app, !replace_repeat by (discriminate || exact H0). reflexivity.
Qed.

(** ** The document *)
Lemma spaces_no_eol i l : no_eol l -> no_eol (repeat 32%N i ++ l).
Proof. intros H x Hx. apply in_app_or in Hx as [Hx|Hx]; [apply repeat_spec in Hx as ->; split; discriminate|apply H, Hx]. Qed.
Lemma opens_no_eol l c n info : opens_fence l c n info -> no_eol info -> no_eol l.
Proof. intros (-> & Hc & _) Hi x Hx. apply in_app_or in Hx as [Hx|Hx]; [apply repeat_spec in Hx as ->; destruct Hc; subst c; split; discriminate|apply Hi, Hx]. Qed.
Lemma closes_no_eol c n l : fence_char c -> closes_fence c n l -> no_eol l.
Proof. intros Hc (a & b & m & _ & _ & ->) y Hy. rewrite !in_app_iff in Hy. destruct Hy as [Hy|[Hy|Hy]]; apply repeat_spec in Hy; subst y; try (split; discriminate). destruct Hc; subst c; split; discriminate. Qed.
Lemma fence_run p i l c n info ls d k : p_stack p = [F d k] -> n_t d = document -> n_sourcepos d <> None -> i <= 3 -> opens_fence l c n info -> no_eol info -> Forall no_eol ls -> Forall (fun x => ~ closes_fence c n x) ls ->
  exists ld d' p', incorporate_lines ((repeat 32%N i ++ l) :: ls) p = Ok p' /\
    in_fence p' ld d' k c n i (replace_char 0 65533 info ++ LF :: flat_map (fun x => unindent i (replace_char 0 65533 x) ++ [10%N]) ls) /\
    p_refmap p' = p_refmap p /\ p_smart p' = p_smart p /\ p_line_number p' = length ls + S (p_line_number p) /\ n_string_content d' = n_string_content d.
Proof.
  intros Es Ed Esp Hi Hl Hinfo Hls Hcl. pose proof Hl as (El & Hc & Hn & _ & _). pose proof (opens_no_eol l c n info Hl Hinfo) as Hle. cbn [incorporate_lines].
  rewrite (incorporate_doc _ p d k Es Ed). rewrite replace_app, replace_repeat by discriminate. pose proof (opens_replace l c n info Hl) as Hl'. pose proof (replace_no_eol l Hle) as Hle'. pose proof (replace_no_eol info Hinfo) as Hinfo'.
  remember (replace_char 0 65533 l) as l' eqn:Z. clear Z. remember (replace_char 0 65533 info) as info' eqn:Z. clear Z. unfold line_tail.
  destruct (fresh_fields (repeat 32%N i ++ l') p) as (P1 & P2 & P3 & P4 & P5 & P6 & P7 & P8 & P9 & P10).
  remember (set_p_matched 1 (set_p_all_closed true (line_start (repeat 32%N i ++ l') p))) as x eqn:Z. clear Z.
  destruct (fence_open x i l' c n info' d k (length (repeat 32%N i ++ l'))) as (y & -> & Y1 & Y2 & Y3 & Y4 & Y5 & Y6); [congruence|exact Ed|exact P2|exact Hi|exact P3|exact P4|exact P5|exact P6|exact Hl'|intros X; destruct (Hle' _ X); congruence|]. cbn [bind].
  destruct (line_end_leaf (repeat 32%N i ++ l') y _ d k [] Y1 Y2 (or_introl eq_refl) ltac:(discriminate) eq_refl) as (b & y' & -> & W1 & W2 & W3 & W4 & W5). cbn [bind]. rewrite Y3 in W1. cbn [app] in W1.
  destruct (fence_lines ls y' (set_n_string_content (Some (info' ++ [LF])) (set_n_last_line_blank b (fence_node (p_line_number x) i c n))) (set_n_last_line_blank b d) k c n i (info' ++ [LF])) as (ld & d' & p' & E & Hin & R & Sm & Nn & Dc);
    [constructor; [exact W1|constructor; (reflexivity || discriminate)|exact Ed|exact Esp]|exact Hc|exact Hn|exact Hi|exact Hls|eapply Forall_impl; [|exact Hcl]; intros z Hz; rewrite closes_replace by exact Hc; exact Hz|].
  rewrite <- app_assoc in Hin. cbn [app] in Hin. exists ld, d', p'. split; [exact E|]. split; [exact Hin|]. split; [congruence|split; [congruence|split; [lia|exact Dc]]].
Qed.
Theorem fence_doc smart i l c n info ls close : i <= 3 -> opens_fence l c n info -> no_eol info -> Forall no_eol ls -> Forall (fun x => ~ closes_fence c n x) ls -> fence_end c n close ->
  exists dd cd, parse_doc smart (flat_map (fun x => x ++ [10%N]) ((repeat 32%N i ++ l) :: ls ++ close)) = Ok (T dd [T cd []]) /\ n_t dd = document /\ n_t cd = code_block /\
    n_info cd = Some (unescape_string (strip (replace_char 0 65533 info))) /\ n_literal cd = Some (flat_map (fun x => unindent i (replace_char 0 65533 x) ++ [10%N]) ls).
Proof.
  intros Hi Hl Hinfo Hls Hcl Hend. pose proof Hl as (El & Hc & Hn & _ & _). pose proof (opens_no_eol l c n info Hl Hinfo) as Hle.
  assert (Hce : Forall no_eol close). { destruct Hend as [->|(x & -> & Hx)]; constructor; [|constructor]. eapply closes_no_eol; eassumption. }
  match goal with |- context [parse_doc smart ?t] => change (parse_doc smart t) with (result (parse (new_parser smart) t)) end.
  rewrite parse_finish, input_lines_text, text_lines_lines; [|constructor; [apply spaces_no_eol, Hle|apply Forall_app; split; assumption]|discriminate].
  destruct (reset_fresh smart) as ((d & Es & Ed & Esp & _) & En & Er & Esm). remember (reset (new_parser smart)) as p eqn:Z. clear Z.
  destruct (fence_run p i l c n info ls d [] Es Ed Esp Hi Hl Hinfo Hls Hcl) as (ld & d' & p' & E & Hin & R & Sm & _).
  assert (G : forall xs ys q, incorporate_lines (ys ++ xs) q = let* q' := incorporate_lines ys q in incorporate_lines xs q'). { clear. intros xs. induction ys as [|a ls IH]; intros q; [reflexivity|]. cbn [app incorporate_lines]. destruct (incorporate_line a q); [apply IH|reflexivity]. }
  rewrite app_comm_cons, G, E. cbn [bind]. pose proof (replace_no_eol info Hinfo) as Hinfo'. remember (replace_char 0 65533 info) as info' eqn:Z. clear Z.
  assert (Hlf : ~ In LF info') by (intros X; destruct (Hinfo' _ X) as [X1 _]; apply X1; reflexivity). pose proof Hin as [S1 S2 S3 S4].
  match goal with |- context [finish ?z _] => generalize z; intros ln end. destruct Hend as [->|(cl & -> & Hcl')].
  - cbn [incorporate_lines bind]. destruct (fence_finalize p' ld d' [] c n i info' _ ln S1 S2 Hlf) as (cd & Hf & C1 & C2 & C3).
    destruct (finish_leaf ln p' (attach (T cd []) (set_p_stack [F d' []] p')) d' [T cd []]) as (dd & s & D1 & _ & _ & ->); [rewrite S1; discriminate|rewrite S1; reflexivity|exact Hf|reflexivity|exact S3|exact S4|].
    rewrite process_leaf by (rewrite C1; reflexivity). cbn [bind]. exists dd, cd. auto.
  - cbn [incorporate_lines bind]. destruct (fence_close p' ld d' [] c n i info' _ cl (InFence _ _ _ _ _ _ _ _ S1 S2 S3 S4) Hlf Hc Hn (Forall_inv Hce)) as (cd & p2 & -> & T1 & C1 & C2 & C3 & _); [rewrite closes_replace by exact Hc; exact Hcl'|].
    cbn [bind]. destruct (finish_doc ln p2 d' [T cd []] T1 S3 S4) as (dd & s & D1 & _ & _ & ->). rewrite process_leaf by (rewrite C1; reflexivity). cbn [bind]. exists dd, cd. auto.
Qed.
