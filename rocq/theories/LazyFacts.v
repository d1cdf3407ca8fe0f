(** * A line of text after an open paragraph *)
From Verif Require Import Base Regex Common NormRef Node Inlines Blocks Html Main RegexFacts StrFacts StrProp Spec SpecTree TreeFacts
  BlockFacts BlockInv BlockSteps BlockRun LineFacts ParseFacts Sim SimFacts LazyInv.
From Coq Require Import ZifyBool ZifyNat ZifyN.

(** ** The blocks around an open paragraph *)
Definition box (fr : frame) : Prop :=
  f_type fr = document \/ f_type fr = block_quote \/ f_type fr = list_ \/ f_type fr = paragraph \/ (f_type fr = item /\ exists w, item_indent (f_data fr) = Ok w).
Definition still (p q : parser) : Prop :=
  p_stack q = p_stack p /\ p_line q = p_line p /\ p_line_number q = p_line_number p /\ p_refmap q = p_refmap p /\ p_smart q = p_smart p.
Lemma still_refl p : still p p. Proof. repeat split. Qed.
Lemma still_trans p q r : still p q -> still q r -> still p r.
Proof. intros (A1 & A2 & A3 & A4 & A5) (B1 & B2 & B3 & B4 & B5). repeat split; congruence. Qed.

Section Line.
  Variables (k : nat) (c : N) (r : str).
  Hypothesis (Hsp : c <> SP) (Htb : c <> TAB) (Hlf : c <> 10%N) (Hcr : c <> 13%N) (Hgt : c <> 62%N) (Hsc : re_test reMaybeSpecial (c :: r) = false).
  Definition at_ws (p : parser) : Prop := p_line p = repeat SP k ++ c :: r /\ p_offset p <= k /\ p_column p = p_offset p /\ p_pct p = false.
  Lemma skip_run : forall m i a, skip_spaces (repeat SP m ++ c :: r) i a = (i + m, a + m).
  Proof.
    clear Hgt Hsc Hlf Hcr. induction m as [|m IH]; intros i a; cbn [repeat app skip_spaces].
    - destruct (N.eqb_spec c SP); [contradiction|]. destruct (N.eqb_spec c TAB); [contradiction|]. f_equal; lia.
    - change (N.eqb SP SP) with true. cbv iota. rewrite IH. f_equal; lia.
  Qed.
  Lemma skip_ws o : o <= k -> skipn o (repeat SP k ++ c :: r) = repeat SP (k - o) ++ c :: r.
  Proof.
    clear. intros H. rewrite skipn_app, repeat_length. replace (o - k) with 0 by lia. cbn [skipn]. f_equal.
    replace k with (o + (k - o)) at 1 by lia. rewrite repeat_app, skipn_app, repeat_length, Nat.sub_diag. cbn [skipn]. rewrite skipn_all2 by (rewrite repeat_length; lia). reflexivity.
  Qed.
  Lemma find_ws p : at_ws p -> exists q, find_next_nonspace p = q /\ at_ws q /\ still p q /\ p_next_nonspace q = k /\ p_next_nonspace_column q = k /\ p_blank q = false /\
    p_offset q = p_offset p /\ p_indent q = k - p_offset p /\ p_indented q = Nat.leb 4 (k - p_offset p) /\ p_all_closed q = p_all_closed p /\ p_matched q = p_matched p.
  Proof.
    clear Hgt Hsc. intros (H1 & H2 & H3 & H4). eexists. split; [reflexivity|]. unfold find_next_nonspace, rest_offset. rewrite H1, skip_ws by exact H2. rewrite skip_run, H3.
    replace (p_offset p + (k - p_offset p)) with k by lia.
    assert (E : peek (repeat SP k ++ c :: r) k = Some c) by (unfold peek; rewrite nth_error_app2 by (rewrite repeat_length; lia); rewrite repeat_length, Nat.sub_diag; reflexivity).
    rewrite E. destruct (N.eqb_spec c 10); [contradiction|]. destruct (N.eqb_spec c 13); [contradiction|].
    split; [split; [exact H1|]; split; [exact H2|]; split; [exact H3|exact H4]|]. split; [repeat split|]. repeat split.
  Qed.
  Lemma advance_ws : forall n p, at_ws p -> p_offset p + n <= k -> at_ws (advance_loop n n true p) /\ still p (advance_loop n n true p).
  Proof.
    induction n as [|n IH]; intros p H Hn; cbn [advance_loop]; [split; [exact H|apply still_refl]|]. pose proof H as (H1 & H2 & H3 & H4).
    assert (E : peek (p_line p) (p_offset p) = Some SP).
    { rewrite H1. unfold peek. rewrite nth_error_app1 by (rewrite repeat_length; lia). apply nth_error_repeat. lia. }
    rewrite E. change (N.eqb SP TAB) with false. cbv iota.
    destruct (IH (set_p_column (S (p_column p)) (set_p_offset (S (p_offset p)) (set_p_pct false p)))) as [G1 G2].
    - split; [exact H1|]. cbn [p_offset p_column p_pct set_p_column set_p_offset set_p_pct]. split; [lia|]. split; [congruence|reflexivity].
    - cbn [p_offset set_p_column set_p_offset set_p_pct]. lia.
    - split; [exact G1|]. eapply still_trans; [|exact G2]. repeat split.
  Qed.
  Lemma continue_ws fr h p : box fr -> at_ws p -> exists rv q, continue_ (f_data fr) h (find_next_nonspace p) = Ok (rv, q) /\ rv <> CDone /\ at_ws q /\ still p q.
  Proof.
    intros Hb Hp. destruct (find_ws p Hp) as (q & -> & Hq & Hs & N1 & N2 & N3 & N4 & N5 & N6 & _). unfold continue_. unfold box, f_type in Hb.
    destruct Hb as [-> |[-> |[-> |[-> |[-> (w & Hw)]]]]].
    - do 2 eexists. repeat (split; [first [reflexivity|discriminate|assumption]|]). exact Hs.
    - assert (E : opt_is 62 (peek (p_line q) (p_next_nonspace q)) = false).
      { destruct Hq as (Hq & _). rewrite Hq, N1. unfold peek. rewrite nth_error_app2 by (rewrite repeat_length; lia). rewrite repeat_length, Nat.sub_diag. cbn [nth_error opt_is]. apply N.eqb_neq. exact Hgt. }
      rewrite E, andb_false_r. do 2 eexists. repeat (split; [first [reflexivity|discriminate|assumption]|]). exact Hs.
    - do 2 eexists. repeat (split; [first [reflexivity|discriminate|assumption]|]). exact Hs.
    - rewrite N3. do 2 eexists. repeat (split; [first [reflexivity|discriminate|assumption]|]). exact Hs.
    - rewrite N3, Hw. cbn [bind]. destruct (Nat.leb_spec w (p_indent q)) as [Hle|Hle].
      + do 2 eexists. split; [reflexivity|]. split; [discriminate|]. unfold advance_offset. destruct (advance_ws w q Hq) as [G1 G2]; [destruct Hp as (_ & Hpk & _); lia|]. split; [exact G1|]. eapply still_trans; eassumption.
      + do 2 eexists. repeat (split; [first [reflexivity|discriminate|assumption]|]). exact Hs.
  Qed.
  Lemma descend_ws : forall path depth p, Forall box path -> at_ws p -> exists d q, descend path depth p = Ok (Some d, q) /\ depth <= d <= depth + length path /\ at_ws q /\ still p q.
  Proof.
    induction path as [|fr path IH]; intros depth p Hb Hp; cbn [descend].
    - do 2 eexists. split; [reflexivity|]. cbn [length]. split; [lia|]. split; [exact Hp|apply still_refl].
    - inversion Hb as [|x y B1 B2]; subst. destruct (continue_ws fr (negb (is_nil (f_kids fr)) || negb (is_nil path)) p B1 Hp) as (rv & q & -> & Hrv & Hq & Hs). cbn [bind]. destruct rv; [| |contradiction].
      + destruct (IH (S depth) q B2 Hq) as (d & q' & -> & Hd & Hq' & Hs'). do 2 eexists. split; [reflexivity|]. cbn [length]. split; [lia|]. split; [exact Hq'|eapply still_trans; eassumption].
      + do 2 eexists. split; [reflexivity|]. cbn [length]. split; [lia|]. split; [exact Hq|exact Hs].
  Qed.

  Lemma starts_ws f depth p fr st : p_stack p = fr :: st -> f_type fr = paragraph -> at_ws p -> 1 <= depth <= length (p_stack p) ->
    exists q, starts_loop (S f) depth p = Ok (depth, q) /\ still p q /\ p_offset q = k /\ p_pct q = false /\ p_blank q = false /\ p_all_closed q = p_all_closed p /\ p_matched q = p_matched p.
  Proof.
    intros Es Hty Hp Hd. cbn [starts_loop]. destruct (find_ws p Hp) as (q & -> & Hq & Hs & N1 & N2 & N3 & N4 & N5 & N6 & N7 & N8).
    assert (Hrest : rest_nonspace q = c :: r). { unfold rest_nonspace. destruct Hq as (-> & _). rewrite N1, skip_ws by lia. rewrite Nat.sub_diag. reflexivity. }
    assert (Hfin : exists q', Ok (depth, advance_next_nonspace q) = Ok (depth, q') /\ still p q' /\ p_offset q' = k /\ p_pct q' = false /\ p_blank q' = false /\ p_all_closed q' = p_all_closed p /\ p_matched q' = p_matched p).
    { eexists. split; [reflexivity|]. split; [eapply still_trans; [exact Hs|repeat split]|]. repeat split; assumption. }
    rewrite Hrest, Hsc. cbn [negb]. rewrite andb_true_r. destruct (p_indented q) eqn:Ei; cbn [negb]; [|exact Hfin].
    destruct Hs as (S1 & _). assert (Eq : p_stack q = fr :: st) by congruence. unfold block_at.
    destruct (nth_error (p_stack q) (length (p_stack q) - depth)) as [b|] eqn:Eb; [|apply nth_error_None in Eb; rewrite S1 in Eb; rewrite Es in Eb, Hd; cbn [length] in Eb, Hd; lia]. cbn [of_option bind].
    assert (Et : try_starts block_starts (f_type b) q = Ok (SNone, q)).
    { unfold block_starts. cbn [try_starts].
      unfold start_block_quote at 1. rewrite Ei. cbn [negb andb bind]. unfold start_atx_heading at 1. rewrite Ei. cbn [bind]. unfold start_fenced_code at 1. rewrite Ei. cbn [bind].
      unfold start_html_block at 1. rewrite Ei. cbn [negb andb bind]. unfold start_setext_heading at 1. rewrite Ei. cbn [negb andb bind]. unfold start_thematic_break at 1. rewrite Ei. cbn [negb andb bind].
      unfold start_list_item at 1. rewrite Ei. cbn [negb orb].
      assert (Ep : parse_list_marker (f_type b) q = Ok (None, q)). { unfold parse_list_marker. rewrite N5, <- N6. reflexivity. }
      assert (Ec : start_indented_code q = Ok (SNone, q)).
      { unfold start_indented_code, tip. rewrite Eq. cbn [hd_error of_option bind]. rewrite Hty. cbn [ntype_eqb negb]. rewrite ?andb_false_r. cbn [andb]. reflexivity. }
      destruct (ntype_eqb (f_type b) list_); [rewrite Ep; cbn [bind]|cbn [bind]]; rewrite Ec; reflexivity. }
    rewrite Et. cbn [bind]. exact Hfin.
  Qed.

  (** the line becomes a line of the paragraph, whatever blocks it continues *)
  Lemma line_ws l p fr st sc : replace_char 0 65533 l = repeat SP k ++ c :: r -> p_stack p = fr :: st -> f_type fr = paragraph -> st <> [] -> Forall box st -> quiet p -> n_string_content (f_data fr) = Some sc ->
    exists q, incorporate_line l p = Ok q /\ p_stack q = F (set_n_string_content (Some (sc ++ c :: r ++ [LF])) (f_data fr)) (f_kids fr) :: st /\
      p_line_number q = S (p_line_number p) /\ p_refmap q = p_refmap p /\ p_smart q = p_smart p /\ 1 <= p_matched q.
  Proof.
    intros El Es Hty Hne Hb Hqt Hcs. rewrite incorporate_line_eq. cbn zeta. rewrite El. set (ln := repeat SP k ++ c :: r). set (p1 := line_start ln p).
    assert (H1 : at_ws p1) by (split; [reflexivity|]; split; [cbn; lia|]; split; reflexivity).
    assert (Es1 : p_stack p1 = fr :: st) by exact Es.
    assert (Hpath : Forall box (tl (rev (p_stack p1)))).
    { rewrite Es1. cbn [rev]. destruct (rev st) as [|b0 bs] eqn:Er; [apply (f_equal (@rev frame)) in Er; rewrite rev_involutive in Er; contradiction|]. cbn [app tl].
      apply Forall_app. split; [|constructor; [unfold box; tauto|constructor]]. assert (G : Forall box (b0 :: bs)) by (rewrite <- Er; apply Forall_rev, Hb). inversion G; assumption. }
    assert (Hlen : length (tl (rev (p_stack p1))) = length st). { rewrite Es1. cbn [rev]. rewrite <- (rev_length st). destruct (rev st); [reflexivity|]. cbn [app tl]. rewrite app_length. cbn [length]. lia. }
    destruct (descend_ws _ 1 p1 Hpath H1) as (d & p2 & -> & Hd & H2 & (S1 & S2 & S3 & S4 & S5)). rewrite Hlen in Hd. cbn [bind]. unfold line_rest.
    remember (set_p_matched d (set_p_all_closed (Nat.eqb d (length (p_stack p2))) p2)) as p3 eqn:E3.
    assert (Es3 : p_stack p3 = fr :: st) by (rewrite E3; cbn [p_stack set_p_matched set_p_all_closed]; congruence).
    assert (H3 : at_ws p3) by (rewrite E3; exact H2).
    assert (Hd3 : 1 <= d <= length (p_stack p3)) by (rewrite Es3; cbn [length]; lia).
    assert (S3' : p_line_number p3 = S (p_line_number p) /\ p_refmap p3 = p_refmap p /\ p_smart p3 = p_smart p /\ p_matched p3 = d /\ p_all_closed p3 = Nat.eqb d (length (p_stack p3))).
    { rewrite Es3. rewrite E3. cbn [p_line_number p_refmap p_smart p_matched p_all_closed set_p_matched set_p_all_closed]. rewrite S3, S4, S5, S1, Es1. repeat split. }
    destruct S3' as (T1 & T2 & T3 & T4 & T5). clear E3 S1 S2 S3 S4 S5 H2. unfold block_at. rewrite Es3 in *. cbn [length] in *.
    destruct (nth_error (fr :: st) (S (length st) - d)) as [b|] eqn:Eb; [|apply nth_error_None in Eb; cbn [length] in Eb; lia]. cbn [of_option bind].
    assert (Hbb : box b). { destruct (S (length st) - d) as [|i]; [cbn in Eb; injection Eb as <-; unfold box; tauto|]. cbn [nth_error] in Eb. apply nth_error_In in Eb. rewrite Forall_forall in Hb. apply Hb, Eb. }
    assert (Hacc : exists a, accepts_lines (f_type b) = Ok a /\ negb (ntype_eqb (f_type b) paragraph) && a = false).
    { destruct Hbb as [-> |[-> |[-> |[-> |[-> _]]]]]; eexists; split; reflexivity. }
    destruct Hacc as (a & -> & Ha). cbn [bind]. rewrite Ha. unfold line_tail.
    destruct (starts_ws (length ln) d p3 fr st Es3 Hty H3) as (p4 & -> & (S1 & S2 & S3 & S4 & S5) & O1 & O2 & O3 & O4 & O5). { rewrite Es3. cbn [length]. lia. }
    cbn [bind]. unfold line_end, tip. rewrite S1, Es3. cbn [hd_error of_option bind]. rewrite O3, Hty. cbn [negb andb]. rewrite andb_true_r.
    change (ntype_eqb paragraph paragraph) with true. rewrite andb_true_r.
    assert (Hline : forall x, p_stack x = fr :: st -> p_pct x = false -> p_offset x = k -> p_line x = ln -> add_line x = Ok (set_p_stack (F (set_n_string_content (Some (sc ++ c :: r ++ [LF])) (f_data fr)) (f_kids fr) :: st) x)).
    { intros x X1 X2 X3 X4. unfold add_line, tip. rewrite X1. cbn [hd_error of_option bind]. rewrite Hcs. cbn [of_option bind]. rewrite X2. unfold on_tip, rest_offset. rewrite X1, X3, X4. unfold ln. rewrite skip_ws by apply Nat.le_refl. rewrite Nat.sub_diag. reflexivity. }
    assert (L4 : p_line p4 = ln) by (destruct H3 as (-> & _) || rewrite S2; apply H3).
    destruct (p_all_closed p4) eqn:Ecl; cbn [negb].
    - unfold add_text, close_unmatched_blocks. rewrite Ecl. cbn [bind]. unfold tip. rewrite S1, Es3. cbn [hd_error of_option bind]. rewrite O3. cbn [andb].
      assert (G : forall (A : Type) (o : option (nat * nat * (nat * nat))) (f : nat -> res A), (forall l, f l = f 0) -> bind (match o with Some (l, _, _) => Ok l | None => Ok 0 end) f = f 0).
      { intros A0 o f Hf. destruct o as [[[a0 b0] c0]|]; cbn [bind]; [apply Hf|reflexivity]. }
      rewrite G by reflexivity. clear G. rewrite Hty. cbn [accepts_lines bind]. cbn [map tl].
      assert (Eq : forall fr', n_last_line_blank (f_data fr') = false -> set_f_data (set_n_last_line_blank false (f_data fr')) fr' = fr').
      { intros [d0 k0]. cbn [f_data]. intros E. unfold set_f_data. cbn [f_kids]. f_equal. destruct d0. cbn in E. subst. reflexivity. }
      unfold quiet in Hqt. rewrite Es in Hqt. inversion Hqt as [|x y Q1 Q2]; subst x y.
      assert (Em : map (fun fr0 => set_f_data (set_n_last_line_blank false (f_data fr0)) fr0) st = st).
      { rewrite <- (map_id st) at 2. apply map_ext_in. intros f Hf. apply Eq. rewrite Forall_forall in Q2. apply Q2, Hf. }
      rewrite Em. rewrite Eq by exact Q1. replace (F (f_data fr) (f_kids fr)) with fr by (destruct fr; reflexivity).
      rewrite Hline by (first [reflexivity|assumption]). cbn [bind]. change (ntype_eqb paragraph html_block) with false. cbv iota. cbn [bind].
      eexists. split; [reflexivity|]. cbn [p_stack p_line_number p_refmap p_smart p_matched set_p_stack set_p_last_line_length]. split; [reflexivity|]. rewrite S3, S4, S5, O5, T4. repeat split; try assumption; apply Hd.
    - rewrite Hline by (first [assumption|congruence]). cbn [bind].
      eexists. split; [reflexivity|]. cbn [p_stack p_line_number p_refmap p_smart p_matched set_p_stack set_p_last_line_length]. split; [reflexivity|]. rewrite S3, S4, S5, O5, T4. repeat split; try assumption; apply Hd.
  Qed.
End Line.

(** ** The notes about matched blocks are made anew on each line *)
Definition marked (a : bool) (m : nat) (p : parser) : parser := set_p_matched m (set_p_all_closed a p).
Lemma find_marked a m p : find_next_nonspace (marked a m p) = marked a m (find_next_nonspace p).
Proof. unfold find_next_nonspace, rest_offset. change (p_line (marked a m p)) with (p_line p). change (p_offset (marked a m p)) with (p_offset p). change (p_column (marked a m p)) with (p_column p). destruct (skip_spaces _ _ _) as [i x]. reflexivity. Qed.
Lemma advance_marked a m b : forall f n p, advance_loop f n b (marked a m p) = marked a m (advance_loop f n b p).
Proof.
  induction f as [|f IH]; intros n p; cbn [advance_loop]; [reflexivity|]. destruct n as [|n]; [reflexivity|].
  change (p_line (marked a m p)) with (p_line p). change (p_offset (marked a m p)) with (p_offset p). change (p_column (marked a m p)) with (p_column p).
  destruct (peek (p_line p) (p_offset p)) as [x|]; [|reflexivity]. destruct (N.eqb x TAB); [destruct b|]; rewrite <- IH; destruct p; reflexivity.
Qed.
Lemma continue_marked a m d h p : box (F d []) -> match continue_ d h p with Ok (rv, q) => rv <> CDone /\ continue_ d h (marked a m p) = Ok (rv, marked a m q) | Err e => continue_ d h (marked a m p) = Err e end.
Proof.
  unfold box, f_type. cbn [f_data]. intros Hb. unfold continue_. change (p_indented (marked a m p)) with (p_indented p). change (p_blank (marked a m p)) with (p_blank p). change (p_line (marked a m p)) with (p_line p).
  change (p_next_nonspace (marked a m p)) with (p_next_nonspace p). change (p_indent (marked a m p)) with (p_indent p).
  destruct Hb as [-> |[-> |[-> |[-> |[-> (w & Hw)]]]]].
  - split; [discriminate|reflexivity].
  - destruct (_ && _); [|split; [discriminate|reflexivity]]. split; [discriminate|].
    change (advance_next_nonspace (marked a m p)) with (marked a m (advance_next_nonspace p)). unfold advance_offset. rewrite advance_marked. set (x := advance_loop 1 1 false (advance_next_nonspace p)).
    change (p_line (marked a m x)) with (p_line x). change (p_offset (marked a m x)) with (p_offset x). destruct (is_space_or_tab _); [rewrite advance_marked|]; reflexivity.
  - split; [discriminate|reflexivity].
  - split; [destruct (p_blank p); discriminate|reflexivity].
  - destruct (p_blank p); [destruct h; (split; [discriminate|reflexivity])|]. rewrite Hw. cbn [bind]. destruct (Nat.leb w (p_indent p)); (split; [discriminate|]); [unfold advance_offset; rewrite advance_marked|]; reflexivity.
Qed.
Lemma box_data fr : box fr -> box (F (f_data fr) []). Proof. exact (fun H => H). Qed.
Lemma descend_marked a m : forall path depth p, Forall box path ->
  match descend path depth p with Ok (x, q) => x <> None /\ descend path depth (marked a m p) = Ok (x, marked a m q) | Err e => descend path depth (marked a m p) = Err e end.
Proof.
  induction path as [|fr path IH]; intros depth p Hb; cbn [descend]; [split; [discriminate|reflexivity]|]. inversion Hb as [|x y B1 B2]; subst.
  rewrite find_marked. pose proof (continue_marked a m (f_data fr) (negb (is_nil (f_kids fr)) || negb (is_nil path)) (find_next_nonspace p) (box_data _ B1)) as H.
  destruct (continue_ (f_data fr) _ (find_next_nonspace p)) as [[rv q]|e]; [|rewrite H; reflexivity]. destruct H as [H1 ->]. cbn [bind]. destruct rv; [| |contradiction].
  - apply IH, B2.
  - split; [discriminate|reflexivity].
Qed.
Lemma path_boxes st : Forall box st -> Forall box (tl (rev st)).
Proof. intros H. apply Forall_rev in H. destruct (rev st); [exact H|]. inversion H; assumption. Qed.
Lemma incorporate_marked a m l p : Forall box (p_stack p) -> incorporate_line l (marked a m p) = incorporate_line l p.
Proof.
  intros Hb. rewrite !incorporate_line_eq. cbn zeta. set (ln := replace_char 0 65533 l).
  change (line_start ln (marked a m p)) with (marked a m (line_start ln p)). remember (line_start ln p) as x eqn:E. assert (Ex : p_stack x = p_stack p) by (rewrite E; reflexivity). clear E.
  change (p_stack (marked a m x)) with (p_stack x). pose proof (descend_marked a m (tl (rev (p_stack x))) 1 x) as H. rewrite Ex in *. specialize (H (path_boxes _ Hb)).
  destruct (descend _ 1 x) as [[o q]|e]; [|rewrite H; reflexivity]. destruct H as [H1 ->]. cbn [bind]. destruct o as [n|]; [|contradiction]. unfold line_rest.
  change (p_stack (marked a m q)) with (p_stack q). replace (set_p_matched n (set_p_all_closed (Nat.eqb n (length (p_stack q))) (marked a m q))) with (set_p_matched n (set_p_all_closed (Nat.eqb n (length (p_stack q))) q)) by (destruct q; reflexivity).
  reflexivity.
Qed.

(** ** Closing the blocks does not look at the position *)
Definition at_end (d : nat) (p : parser) : parser :=
  P (p_stack p) (p_doc p) (repeat SP d) (p_line_number p) d d d d 0 false false false true 0 (p_refmap p) (p_last_line_length p) (p_ip p) (p_smart p).
Lemma attach_end d t p : attach t (at_end d p) = at_end d (attach t p).
Proof. unfold attach. change (p_stack (at_end d p)) with (p_stack p). destruct (p_stack p); reflexivity. Qed.
Lemma finalize_tip_end d n p : finalize_tip n (at_end d p) = let* q := finalize_tip n p in Ok (at_end d q).
Proof.
  unfold finalize_tip. change (p_stack (at_end d p)) with (p_stack p). change (p_last_line_length (at_end d p)) with (p_last_line_length p). destruct (p_stack p) as [|fr st]; [reflexivity|].
  destruct (of_option _ _) as [[sp0 x]|e]; [|reflexivity]. cbn [bind]. set (dt := set_n_sourcepos _ _). change (set_p_stack st (at_end d p)) with (at_end d (set_p_stack st p)). set (p0 := set_p_stack st p).
  assert (Hpar : bind (finalize_paragraph dt (at_end d p0)) (fun x => let '(d', gone, p1) := x in Ok (if gone then p1 else attach (T d' (f_kids fr)) p1)) =
    (let* q := (let* (d', gone, p1) := finalize_paragraph dt p0 in Ok (if gone then p1 else attach (T d' (f_kids fr)) p1)) in Ok (at_end d q))).
  { unfold finalize_paragraph, strip_refs. change (p_ip (at_end d p0)) with (p_ip p0). change (p_refmap (at_end d p0)) with (p_refmap p0).
    destruct (n_string_content dt) as [c|]; [|reflexivity]. cbn [of_option bind]. destruct (ref_loop _ _ _ _ _) as [[[[c' found] s] rm]|e]; [|reflexivity]. cbn [bind].
    change (set_p_ip s (set_p_refmap rm (at_end d p0))) with (at_end d (set_p_ip s (set_p_refmap rm p0))). destruct (found && _); [reflexivity|]. rewrite attach_end. reflexivity. }
  destruct (n_t dt); lazymatch goal with
  | |- context [finalize_paragraph] => exact Hpar
  | |- context [finalize_list] => destruct (finalize_list _ _) as [d' it]; cbn [bind]; rewrite attach_end; reflexivity
  | |- context [finalize_code] => destruct (finalize_code dt) as [d'|e]; [|reflexivity]; cbn [bind]; rewrite attach_end; reflexivity
  | |- context [finalize_html] => destruct (finalize_html dt) as [d'|e]; [|reflexivity]; cbn [bind]; rewrite attach_end; reflexivity
  | |- context [KeyError] => reflexivity
  | _ => cbn [bind]; rewrite attach_end; reflexivity
  end.
Qed.
Lemma finalize_all_end d n : forall f p, finalize_all f n (at_end d p) = let* q := finalize_all f n p in Ok (at_end d q).
Proof.
  induction f as [|f IH]; intros p; cbn [finalize_all]; change (p_stack (at_end d p)) with (p_stack p); destruct (p_stack p) as [|fr st] eqn:E; try reflexivity.
  rewrite finalize_tip_end. destruct (finalize_tip n p) as [q|e]; [|reflexivity]. cbn [bind]. apply IH.
Qed.
Lemma finish_end d n p : finish n (at_end d p) = finish n p.
Proof.
  unfold finish. change (p_stack (at_end d p)) with (p_stack p). rewrite finalize_all_end. destruct (finalize_all _ _ p) as [q|e]; [|reflexivity]. reflexivity.
Qed.

(** ** The stack around an open paragraph *)
Section Stack.
  Variable Q : N -> Prop.
  Hypothesis HQ : forall c, plain_char c -> Q c.
  Hypothesis HQc : forall c, Q c -> code_point c.
  Variable A : str -> Prop.
  Lemma holds_box fr t : kind_ok (f_data fr) -> block_holds (f_type fr) t = true -> box fr.
  Proof.
    unfold box, f_type, kind_ok. intros Hk H. destruct (n_t (f_data fr)); try discriminate; try tauto.
    destruct Hk as (ld & E & _). right. right. right. right. split; [reflexivity|]. unfold item_indent. rewrite E. eexists. reflexivity.
  Qed.
  Lemma stack_boxes E fr st : stack_ok Q A E (fr :: st) -> f_type fr = paragraph -> Forall box (fr :: st) /\ st <> [] /\ exists sc, n_string_content (f_data fr) = Some sc.
  Proof.
    intros H Ht. split; [|split].
    - constructor; [unfold box; tauto|]. clear Ht. revert fr H. induction st as [|par st IH]; intros fr H; [constructor|]. pose proof H as (_ & H1 & _ & H2). constructor; [|eapply IH, H2].
      eapply holds_box; [|exact H1]. apply stack_ok_hd in H2 as [H2 _]. apply H2.
    - intros ->. destruct H as [_ [H _]]. congruence.
    - apply stack_ok_hd in H as [H _]. destruct H as (_ & _ & _ & _ & _ & _ & sc & Hsc & _). exists sc. exact Hsc.
  Qed.
End Stack.

Definition any_A (w : str) : Prop := True.
Lemma plain_code c : plain_char c -> code_point c.
Proof. unfold plain_char, code_point. lia. Qed.
Lemma code_ok s : Forall code_point s -> ok_str code_point any_A (replace_char 0 65533 s).
Proof.
  intros H. split; [|intros; exact I]. unfold replace_char. apply Forall_map. eapply Forall_impl; [|exact H]. intros c Hc. cbn beta. destruct (N.eqb c 0); [unfold code_point; lia|exact Hc].
Qed.
Definition code_edge := edge code_point any_A.
Lemma code_lines_edge smart ls p : Forall (Forall code_point) ls -> incorporate_lines ls (reset (new_parser smart)) = Ok p -> code_edge (length ls) p.
Proof.
  intros H E. apply (lines_edge code_point plain_code (fun c H => H) any_A ls 0 (reset (new_parser smart)) p); [|apply reset_edge|exact E].
  eapply Forall_impl; [|exact H]. intros l. apply code_ok.
Qed.
Lemma edge_boxes n p fr st : code_edge n p -> p_stack p = fr :: st -> f_type fr = paragraph -> Forall box (fr :: st) /\ st <> [] /\ quiet p /\ exists sc, n_string_content (f_data fr) = Some sc.
Proof.
  intros (H1 & _ & H2) Es Ht. destruct H1 as (H1 & _). rewrite Es in H1. destruct (stack_boxes _ _ _ _ _ H1 Ht) as (B1 & B2 & B3). split; [exact B1|]. split; [exact B2|]. split; [|exact B3]. apply H2. exists fr, st. auto.
Qed.
