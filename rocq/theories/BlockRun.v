(** * Lines, and the whole block phase *)
From Verif Require Import Base Regex Common NormRef Node Inlines Blocks RegexFacts RegexLang StrFacts Spec SpecTree TreeFacts CommonFacts StrProp EmphFacts InlineFacts InlineInv BlockFacts BlockInv BlockSteps.
From Coq Require Import ZifyBool ZifyNat ZifyN.

(** ** Lines of the input *)
Definition cons_first (x : str) (ls : list str) : list str := match ls with l :: r => (x ++ l) :: r | [] => [x] end.
Lemma split_eol_ne s : split_eol s <> [].
Proof.
  destruct s as [|c s]; cbn [split_eol]; [discriminate|]. destruct (N.eqb c 10); [discriminate|]. destruct (N.eqb c 13).
  - destruct s as [|d s]; [discriminate|]. destruct (N.eqb d 10); discriminate.
  - destruct (split_eol s); discriminate.
Qed.

Lemma line_ending_at p s : match_at reLineEnding p s =
  match s with
  | c :: r => if N.eqb c 13 then match r with d :: r' => if N.eqb d 10 then Some ([13;10]%N, r', []) else Some ([13%N], r, []) | [] => Some ([13%N], [], []) end
              else if N.eqb c 10 then Some ([10%N], r, []) else None
  | [] => None
  end.
Proof.
  set (cr := CS false false [CRange 13 13]). set (lf := CS false false [CRange 10 10]).
  assert (Hcr : forall c, cmatch cr c = N.eqb c 13) by (intros c; unfold cr; cm_unfold; lia).
  assert (Hlf : forall c, cmatch lf c = N.eqb c 10) by (intros c; unfold lf; cm_unfold; lia).
  change reLineEnding with (RAlt (RSeq (RChr cr) (RChr lf)) (RAlt (RChr lf) (RChr cr))).
  clearbody cr lf. rewrite match_at_results. cbn [results ms_rest ms_prev ms_caps].
  destruct s as [|c s]; [reflexivity|]. rewrite Hcr, Hlf. destruct (N.eqb_spec c 13) as [->|H13].
  - change (N.eqb 13 10) with false. cbn [flat_map ms_rest app]. destruct s as [|d s].
    + cbn [app ms_rest ms_caps]. reflexivity.
    + rewrite Hlf. destruct (N.eqb_spec d 10) as [->|H10]; cbn [app ms_rest ms_caps length].
      * replace (S (S (length s)) - length s) with 2 by lia. reflexivity.
      * replace (S (S (length s)) - S (length s)) with 1 by lia. reflexivity.
  - destruct (N.eqb_spec c 10) as [->|H10]; cbn [flat_map app ms_rest ms_caps length]; [|reflexivity].
    replace (S (length s) - length s) with 1 by lia. reflexivity.
Qed.
Lemma split_loop_eol : forall f prev cur s, length s < f -> split_loop f reLineEnding prev cur s = cons_first (rev cur) (split_eol s).
Proof.
  induction f as [|f IH]; intros prev cur s Hf; [lia|]. cbn [split_loop]. rewrite line_ending_at. destruct s as [|c s]; cbn [length] in Hf.
  - cbn. rewrite app_nil_r. reflexivity.
  - assert (Hnil : forall prev s, length s < f -> rev cur :: split_loop f reLineEnding prev [] s = cons_first (rev cur) ([] :: split_eol s)).
    { intros pr x Hx. rewrite IH by exact Hx. cbn [rev]. cbn [cons_first]. rewrite app_nil_r. f_equal. destruct (split_eol x) eqn:E; [destruct (split_eol_ne _ E)|reflexivity]. }
    cbn [split_eol]. destruct (N.eqb_spec c 13) as [->|H13].
    + change (N.eqb 13 10) with false. cbv iota. destruct s as [|d s]; [apply Hnil; cbn; lia|]. destruct (N.eqb d 10); apply Hnil; cbn [length] in *; lia.
    + destruct (N.eqb_spec c 10) as [->|H10]; [apply Hnil; lia|]. rewrite IH by lia.
      destruct (split_eol s) as [|l ls] eqn:E; [destruct (split_eol_ne _ E)|]. cbn [cons_first rev]. rewrite <- app_assoc. reflexivity.
Qed.
Lemma re_split_eol s : re_split reLineEnding s = split_eol s.
Proof.
  unfold re_split. rewrite split_loop_eol by lia. destruct (split_eol s) as [|l ls] eqn:E; [destruct (split_eol_ne _ E)|reflexivity].
Qed.
Lemma split_eol_infix : forall s l, In l (split_eol s) -> infix l s.
Proof.
  assert (H : forall k s, length s <= k -> (forall l, In l (split_eol s) -> infix l s) /\ (forall l ls, split_eol s = l :: ls -> exists r, s = l ++ r)).
  { induction k as [|k IH]; intros s Hs.
    - destruct s; [|cbn in Hs; lia]. cbn. split; [intros l [<-|[]]; exists [], []; reflexivity|]. intros l ls H. injection H as <- <-. exists []. reflexivity.
    - destruct s as [|c s]; cbn [split_eol]; [split; [intros l [<-|[]]; exists [], []; reflexivity|intros l ls H; injection H as <- <-; exists []; reflexivity]|].
      cbn [length] in Hs.
      assert (Hskip : forall a r, c :: s = a ++ r -> length r <= k -> (forall l, In l ([] :: split_eol r) -> infix l (c :: s)) /\ (forall l ls, [] :: split_eol r = l :: ls -> exists r', c :: s = l ++ r')).
      { intros a r E Hr. destruct (IH r Hr) as [I1 _]. split.
        - intros l [<-|Hl]; [exists [], (c :: s); reflexivity|]. rewrite E. eapply infix_trans; [apply I1, Hl|]. exists a, []. rewrite app_nil_r. reflexivity.
        - intros l ls G. injection G as <- <-. exists (c :: s). reflexivity. }
      destruct (N.eqb c 10); [apply (Hskip [c]); [reflexivity|lia]|]. destruct (N.eqb c 13).
      { destruct s as [|d s]; [apply (Hskip [c]); [reflexivity|cbn; lia]|]. cbn [length] in Hs. destruct (N.eqb d 10); [apply (Hskip [c; d]); [reflexivity|lia]|apply (Hskip [c]); [reflexivity|cbn [length]; lia]]. }
      destruct (IH s ltac:(lia)) as [I1 I2]. destruct (split_eol s) as [|l0 ls0] eqn:E; [destruct (split_eol_ne _ E)|].
      destruct (I2 _ _ eq_refl) as [r Hr]. split.
      + intros l [<-|Hl]; [exists [], r; rewrite Hr; reflexivity|]. eapply infix_trans; [apply I1; right; exact Hl|]. exists [c], []. rewrite app_nil_r. reflexivity.
      + intros l ls G. injection G as <- <-. exists r. rewrite Hr. reflexivity. }
  intros s l Hl. destruct (H (length s) s (le_n _)) as [G _]. auto.
Qed.
Lemma removelast_In {X} (l : list X) x : In x (removelast l) -> In x l.
Proof.
  induction l as [|y l IH]; [intros []|]. cbn [removelast]. destruct l as [|z l]; [intros []|]. intros [->|H]; [left; reflexivity|right; auto].
Qed.
Lemma input_lines_infix s l : In l (input_lines s) -> infix l s.
Proof.
  unfold input_lines. rewrite re_split_eol. intros H. apply split_eol_infix. destruct (last_opt s) as [c|]; [|exact H]. destruct (N.eqb c LF); [apply removelast_In|]; exact H.
Qed.
Lemma split_eol_two s : last_opt s = Some LF -> 2 <= length (split_eol s).
Proof.
  assert (H : forall k s, length s <= k -> last_opt s = Some LF -> 2 <= length (split_eol s)).
  { induction k as [|k IH]; intros [|c x] Hk Hl; cbn [length] in Hk; try discriminate; [lia|]. cbn [split_eol].
    assert (Hne : forall y, 1 <= length (split_eol y)) by (intros y; destruct (split_eol y) eqn:E; [destruct (split_eol_ne _ E)|cbn; lia]).
    assert (Hs : forall y, 2 <= length ([] :: split_eol y)) by (intros y; cbn [length]; specialize (Hne y); lia).
    destruct (N.eqb_spec c 10) as [->|H10]; [apply Hs|]. destruct (N.eqb c 13).
    - destruct x as [|d x]; [apply Hs|]. destruct (N.eqb d 10); apply Hs.
    - assert (G : 2 <= length (split_eol x)).
      { apply IH; [lia|]. rewrite last_opt_cons in Hl. destruct (last_opt x); [exact Hl|]. apply Some_inj in Hl. destruct (H10 Hl). }
      destruct (split_eol x); cbn [length] in *; lia. }
  apply (H (length s)). lia.
Qed.
Lemma input_lines_text s : input_lines s = text_lines s.
Proof. unfold input_lines, text_lines. rewrite re_split_eol. reflexivity. Qed.
Lemma infix_map (f : N -> N) a s : infix a s -> infix (map f a) (map f s).
Proof. intros (x & y & ->). exists (map f x), (map f y). rewrite !map_app. reflexivity. Qed.
Lemma input_lines_ne s : 1 <= length (input_lines s).
Proof.
  unfold input_lines. rewrite re_split_eol. assert (Hne : 1 <= length (split_eol s)) by (destruct (split_eol s) eqn:E; [destruct (split_eol_ne _ E)|cbn; lia]).
  destruct (last_opt s) as [c|] eqn:E; [|exact Hne]. destruct (N.eqb_spec c LF) as [->|_]; [|exact Hne].
  apply split_eol_two in E. destruct (split_eol s) as [|a l] eqn:El; [cbn in E; lia|]. 
  assert (G : S (length (removelast (a :: l))) = length (a :: l)).
  { rewrite (app_removelast_last [] (l := a :: l)) at 2 by discriminate. rewrite app_length. cbn [length]. lia. }
  lia.
Qed.

Section R.
  Variable Q : N -> Prop.
  Hypothesis HQ : forall c, plain_char c -> Q c.
  Hypothesis HQc : forall c, Q c -> code_point c.
  Variable A : str -> Prop.
  Notation Qs := (Qs Q).
  Notation raises_unicode := (raises_unicode Q).
  Notation refs_ok := (refs_in Q A).
  Notation ok_str := (ok_str Q A).
  Notation open_data := (open_data Q A).
  Notation closed := (closed Q A).
  Notation kid_ok := (kid_ok Q A).
  Notation fr_ok := (fr_ok Q A).
  Notation stack_ok := (stack_ok Q A).
  Notation unicode_err := (unicode_err Q).
  Notation closes_to := (closes_to Q A).
  Notation core := (core Q A).
  Notation mid := (mid Q A).
  Notation leafy := (leafy Q A).
  Notation good_start := (good_start Q A).
  Notation ready := (ready A).
  Notation tip_ok := (tip_ok A).

  (** ** Trying the starts *)
  Definition depth_ok (depth : nat) (p : parser) : Prop :=
    1 <= depth /\ (if p_all_closed p then depth = length (p_stack p) else depth = p_matched p /\ depth <= length (p_stack p)).
  Lemma mid_sp n p a b c d e : mid n p -> mid n (sp a b c d e p).
  Proof. apply mid_ext; reflexivity. Qed.
  Lemma block_at_container depth p : depth_ok depth p -> p_stack p <> [] -> exists fr, block_at depth p = Ok fr /\ container p (f_type fr).
  Proof.
    intros [H1 H2] Hne. unfold block_at, container, target.
    assert (Hd : depth <= length (p_stack p)) by (destruct (p_all_closed p); lia).
    assert (Hk : (if p_all_closed p then 0 else length (p_stack p) - p_matched p) = length (p_stack p) - depth) by (destruct (p_all_closed p); lia).
    rewrite Hk. assert (Hlt : length (p_stack p) - depth < length (p_stack p)) by (destruct (p_stack p); [congruence|cbn [length] in *; lia]).
    apply nth_error_Some in Hlt. destruct (nth_error (p_stack p) (length (p_stack p) - depth)) as [fr|] eqn:E; [|congruence].
    exists fr. split; [reflexivity|]. apply nth_skipn in E as [r E]. rewrite E. exists (f_data fr), (map f_data r). split; reflexivity.
  Qed.
  Lemma mid_ne n p : mid n p -> p_stack p <> [].
  Proof. intros (_ & H & _) E. unfold BlockInv.tip_ok in H. rewrite E in H. exact H. Qed.
  Lemma sees_pos q p : pos_of q = pos_of p -> sees p -> sees q.
  Proof. intros H. unfold sees. rewrite (pos_line _ _ H), (pos_nn _ _ H), (pos_blank _ _ H). auto. Qed.
  Lemma starts_loop_spec : forall f n depth p, mid n p -> depth_ok depth p -> p_offset p <= length (p_line p) -> length (p_line p) - p_offset p < f ->
    match starts_loop f depth p with
    | Ok (_, q) => (mid n q /\ sees q) \/ leafy n q
    | Err e => unicode_err e
    end.
  Proof.
    induction f as [|f IH]; intros n depth p Hm Hd Ho Hf; [lia|]. cbn [starts_loop]. pose proof (find_next_nonspace_sees p) as Hsee.
    destruct (find_next_nonspace_sp p) as (nnc & ind & idd & bl & Efn). rewrite Efn in *. clear Efn. set (p1 := sp _ _ _ _ _ p) in *.
    assert (Hm1 : mid n p1) by (apply mid_sp; exact Hm). assert (Hd1 : depth_ok depth p1) by exact Hd.
    assert (Hp1 : posok p1). { split; unfold p1; cbn [sp p_offset p_next_nonspace p_line]; [lia|apply nonspace_le; exact Ho]. }
    destruct (negb (p_indented p1) && negb (re_test reMaybeSpecial (rest_nonspace p1))).
    - left. rewrite advance_next_nonspace_mv. split; [apply mid_mv; exact Hm1|exact Hsee].
    - destruct (block_at_container depth p1 Hd1 (mid_ne _ _ Hm1)) as (fr & -> & Hc). cbn [bind].
      pose proof (block_starts_good Q HQ HQc A n (f_type fr) p1 Hm1 Hc Hp1) as H. destruct (try_starts _ _ p1) as [[[| |] q]|e]; cbn [bind].
      + destruct H as (H1 & _ & H2). left. rewrite advance_next_nonspace_mv. split; [apply mid_mv; exact H1|]. exact (sees_pos _ _ H2 Hsee).
      + destruct H as (H1 & H2 & H3 & H4 & H5). change (p_line p1) with (p_line p) in *. change (p_offset p1) with (p_offset p) in *.
        apply IH; [exact H1| |rewrite H3; exact H5|rewrite H3; lia].
        split; [|rewrite H2; reflexivity]. pose proof (mid_ne _ _ H1). destruct (p_stack q); [congruence|cbn; lia].
      + right. exact H.
      + exact H.
  Qed.

  (** ** The end of a line *)
  Definition between (n : nat) (p : parser) : Prop :=
    stack_ok n (p_stack p) /\ starts_le n (p_stack p) /\ tip_ok p /\ refs_ok (p_refmap p) /\ p_line_number p = n.
  Lemma core_between n p : core n p -> tip_ok p -> between n p.
  Proof.
    intros (H1 & H2 & H3 & H4 & H5 & _) Ht. split; [eapply stack_ok_mono; [|exact H1]; lia|]. auto.
  Qed.
  Lemma closes_between n p q fr par st : stack_ok (n - 1) (fr :: par :: st) -> starts_le n (fr :: par :: st) -> p_line_number p = n ->
    closes_to n (n - 1) p q fr (par :: st) -> between n q.
  Proof.
    intros H1 H2 H3 (G1 & G2 & G3 & extra & G4 & G5 & G6). split; [|split; [|split; [|split; [exact G3|]]]].
    - rewrite G4. apply add_kids; [|exact G5]. eapply stack_ok_mono; [|eapply stack_ok_tl; exact H1]. lia.
    - rewrite G4. eapply starts_le_replace; [eapply starts_le_tl; exact H2|reflexivity|reflexivity].
    - unfold BlockInv.tip_ok. rewrite G4. split; [|split].
      + intros El Ek. cbn [f_kids] in Ek. apply app_eq_nil in Ek as [_ Ek]. apply (G6 El Ek).
      + intros Ec. exfalso. destruct H1 as [_ [Hh _]]. change (f_type par = code_block) in Ec. rewrite Ec in Hh. discriminate.
      + intros Ec. exfalso. destruct H1 as [_ [Hh _]]. change (f_type par = paragraph) in Ec. rewrite Ec in Hh. discriminate.
    - rewrite (pos_num _ _ G1). exact H3.
  Qed.

  Lemma visible_app a b : visible_start a -> visible_start (a ++ b).
  Proof. intros (c & r & -> & H). exists c, (r ++ b). auto. Qed.
  Definition takes (p : parser) (fr : frame) : Prop :=
    f_type fr = paragraph -> ~ A [91%N] -> forall s, n_string_content (f_data fr) = Some s ->
    visible_start s \/ (s = [] /\ p_pct p = false /\ visible_start (skipn (p_offset p) (p_line p))).
  Lemma ready_takes p fr : ready fr -> takes p fr.
  Proof. intros (_ & _ & H) H1 H2 s H3. left. auto. Qed.
  Lemma add_line_spec n p fr st : core n p -> p_stack p = fr :: st -> lines_type (f_type fr) = true -> takes p fr ->
    exists q sc, add_line p = Ok q /\ core n q /\ ready (F (set_n_string_content (Some sc) (f_data fr)) (f_kids fr)) /\
       p_stack q = F (set_n_string_content (Some sc) (f_data fr)) (f_kids fr) :: st.
  Proof.
    intros (H1 & H2 & H3 & H4 & H5 & H6 & H7) E Ht Htk. unfold add_line, tip. rewrite E in *. cbn [hd_error of_option bind].
    pose proof (stack_ok_hd _ _ _ _ _ H1) as [(O1 & O2 & O3 & O4 & O5 & O6 & (sc & O7 & O8 & O9)) Hk]. rewrite O7. cbn [of_option bind].
    assert (Hnh : n_t (f_data fr) <> heading) by (change (f_type fr <> heading); intros G; rewrite G in Ht; discriminate).
    assert (Hgen : forall off pad, (exists k, pad = repeat SP k) -> (p_pct p = false -> off = p_offset p /\ pad = []) ->
      exists q sc', on_tip (set_n_string_content (Some (sc ++ pad ++ skipn off (p_line p) ++ [LF]))) (set_p_offset off p) = Ok q /\ core n q /\
        ready (F (set_n_string_content (Some sc') (f_data fr)) (f_kids fr)) /\ p_stack q = F (set_n_string_content (Some sc') (f_data fr)) (f_kids fr) :: st).
    { intros off pad [k ->] Hpad. set (c := sc ++ _). assert (Hc : ok_str c).
      { split.
        - unfold c. apply Forall_app; split; [apply O8|]. apply Forall_app; split; [apply Forall_forall; intros x Hx; apply repeat_spec in Hx as ->; apply HQ; unfold plain_char, SP; lia|].
          apply Forall_app; split; [eapply Qs_infix; [apply infix_skipn|apply H6]|]. constructor; [apply HQ; unfold plain_char, LF; lia|constructor].
        - intros w Hw Ha. unfold c in Ha. apply word_line in Ha as [Ha|Ha]; [apply O8; [exact Hw|exact Ha]| |exact Hw|apply O9, Hnh]. apply H6; [exact Hw|]. eapply infix_trans; [exact Ha|apply infix_skipn]. }
      exists (set_p_stack (F (set_n_string_content (Some c) (f_data fr)) (f_kids fr) :: st) (set_p_offset off p)), c.
      split; [unfold on_tip; cbn [p_stack set_p_offset]; rewrite E; reflexivity|].
      split; [|split; [|reflexivity]].
      - unfold BlockSteps.core. cbn [p_stack set_p_stack set_p_offset p_line_number p_refmap p_line p_matched]. split; [|split; [|auto 6]].
        + eapply stack_ok_replace; [exact H1| |reflexivity|reflexivity]. split; [|exact Hk].
          split; [exact O1|]. split; [exact O2|]. split; [exact O3|]. split; [exact O4|]. split; [exact O5|]. split; [exact O6|].
          exists c. split; [reflexivity|]. split; [exact Hc|]. intros _. right. unfold c. rewrite !app_assoc, last_opt_app. reflexivity.
        + eapply starts_le_replace; [exact H2|reflexivity|reflexivity].
      - split; [intros El; change (f_type fr = list_) in El; rewrite El in Ht; discriminate|]. split.
        2:{ intros Ep HA s Es. change (Some c = Some s) in Es. apply Some_inj in Es as <-. unfold c. destruct (Htk Ep HA sc O7) as [G|(G1 & G2 & G3)]; [apply visible_app, G|].
            destruct (Hpad G2) as [-> ->]. subst sc. cbn [app]. apply visible_app, G3. }
        intros _ _ Ec. change (Some c = Some []) in Ec. apply Some_inj in Ec.
        unfold c in Ec. apply app_eq_nil in Ec as [_ Ec]. apply app_eq_nil in Ec as [_ Ec]. apply app_eq_nil in Ec as [_ Ec]. discriminate. }
    destruct (p_pct p).
    - destruct (Hgen (S (p_offset p)) (repeat SP (4 - p_column p mod 4)) (ex_intro _ _ eq_refl)) as (q & sc' & G); [discriminate|]. exists q, sc'. exact G.
    - destruct (Hgen (p_offset p) [] (ex_intro _ 0 eq_refl)) as (q & sc' & G & G'); [auto|]. exists q, sc'. split; [|exact G'].
      rewrite <- G. unfold on_tip. cbn [p_stack set_p_offset]. rewrite E. destruct p; reflexivity.
  Qed.
  Lemma core_ready_between n p fr st : core n p -> p_stack p = fr :: st -> ready fr -> between n p.
  Proof. intros H1 H2 H3. apply core_between; [exact H1|]. unfold BlockInv.tip_ok. rewrite H2. exact H3. Qed.

  (** flags *)
  Definition blanked (b : bool) (fr : frame) : frame := set_f_data (set_n_last_line_blank b (f_data fr)) fr.
  Lemma stack_ok_blanked E b st : stack_ok E st -> stack_ok E (map (blanked b) st).
  Proof.
    induction st as [|fr st IH]; [auto|]. cbn [map]. intros [H1 H2]. split; [exact H1|].
    destruct st as [|par st]; [exact H2|]. destruct H2 as (G1 & G2 & G3). split; [exact G1|]. split; [exact G2|]. apply IH, G3.
  Qed.
  Lemma starts_le_blanked m b st : starts_le m st -> starts_le m (map (blanked b) st).
  Proof. unfold starts_le. induction 1 as [|fr st H _ IH]; [constructor|]. cbn [map]. constructor; [exact H|exact IH]. Qed.
  Lemma kids_flg E fr kids st : stack_ok E (fr :: st) -> Forall2 flg (f_kids fr) kids -> stack_ok E (F (f_data fr) kids :: st).
  Proof.
    intros H Hk. eapply stack_ok_replace; [exact H| |reflexivity|reflexivity]. apply stack_ok_hd in H as [H1 H2]. split; [exact H1|].
    cbn [f_kids f_data]. change (f_type (F (f_data fr) kids)) with (f_type fr). revert H2. induction Hk as [|x y l l' Hxy _ IH]; intros H2; [constructor|].
    inversion H2 as [|x0 l0 (K1 & K2 & K3) Hl]; subst. constructor; [|auto]. split; [eapply flg_closed; eassumption|].
    unfold in_range_of in *. apply flg_fields in Hxy as (-> & -> & ->). auto.
  Qed.

  Definition lined (p : parser) : Prop := exists c, container p c /\ lines_type c = true.
  Lemma add_text_spec n p : (mid n p /\ (sees p \/ lined p)) \/ leafy n p ->
    match add_text p with
    | Ok q => between n q
    | Err e => unicode_err e
    end.
  Proof.
    intros Hp. unfold add_text.
    assert (Hcl : match close_unmatched_blocks p with Ok q => (mid n q /\ p_all_closed q = true /\ (sees q \/ exists fr st, p_stack q = fr :: st /\ lines_type (f_type fr) = true)) \/ leafy n q | Err e => unicode_err e end).
    { destruct Hp as [[Hp Hs]|Hp].
      - pose proof (close_unmatched_spec Q HQ HQc A n p Hp) as H. destruct (close_unmatched_blocks p) as [q|e]; [|exact H]. destruct H as (H1 & H2 & H3 & H4).
        left. split; [exact H1|]. split; [exact H2|]. destruct Hs as [Hs|(c & (d & l & E1 & E2) & Hs)]; [left; exact (sees_pos _ _ H3 Hs)|right].
        rewrite E1 in H4. destruct (p_stack q) as [|fr st]; [discriminate|]. cbn [map] in H4. injection H4 as H4 _. exists fr, st. split; [reflexivity|]. unfold f_type. rewrite H4, E2. exact Hs.
      - pose proof Hp as (_ & H & _). unfold close_unmatched_blocks. rewrite H. right. exact Hp. }
    destruct (close_unmatched_blocks p) as [p1|e]; cbn [bind]; [|exact Hcl]. clear Hp p.
    assert (Hcore : core n p1) by (destruct Hcl as [[H _]|H]; apply H).
    assert (Htip : exists fr st, p_stack p1 = fr :: st).
    { destruct Hcl as [[H _]|(_ & _ & fr & st & H & _)]; [|eauto]. destruct (mid_tip Q A n p1 H) as (fr & st & E & _). eauto. }
    destruct Htip as (fr & st & E). unfold tip. rewrite E. cbn [hd_error of_option bind]. set (kids := if p_blank p1 then _ else _).
    assert (Hk : Forall2 flg (f_kids fr) kids) by (unfold kids; destruct (p_blank p1); [apply mark_last_blank_flg|apply flgs_refl]).
    clearbody kids. pose proof Hcore as (C1 & C2 & C3 & C4 & C5 & C6 & C7). rewrite E in C1, C2.
    pose proof (stack_ok_hd _ _ _ _ _ C1) as [(O1 & O2 & O3 & O4 & O5 & O6 & O7) _].
    destruct (n_sourcepos (f_data fr)) as [[[l0 c0] e0]|] eqn:Esp; [|congruence]. cbn [bind]. set (llb := p_blank p1 && _). clearbody llb.
    change (map _ (F (f_data fr) kids :: tl (fr :: st))) with (map (blanked llb) (F (f_data fr) kids :: st)). set (p2 := set_p_stack _ p1).
    assert (Hcore2 : core n p2).
    { unfold BlockSteps.core. cbn [p2 p_stack set_p_stack p_line_number p_refmap p_line p_matched]. split; [|split; [|auto 6]].
      - apply stack_ok_blanked. eapply kids_flg; eassumption.
      - apply starts_le_blanked. eapply starts_le_replace; [exact C2|reflexivity|reflexivity]. }
    assert (E2 : p_stack p2 = blanked llb (F (f_data fr) kids) :: map (blanked llb) st) by reflexivity.
    assert (Hready : ready fr -> ready (blanked llb (F (f_data fr) kids))).
    { intros (R1 & R2 & R3). split; [|split; [exact R2|exact R3]]. intros El Ek. cbn [f_kids blanked set_f_data] in Ek. subst kids. apply (R1 El). inversion Hk. reflexivity. }
    assert (Hkind : kind_ok (f_data fr)) by exact O4.
    unfold accepts_lines. destruct (is_block_type (f_type fr)) eqn:Eb; [|exfalso; unfold kind_ok in Hkind; change (n_t (f_data fr)) with (f_type fr) in Hkind; destruct (f_type fr); try discriminate; exact Hkind].
    cbn [bind]. change (match f_type fr with code_block | html_block | paragraph => true | _ => false end) with (lines_type (f_type fr)).
    destruct (lines_type (f_type fr)) eqn:El.
    - assert (Htk : takes p2 (blanked llb (F (f_data fr) kids))).
      { destruct Hcl as [[(_ & M2 & _) _]|(_ & _ & fr' & st' & E' & Hl)].
        - unfold BlockInv.tip_ok in M2. rewrite E in M2. apply ready_takes, Hready, M2.
        - rewrite E in E'. injection E' as <- <-. destruct Hl as [[_ Hl]|[Hl _]]; [intros Ep; destruct (Hl Ep)|apply ready_takes, Hready, Hl]. }
      destruct (add_line_spec n p2 _ _ Hcore2 E2 El Htk) as (p3 & sc & -> & Hc3 & Hr3 & E3). cbn [bind].
      assert (Hb : between n p3) by (eapply core_ready_between; eassumption).
      destruct (ntype_eqb (f_type fr) html_block) eqn:Eh; [|exact Hb].
      assert (Eh' : f_type fr = html_block) by (destruct (f_type fr); try discriminate; reflexivity).
      unfold kind_ok in Hkind. change (n_t (f_data fr)) with (f_type fr) in Hkind. rewrite Eh' in Hkind. destruct Hkind as [ty ->]. cbn [of_option bind].
      destruct (_ && _); [|exact Hb]. assert (En : p_line_number p3 = n) by apply Hc3. rewrite En.
      pose proof Hc3 as (D1 & D2 & D3 & D4 & D5 & _). rewrite E3 in D1, D2. destruct (map (blanked llb) st) as [|par st'] eqn:Est.
      { destruct D1 as [_ [D1 _]]. change (f_type fr = document) in D1. congruence. }
      pose proof (finalize_tip_spec Q HQ HQc A n (n - 1) p3 _ _ E3 D1 ltac:(lia) ltac:(eapply first_le; eassumption) Hr3 D5) as G.
      destruct (finalize_tip n p3) as [q|e]; [|exact G]. eapply closes_between; eassumption.
    - destruct (Nat.ltb (p_offset p2) (length (p_line p2)) && negb (p_blank p2)) eqn:Ec.
      + apply andb_prop in Ec as [Ec Eblank]. apply Nat.ltb_lt in Ec. apply negb_true_iff in Eblank.
        destruct Hcl as [(Hm & Ha & Hsee)|(_ & _ & fr' & st' & E' & Hl)].
        2:{ rewrite E in E'. injection E' as <- <-. destruct Hl as [[Hl _]|[_ Hl]]; [congruence|]. change (p_offset p2) with (p_offset p1) in Ec. change (p_line p2) with (p_line p1) in Ec. lia. }
        assert (Hm2 : mid n p2).
        { destruct Hm as (M1 & M2 & M3 & M4). split; [exact Hcore2|]. split; [|split].
          - unfold BlockInv.tip_ok. rewrite E2. apply Hready. unfold BlockInv.tip_ok in M2. rewrite E in M2. exact M2.
          - intros G. change (p_all_closed p1 = false) in G. congruence.
          - rewrite E in M4. destruct M4 as [M4|(M4 & fr' & st' & E' & M5)].
            + left. unfold p2. cbn [p_stack set_p_stack]. apply starts_le_blanked. eapply starts_le_replace; [exact M4|reflexivity|reflexivity].
            + right. split; [exact M4|]. injection E' as <- <-. do 2 eexists. split; [exact E2|exact M5]. }
        pose proof (add_child_spec Q HQ HQc A n paragraph (p_offset p2) p2 eq_refl Hm2) as H. destruct (add_child _ _ p2) as [q|e]; cbn [bind]; [|exact H].
        destruct H as (q1 & -> & (R1 & R2 & R3 & fr' & st' & R4 & R5)). rewrite advance_next_nonspace_mv. set (q2 := mv _ _ _ _).
        assert (Hq2 : core n q2).
        { apply (core_ext Q A n (push (fresh paragraph n (p_offset p2)) q1)); try reflexivity.
          eapply push_core; try eassumption; [apply open_new; [exact C4|auto 6]|reflexivity]. }
        assert (Hsee2 : visible_start (skipn (p_next_nonspace q1) (p_line q1))).
        { rewrite (pos_nn _ _ R2), (pos_line _ _ R2). change (p_next_nonspace p2) with (p_next_nonspace p1). change (p_line p2) with (p_line p1).
          destruct Hsee as [Hsee|(fr2 & st2 & Ef & Hl2)]; [apply Hsee; exact Eblank|]. rewrite E in Ef. injection Ef as <- <-. congruence. }
        assert (Htk : takes q2 (F (fresh paragraph n (p_offset p2)) [])).
        { intros _ _ s Es. change (Some [] = Some s) in Es. apply Some_inj in Es as <-. right. split; [reflexivity|]. split; [reflexivity|exact Hsee2]. }
        destruct (add_line_spec n q2 (F (fresh paragraph n (p_offset p2)) []) (p_stack q1) Hq2 eq_refl eq_refl Htk) as (q3 & sc & -> & Hc3 & Hr3 & E3).
        eapply core_ready_between; eassumption.
      + eapply core_ready_between; [exact Hcore2|exact E2|]. apply Hready.
        destruct Hcl as [(Hm & Ha & _)|(_ & _ & fr' & st' & E' & Hl)].
        * destruct Hm as (_ & M2 & _). unfold BlockInv.tip_ok in M2. rewrite E in M2. exact M2.
        * rewrite E in E'. injection E' as <- <-. destruct Hl as [[Hl _]|[Hl _]]; [congruence|exact Hl].
  Qed.

  (** ** Descending *)
  Definition pre (n : nat) (p : parser) : Prop :=
    stack_ok (n - 1) (p_stack p) /\ starts_le (n - 1) (p_stack p) /\ tip_ok p /\ refs_ok (p_refmap p) /\ p_line_number p = n /\ 1 <= n /\ ok_str (p_line p) /\ p_offset p <= length (p_line p).
  Lemma pre_mv n p off col pct : pre n p -> off <= length (p_line p) -> pre n (mv off col pct p).
  Proof. intros (H1 & H2 & H3 & H4 & H5 & H6 & H7 & _) Ho. unfold pre. cbn [mv p_stack p_refmap p_line_number p_line p_offset]. auto 9. Qed.
  Lemma pre_sp n p a b c d e : pre n p -> pre n (sp a b c d e p).
  Proof. intros H. exact H. Qed.
  Lemma stack_ok_all E st : stack_ok E st -> Forall (fr_ok E) st.
  Proof.
    induction st as [|fr st IH]; [intros []|]. intros [H1 H2]. constructor; [exact H1|]. destruct st as [|par st]; [constructor|]. apply IH, H2.
  Qed.
  Lemma stack_holds E a fr par b : stack_ok E (a ++ fr :: par :: b) -> block_holds (f_type par) (f_type fr) = true.
  Proof.
    induction a as [|x a IH]; cbn [app]; [intros [_ [H _]]; exact H|]. intros [_ H]. apply IH. destruct (a ++ fr :: par :: b) eqn:E0; [destruct a; discriminate|]. apply H.
  Qed.
  Definition continued (n : nat) (fr : frame) (p : parser) (r : res (cont * parser)) : Prop :=
    match r with
    | Ok (CDone, q) => between n q
    | Ok (_, q) => pre n q /\ p_stack q = p_stack p /\ p_line q = p_line p
    | Err e => unicode_err e
    end.
  Lemma continue_spec n fr rest dn hc p : pre n p -> posok p -> rev (p_stack p) = dn ++ fr :: rest -> dn <> [] -> continued n fr p (continue_ (f_data fr) hc p).
  Proof.
    intros Hpre Hpos E Hdn. pose proof Hpre as (H1 & H2 & H3 & H4 & H5 & H6 & H7 & H8).
    assert (Es : p_stack p = rev rest ++ fr :: rev dn) by (rewrite <- (rev_involutive (p_stack p)), E, rev_app_distr; cbn [rev]; rewrite <- app_assoc; reflexivity).
    assert (Hfr : fr_ok (n - 1) fr). { apply stack_ok_all in H1. rewrite Es in H1. apply Forall_app in H1 as [_ H1]. inversion H1; assumption. }
    destruct Hfr as [(O1 & O2 & O3 & O4 & O5 & O6 & O7) _]. unfold kind_ok in O4.
    assert (Hsame : forall c, c <> CDone -> continued n fr p (Ok (c, p))) by (intros [| |] Hc; try congruence; split; auto).
    assert (Hmv : forall off col pct, off <= length (p_line p) -> continued n fr p (Ok (CMatch, mv off col pct p))) by (intros; split; [apply pre_mv; assumption|split; reflexivity]).
    assert (Hadv : forall k, continued n fr p (Ok (CMatch, advance_offset k true p))).
    { intros k. destruct (advance_offset_mv k true p) as (off & col & pct & -> & _ & Ho). apply Hmv. auto. }
    assert (Hnn : continued n fr p (Ok (CMatch, advance_next_nonspace p))) by (rewrite advance_next_nonspace_mv; apply Hmv, Hpos).
    unfold continue_. destruct (n_t (f_data fr)) eqn:Et; try (destruct O4; fail).
    - apply Hsame. discriminate.
    - destruct (_ && _) eqn:Eb; [|apply Hsame; discriminate]. apply andb_prop in Eb as [_ Eb]. apply opt_is_peek in Eb.
      rewrite advance_next_nonspace_mv. apply nth_skipn in Eb as [r Eb].
      destruct (advance_offset_mv 1 false (mv (p_next_nonspace p) (p_next_nonspace_column p) false p)) as (o1 & c1 & t1 & -> & G1 & G2). rewrite mv_mv. cbn [mv p_offset p_line] in *.
      assert (o1 <= length (p_line p)) by (apply G2; apply Hpos).
      destruct (is_space_or_tab _).
      + destruct (advance_offset_mv 1 true (mv o1 c1 t1 p)) as (o2 & c2 & t2 & -> & G3 & G4). rewrite mv_mv. apply Hmv. apply G4. assumption.
      + apply Hmv. assumption.
    - apply Hsame. discriminate.
    - destruct (p_blank p); [destruct hc; [exact Hnn|apply Hsame; discriminate]|]. destruct O4 as (ld & El & _). unfold item_indent. rewrite El. cbn [bind].
      destruct (Nat.leb _ _); [apply Hadv|apply Hsame; discriminate].
    - apply Hsame. destruct (p_blank p); discriminate.
    - apply Hsame. discriminate.
    - apply Hsame. discriminate.
    - destruct (n_is_fenced (f_data fr)) eqn:Ef.
      + destruct (O4 eq_refl) as [k Ek].
        assert (Hskip : continued n fr p (let* i := of_option TypeError (n_fence_offset (f_data fr)) in Ok (CMatch, skip_fence_offset i p))).
        { rewrite Ek. cbn [of_option bind]. destruct (skip_fence_offset_mv k p) as (off & col & pct & -> & _ & Ho). apply Hmv. auto. }
        match goal with |- context[if ?b then re_search ?r ?x else None] => destruct (if b then re_search r x else None) as [m|] end; [|exact Hskip]. destruct (Nat.leb _ _); [|exact Hskip].
        assert (Hrest : rest = []).
        { destruct rest as [|x rest]; [reflexivity|]. exfalso. cbn [rev] in Es. rewrite <- app_assoc in Es. cbn [app] in Es. rewrite Es in H1. apply stack_holds in H1. unfold f_type in H1. rewrite Et in H1. discriminate. }
        subst rest. cbn [rev app] in Es. unfold BlockInv.tip_ok in H3. rewrite Es in H1, H2, H3.
        destruct (rev dn) as [|par st] eqn:Ed. { apply (f_equal (@rev _)) in Ed. rewrite rev_involutive in Ed. cbn in Ed. congruence. }
        assert (H2' : starts_le n (fr :: par :: st)) by (eapply starts_le_mono; [|exact H2]; lia).
        rewrite H5. pose proof (finalize_tip_spec Q HQ HQc A n (n - 1) p fr (par :: st) Es H1 ltac:(lia) ltac:(eapply first_le; eassumption) H3 H4) as G.
        destruct (finalize_tip n p) as [q|e]; cbn [bind]; [|exact G]. cbn [continued]. eapply closes_between; eassumption.
      + destruct (Nat.leb _ _); [apply Hadv|]. destruct (p_blank p); [exact Hnn|apply Hsame; discriminate].
    - destruct O4 as [ty ->]. cbn [of_option bind]. destruct (_ && _); apply Hsame; discriminate.
  Qed.
  Lemma descend_spec : forall path n depth p dn, pre n p -> rev (p_stack p) = dn ++ path -> length dn = depth -> 1 <= depth ->
    match descend path depth p with
    | Ok (Some d, q) => pre n q /\ p_stack q = p_stack p /\ p_line q = p_line p /\ 1 <= d <= length (p_stack p)
    | Ok (None, q) => between n q
    | Err e => unicode_err e
    end.
  Proof.
    induction path as [|fr path IH]; intros n depth p dn Hpre E Hdn Hd; cbn [descend].
    - split; [exact Hpre|]. split; [reflexivity|]. split; [reflexivity|]. rewrite app_nil_r in E. rewrite <- rev_length, E. lia.
    - destruct (find_next_nonspace_sp p) as (nnc & ind & idd & bl & ->). set (p1 := sp _ _ _ _ _ p).
      assert (Hpos : posok p1). { split; unfold p1; cbn [sp p_offset p_next_nonspace p_line]; [lia|apply nonspace_le; apply Hpre]. }
      pose proof (continue_spec n fr path dn (negb (is_nil (f_kids fr)) || negb (is_nil path)) p1 Hpre Hpos E ltac:(destruct dn; [cbn in Hdn; lia|discriminate])) as H.
      assert (Hlen : length (p_stack p) = depth + S (length path)) by (rewrite <- rev_length, E, app_length; cbn [length]; lia).
      destruct (continue_ _ _ p1) as [[[| |] q]|e]; cbn [bind].
      + destruct H as (G1 & G2 & G3). change (p_stack p1) with (p_stack p) in G2. change (p_line p1) with (p_line p) in G3.
        specialize (IH n (S depth) q (dn ++ [fr]) G1). rewrite G2 in IH. rewrite E, <- app_assoc in IH. specialize (IH eq_refl ltac:(rewrite app_length; cbn; lia) ltac:(lia)).
        destruct (descend path (S depth) q) as [[[d|] q2]|e]; [|exact IH|exact IH]. rewrite G3 in IH. exact IH.
      + destruct H as (G1 & G2 & G3). split; [exact G1|]. split; [exact G2|]. split; [exact G3|]. lia.
      + exact H.
      + exact H.
  Qed.

  (** ** One line *)
  Theorem incorporate_line_spec n p ln : ok_str (replace_char 0 65533 ln) -> between n p ->
    match incorporate_line ln p with
    | Ok q => between (S n) q
    | Err e => unicode_err e
    end.
  Proof.
    intros Hln (B1 & B2 & B3 & B4 & B5). unfold incorporate_line. set (ln' := replace_char _ _ ln). set (p1 := set_p_line ln' _).
    assert (Hpre : pre (S n) p1).
    { unfold pre. cbn [p1 p_stack set_p_line set_p_line_number set_p_pct set_p_blank set_p_column set_p_offset p_refmap p_line_number p_line p_offset].
      replace (S n - 1) with n by lia. split; [exact B1|]. split; [exact B2|]. split; [exact B3|]. split; [exact B4|]. split; [congruence|]. split; [lia|]. split; [exact Hln|lia]. }
    assert (Hne : exists x l, rev (p_stack p1) = x :: l).
    { destruct (rev (p_stack p1)) as [|x l] eqn:E; [|eauto]. apply (f_equal (@rev _)) in E. rewrite rev_involutive in E. destruct Hpre as (H1 & _). rewrite E in H1. destruct H1. }
    destruct Hne as (x & l & Ex). rewrite Ex. cbn [tl].
    pose proof (descend_spec l (S n) 1 p1 [x] Hpre ltac:(exact Ex) eq_refl (le_n _)) as H. destruct (descend l 1 p1) as [[[depth|] p2]|e]; cbn [bind]; [|exact H|exact H].
    destruct H as (P2 & S2 & L2 & Hd). pose proof P2 as (G1 & G2 & G3 & G4 & G5 & G6 & G7 & G8). set (p3 := set_p_matched depth _). rewrite <- S2 in Hd.
    assert (Hm : mid (S n) p3).
    { split; [|split; [exact G3|split]].
      - split; [exact G1|]. split; [eapply starts_le_mono; [|exact G2]; lia|]. split; [exact G5|]. split; [lia|]. split; [exact G4|]. split; [exact G7|]. cbn [p3 p_matched set_p_matched]. lia.
      - intros _. cbn [p3 p_matched set_p_matched p_stack set_p_all_closed]. lia.
      - left. exact G2. }
    assert (Hd3 : depth_ok depth p3).
    { split; [lia|]. cbn [p3 p_all_closed set_p_matched set_p_all_closed p_stack p_matched]. destruct (Nat.eqb_spec depth (length (p_stack p2))); lia. }
    destruct (block_at_container depth p3 Hd3 (mid_ne _ _ Hm)) as (fr & Ebl & Hcont). rewrite Ebl. cbn [bind].
    assert (Hfr : is_block_type (f_type fr) = true).
    { unfold block_at in Ebl. destruct (nth_error (p_stack p3) _) as [fr'|] eqn:En; [|discriminate]. cbn in Ebl. apply Ok_inj in Ebl as ->.
      apply nth_error_In in En. apply stack_ok_all in G1. rewrite Forall_forall in G1. apply G1 in En as [(_ & _ & _ & O4 & _) _]. unfold kind_ok in O4. unfold f_type. destruct (n_t (f_data fr)); try reflexivity; destruct O4. }
    unfold accepts_lines. rewrite Hfr. cbn [bind].
    assert (H4 : match (if negb (ntype_eqb (f_type fr) paragraph) && match f_type fr with code_block | html_block | paragraph => true | _ => false end then Ok (depth, p3) else starts_loop (S (length ln')) depth p3) with
                 | Ok (_, q) => (mid (S n) q /\ (sees q \/ lined q)) \/ leafy (S n) q | Err e => unicode_err e end).
    { destruct (_ && _) eqn:Eal; [left; split; [exact Hm|right; exists (f_type fr); split; [exact Hcont|]; apply andb_prop in Eal as [_ Eal]; exact Eal]|]. change ln' with (p_line p1). rewrite <- L2.
      pose proof (starts_loop_spec (S (length (p_line p2))) (S n) depth p3 Hm Hd3 G8 ltac:(change (p_line p3) with (p_line p2); lia)) as H. destruct (starts_loop _ depth p3) as [[dd q]|e]; [|exact H]. tauto. }
    match type of H4 with match ?x with _ => _ end => destruct x as [[dd p4]|e] end; cbn [bind]; [|exact H4].
    assert (Htip : exists t st, p_stack p4 = t :: st).
    { destruct H4 as [[H4 _]|(_ & _ & t & st & H4 & _)]; [|eauto]. destruct (mid_tip Q A (S n) p4 H4) as (t & st & E & _). eauto. }
    destruct Htip as (t & st & E4). unfold tip. rewrite E4. cbn [hd_error of_option bind].
    assert (H5 : match (if negb (p_all_closed p4) && negb (p_blank p4) && ntype_eqb (f_type t) paragraph then add_line p4 else add_text p4) with Ok q => between (S n) q | Err e => unicode_err e end).
    { destruct (_ && _) eqn:Eb; [|apply add_text_spec; exact H4]. apply andb_prop in Eb as [_ Eb].
      assert (Et : f_type t = paragraph) by (destruct (f_type t); try discriminate; reflexivity).
      assert (Hc : core (S n) p4) by (destruct H4 as [[H4 _]|H4]; apply H4).
      assert (Htk : takes p4 t).
      { apply ready_takes. destruct H4 as [[(_ & M2 & _) _]|(_ & _ & fr' & st' & E' & Hl)]; [unfold BlockInv.tip_ok in M2; rewrite E4 in M2; exact M2|].
        rewrite E4 in E'. injection E' as <- <-. destruct Hl as [[_ Hl]|[Hl _]]; [destruct (Hl Et)|exact Hl]. }
      destruct (add_line_spec (S n) p4 t st Hc E4) as (q & sc & -> & Hc3 & Hr3 & E3); [rewrite Et; reflexivity|exact Htk|]. eapply core_ready_between; eassumption. }
    match type of H5 with match ?x with _ => _ end => destruct x as [p5|e] end; cbn [bind]; [|exact H5]. exact H5.
  Qed.
  Lemma incorporate_lines_spec : forall ls n p, Forall (fun l => ok_str (replace_char 0 65533 l)) ls -> between n p ->
    match incorporate_lines ls p with
    | Ok q => between (n + length ls) q
    | Err e => unicode_err e
    end.
  Proof.
    induction ls as [|l ls IH]; intros n p Hl Hb; cbn [incorporate_lines length].
    - rewrite Nat.add_0_r. exact Hb.
    - inversion Hl as [|x0 l0 H1 H2]; subst. pose proof (incorporate_line_spec n p l H1 Hb) as H. destruct (incorporate_line l p) as [q|e]; cbn [bind]; [|exact H].
      specialize (IH (S n) q H2 H). replace (n + S (length ls)) with (S n + length ls) by lia. exact IH.
  Qed.
  Lemma finalize_all_spec : forall f n p, between n p -> 1 <= n -> length (p_stack p) <= f ->
    match finalize_all f n p with
    | Ok q => exists t, p_doc q = Some t /\ closed t /\ t_type t = document /\ first_line (t_data t) = 1 /\ last_line (t_data t) = n /\ refs_ok (p_refmap q)
    | Err e => unicode_err e
    end.
  Proof.
    induction f as [|f IH]; intros n p (B1 & B2 & B3 & B4 & B5) Hn Hl; unfold BlockInv.tip_ok in B3; destruct (p_stack p) as [|fr st] eqn:E; try (destruct B3; fail); [cbn in Hl; lia|].
    cbn [finalize_all]. rewrite E.
    pose proof (finalize_tip_spec Q HQ HQc A n n p fr st E B1 (le_n _) ltac:(eapply first_le; eassumption) B3 B4) as H. 
    destruct (finalize_tip n p) as [q|e] eqn:Ef; cbn [bind]; [|exact H].
    destruct H as (G1 & G2 & G3 & G4). destruct st as [|par st].
    - destruct G4 as [G4 (t & G5 & G6 & G7 & G8)]. assert (Eq : finalize_all f n q = Ok q) by (destruct f; cbn [finalize_all]; rewrite G4; reflexivity). rewrite Eq.
      exists t. split; [exact G5|]. split; [exact G6|]. split; [exact G7|]. split; [|split; [exact G8|exact G3]].
      unfold finalize_tip in Ef. rewrite E in Ef. destruct B1 as [_ [B1 B1']]. unfold f_type in B1. cbn [n_sourcepos set_n_is_open] in Ef. unfold first_line in B1'.
      destruct (n_sourcepos (f_data fr)) as [[[l0 c0] e0]|]; [|discriminate]. cbn [of_option bind] in Ef. cbn [n_t set_n_sourcepos set_n_is_open] in Ef. rewrite B1 in Ef.
      apply Ok_inj in Ef as <-. cbn [attach p_stack set_p_stack p_doc set_p_doc] in G5. apply Some_inj in G5 as <-. exact B1'.
    - destruct G4 as (extra & G4 & G5 & G6). apply IH; [|exact Hn|rewrite G4; cbn [length] in *; lia].
      split; [|split; [|split; [|split; [exact G3|rewrite (pos_num _ _ G1); exact B5]]]].
      + rewrite G4. apply add_kids; [eapply stack_ok_tl; exact B1|exact G5].
      + rewrite G4. eapply starts_le_replace; [eapply starts_le_tl; exact B2|reflexivity|reflexivity].
      + unfold BlockInv.tip_ok. rewrite G4. split; [|split].
        * intros El Ek. cbn [f_kids] in Ek. apply app_eq_nil in Ek as [_ Ek]. apply (G6 El Ek).
        * intros Ec. exfalso. destruct B1 as [_ [Hh _]]. change (f_type par = code_block) in Ec. rewrite Ec in Hh. discriminate.
        * intros Ec. exfalso. destruct B1 as [_ [Hh _]]. change (f_type par = paragraph) in Ec. rewrite Ec in Hh. discriminate.
  Qed.
  Lemma doc_open : open_data (f_data doc_frame).
  Proof.
    split; [repeat split|]. split; [reflexivity|]. split; [reflexivity|]. split; [exact I|]. split; [discriminate|]. split; [apply le_n|]. exists []. split; [reflexivity|]. split; [apply ok_nil|]. intros _. left. reflexivity.
  Qed.
  Lemma reset_between p : between 0 (reset p).
  Proof.
    split; [|split; [|split; [|split; [split; [constructor|reflexivity]|reflexivity]]]].
    - split; [split; [apply doc_open|constructor]|]. split; reflexivity.
    - constructor; [left; reflexivity|constructor].
    - split; [|split]; intros E; discriminate.
  Qed.
  Theorem parse_blocks_refs s p : ok_str (replace_char 0 65533 s) ->
    match parse_blocks s (reset p) with
    | Ok q => exists t, p_doc q = Some t /\ closed t /\ t_type t = document /\ first_line (t_data t) = 1 /\ last_line (t_data t) = length (input_lines s) /\ refs_ok (p_refmap q)
    | Err e => unicode_err e
    end.
  Proof.
    intros Hs. unfold parse_blocks.
    assert (Hl : Forall (fun l => ok_str (replace_char 0 65533 l)) (input_lines s)). { apply Forall_forall. intros l Hl. eapply ok_infix; [apply infix_map, input_lines_infix, Hl|exact Hs]. }
    pose proof (incorporate_lines_spec (input_lines s) 0 (reset p) Hl (reset_between p)) as H. destruct (incorporate_lines _ _) as [q|e]; cbn [bind]; [|exact H].
    apply finalize_all_spec; [exact H|apply input_lines_ne|apply le_n].
  Qed.
  Theorem parse_blocks_spec s p : ok_str (replace_char 0 65533 s) ->
    match parse_blocks s (reset p) with
    | Ok q => exists t, p_doc q = Some t /\ closed t /\ t_type t = document /\ first_line (t_data t) = 1 /\ last_line (t_data t) = length (input_lines s) /\ InlineFacts.refs_ok Q (p_refmap q)
    | Err e => unicode_err e
    end.
  Proof.
    intros Hs. pose proof (parse_blocks_refs s p Hs) as H. destruct (parse_blocks s (reset p)) as [q|e]; [|exact H].
    destruct H as (t & H1 & H2 & H3 & H4 & H5 & H6 & _). exists t. auto 8.
  Qed.

  (** ** Inlines *)
  Definition inline_tree := inline_tree Q.
  (** a node of the finished document *)
  (** the only white space is spaces, tabs and line ends *)
  Definition only_blanks : Prop := forall c, A [c] -> visible c -> is_space c = false.
  Lemma visible_strip s : ok_str s -> only_blanks -> visible_start s -> strip s <> [].
  Proof.
    intros [_ Hs] Hb (c & r & -> & Hv). assert (Hc : is_space c = false).
    { apply Hb; [|exact Hv]. apply Hs; [|exists [], r; reflexivity]. destruct Hv as (V1 & V2 & V3 & _). split; [discriminate|]. split; intros [G|[]]; congruence. }
    unfold strip, strip_left. cbn [drop_while]. rewrite Hc. unfold strip_right. intros E. apply (f_equal (@rev _)) in E. rewrite rev_involutive in E. cbn [rev] in E.
    assert (G : forall l, drop_while is_space (l ++ [c]) <> []).
    { induction l as [|x l IH]; cbn [app drop_while]; [rewrite Hc; discriminate|]. destruct (is_space x); [exact IH|discriminate]. }
    exact (G _ E).
  Qed.
  Definition doc_node (t : tree) : Prop :=
    let 'T d kids := t in
    Forall Qs (node_strings d) /\
    Forall (fun k => may_hold (n_t d) (t_type k) = true) kids /\
    (n_t d = list_ -> kids <> []) /\
    match n_t d with
    | link | image => (exists x, n_destination d = Some x /\ forallb uri_char x = true) /\ exists x, n_title d = Some x
    | text => kids = [] /\ exists l, d = text_data l
    | code | html_inline => kids = [] /\ exists l, n_literal d = Some l
    | softbreak | linebreak => kids = []
    | emph | strong => True
    | _ => kind_ok d /\ content_ok Q A d /\ n_sourcepos d <> None /\ 1 <= first_line d /\ first_line d <= last_line d /\
           Forall (fun k => inline_type (t_type k) = true \/ in_range_of (first_line d) (last_line d) k) kids /\
           (n_t d = paragraph -> ~ A [91%N] -> only_blanks -> kids <> [])
    end.
  Definition doc_tree := tree_every doc_node.
  Lemma inl_type t : InlineFacts.inl_node Q t -> inline_type (t_type t) = true.
  Proof. destruct t as [d k]. intros [_ H]. unfold t_type. cbn [t_data]. destruct (n_t d); try reflexivity; destruct H. Qed.
  Lemma inline_hd t : inline_tree t -> inl_node Q t.
  Proof. destruct t as [d k]. intros H. apply inline_unfold in H as [H _]. exact H. Qed.
  Lemma inline_doc t : inline_tree t -> doc_tree t.
  Proof.
    induction t as [d kids IH] using tree_ind'. intros H. apply inline_unfold in H as [H1 H2]. apply tree_every_unfold. split.
    - pose proof (inl_type _ H1) as Hty. change (inline_type (n_t d) = true) in Hty. destruct H1 as (G1 & G3). split; [exact G1|]. split.
      + destruct (n_t d) eqn:Et; try discriminate;
          solve [eapply Forall_impl; [|exact H2]; intros k Hk; apply inl_type, inline_hd, Hk | rewrite G3; constructor | rewrite (proj1 G3); constructor].
      + split; [intros E; rewrite E in Hty; discriminate|]. destruct (n_t d); try discriminate; exact G3.
    - clear H1. revert H2. induction IH as [|x l Hx _ IHl]; intros H2; [constructor|]. inversion H2 as [|x0 l0 K1 K2]; subst. constructor; [exact (Hx K1)|exact (IHl K2)].
  Qed.
  Lemma no_kids d kids : Forall (fun k => block_holds (n_t d) (t_type k) = true /\ in_range_of (first_line d) (last_line d) k) kids ->
    (forall c, block_holds (n_t d) c = false) -> kids = [].
  Proof. intros H G. destruct kids as [|k kids]; [reflexivity|]. inversion H as [|x l [H1 _] _]; subst. rewrite G in H1. discriminate. Qed.

  Theorem process_inlines_spec t : closed t -> forall s, InlineFacts.refs_ok Q (ip_refmap s) ->
    match process_inlines t s with
    | Ok (t', s') => doc_tree t' /\ t_data t' = t_data t /\ ip_refmap s' = ip_refmap s /\ ip_smart s' = ip_smart s
    | Err e => (e = IndexError /\ A [38; 35]%N) \/ unicode_err e
    end.
  Proof.
    induction t as [d kids IH] using tree_ind'. intros Hc s Hs. apply tree_every_unfold in Hc as [(C1 & C2 & C3 & C4 & C5 & C6 & C7 & C8 & C9) Hk]. cbn [process_inlines].
    set (go := fix go (ks : list tree) (s : ip) : res (list tree * ip) := _).
    assert (Hgo : forall s, InlineFacts.refs_ok Q (ip_refmap s) -> match go kids s with
       | Ok (ks', s') => Forall doc_tree ks' /\ map t_data ks' = map t_data kids /\ ip_refmap s' = ip_refmap s /\ ip_smart s' = ip_smart s
       | Err e => (e = IndexError /\ A [38; 35]%N) \/ unicode_err e end).
    { clear -IH Hk. induction IH as [|k ks H1 _ IHl]; intros s Hs; cbn [go].
      - auto.
      - inversion Hk as [|x l K1 K2]; subst. specialize (H1 K1 s Hs). destruct (process_inlines k s) as [[k' s1]|e]; cbn [bind]; [|exact H1].
        destruct H1 as (G1 & G2 & G3 & G4). fold go. specialize (IHl K2 s1 ltac:(rewrite G3; exact Hs)). destruct (go ks s1) as [[l s2]|e]; cbn [bind]; [|exact IHl].
        destruct IHl as (I1 & I2 & I3 & I4). split; [constructor; assumption|]. cbn [map]. split; [congruence|]. split; congruence. }
    assert (Hleaf : is_container (n_t d) = false -> kids = [] -> doc_tree (T d kids)).
    { intros Hcon ->. apply tree_every_unfold. split; [|constructor]. split; [exact C3|]. split; [constructor|]. split; [exact C8|].
      unfold kind_ok in C2. destruct (n_t d) eqn:Et; try (destruct C2; fail); try discriminate; unfold kind_ok; rewrite Et; split; auto; (split; [auto|]); repeat (split; [assumption || constructor|]); discriminate. }
    destruct (is_container (n_t d)) eqn:Econ.
    - specialize (Hgo s Hs). destruct (go kids s) as [[kids' s1]|e]; cbn [bind]; [|exact Hgo]. destruct Hgo as (G1 & G2 & G3 & G4).
      destruct (ntype_eqb (n_t d) paragraph || ntype_eqb (n_t d) heading) eqn:Eph.
      + assert (Hty : n_t d = paragraph \/ n_t d = heading) by (destruct (n_t d); try discriminate; auto).
        assert (Hnil : kids = []) by (apply (no_kids d kids C7); intros c; destruct Hty as [->| ->]; reflexivity).
        subst kids. destruct kids' as [|x l]; [|discriminate]. cbn [app].
        assert (Hsc : exists sc, n_string_content d = Some sc /\ ok_str sc) by (unfold content_ok in C9; destruct Hty as [E|E]; rewrite E in C9; [destruct C9 as (sc & K1 & K2 & _); eauto|exact C9]).
        destruct Hsc as (sc & Esc & [Hsc1 Hsc2]). rewrite Esc. cbn [of_option bind].
        pose proof (parseInlines_spec Q HQ HQc sc s1 Hsc1 ltac:(rewrite G3; exact Hs)) as H. destruct (parseInlines sc s1) as [[inls s2]|e] eqn:Epi; cbn [bind].
        * assert (Hnel : n_t d = paragraph -> ~ A [91%N] -> only_blanks -> inls <> []).
          { intros Ep HA HB. eapply (parseInlines_ne Q HQ HQc sc s1); [exact Hsc1|rewrite G3; exact Hs| |exact Epi]. apply visible_strip; [split; assumption|exact HB|].
            unfold content_ok in C9. rewrite Ep in C9. destruct C9 as (sc' & K1 & _ & K2). rewrite Esc in K1. apply Some_inj in K1 as <-. exact (K2 HA). }
          destruct H as (H1 & H2 & H3). split; [|split; [reflexivity|split; congruence]]. apply tree_every_unfold. split.
          -- assert (Hin : Forall (fun k => inline_type (t_type k) = true) inls) by (eapply Forall_impl; [|exact H1]; intros k Hk0; apply inl_type, inline_hd, Hk0).
             split; [exact C3|]. split; [destruct Hty as [E|E]; rewrite E; exact Hin|]. 
             split; [intros E; destruct Hty; congruence|].
             assert (Hrest : kind_ok d /\ content_ok Q A d /\ n_sourcepos d <> None /\ 1 <= first_line d /\ first_line d <= last_line d /\
                 Forall (fun k => inline_type (t_type k) = true \/ in_range_of (first_line d) (last_line d) k) inls /\ (n_t d = paragraph -> ~ A [91%N] -> only_blanks -> inls <> [])).
             { split; [exact C2|]. split; [exact C9|]. split; [exact C4|]. split; [exact C5|]. split; [exact C6|]. split; [eapply Forall_impl; [|exact Hin]; auto|]. exact Hnel. }
             destruct Hty as [E|E]; rewrite E in *; exact Hrest.
          -- eapply Forall_impl; [|exact H1]. apply inline_doc.
        * destruct H as [[-> H]|H]; [left|right; exact H]. split; [reflexivity|]. apply Hsc2; [apply word_amp|exact H].
      + split; [|split; [reflexivity|split; assumption]]. apply tree_every_unfold. split; [|exact G1].
        assert (Hks : Forall (fun k => block_holds (n_t d) (t_type k) = true /\ in_range_of (first_line d) (last_line d) k) kids').
        { clear -C7 G2. revert kids C7 G2. induction kids' as [|k' l' IH]; intros kids C7 G2; [constructor|]. destruct kids as [|k l]; [discriminate|]. cbn [map] in G2. injection G2 as E1 E2.
          inversion C7 as [|x y D1 D2]; subst. constructor; [|eapply IH; eassumption]. unfold t_type, in_range_of in *. rewrite E1. exact D1. }
        split; [exact C3|]. split.
        { eapply Forall_impl; [|exact Hks]. intros k [K1 _]. unfold may_hold. destruct (n_t d); try discriminate; exact K1. }
        split.
        { intros E. apply C8 in E. destruct kids; [congruence|]. destruct kids'; [discriminate|discriminate]. }
        assert (Hrest : kind_ok d /\ content_ok Q A d /\ n_sourcepos d <> None /\ 1 <= first_line d /\ first_line d <= last_line d /\
                 Forall (fun k => inline_type (t_type k) = true \/ in_range_of (first_line d) (last_line d) k) kids' /\ (n_t d = paragraph -> ~ A [91%N] -> only_blanks -> kids' <> [])).
        { split; [exact C2|]. split; [exact C9|]. split; [exact C4|]. split; [exact C5|]. split; [exact C6|]. split; [eapply Forall_impl; [|exact Hks]; intros k [_ K]; auto|]. intros Ep. rewrite Ep in Eph. discriminate. }
        unfold kind_ok in C2. destruct (n_t d) eqn:Et; try (destruct C2; fail); try discriminate; exact Hrest.
    - split; [|split; [reflexivity|split; reflexivity]]. apply Hleaf; [reflexivity|]. apply (no_kids d kids C7). intros c. unfold kind_ok in C2. destruct (n_t d); try (destruct C2; fail); try discriminate; reflexivity.
  Qed.

  Theorem parse_spec p s : ok_str (replace_char 0 65533 s) ->
    match parse p s with
    | Ok (t, _) => doc_tree t /\ t_type t = document /\ first_line (t_data t) = 1 /\ last_line (t_data t) = length (input_lines s)
    | Err e => (e = IndexError /\ A [38; 35]%N) \/ unicode_err e
    end.
  Proof.
    intros Hs. unfold parse. pose proof (parse_blocks_spec s p Hs) as H. destruct (parse_blocks s (reset p)) as [q|e]; cbn [bind]; [|right; exact H].
    destruct H as (t & E & H1 & H2 & H3 & H4 & H5). rewrite E. cbn [of_option bind]. set (ip0 := IP _ _ _ _ _ _ _ _).
    pose proof (process_inlines_spec t H1 ip0 H5) as H. destruct (process_inlines t ip0) as [[t' s']|e]; cbn [bind]; [|exact H].
    destruct H as (G1 & G2 & _). unfold t_type in *. rewrite G2. auto.
  Qed.
End R.
