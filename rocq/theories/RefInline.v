(** * Lines with one reference: C25, C26 *)
From Verif Require Import Base Regex Common NormRef Node Inlines Blocks RegexFacts StrFacts Spec SpecLines SpecRefs
  TreeFacts CommonFacts LabelFacts StrProp EmphFacts InlineFacts RenderFacts TextFacts WordFacts RefFacts RefMapFacts RefLine.
From Verif Require RegexLang.
From Coq Require Import ZifyBool ZifyNat ZifyN.

Definition opening (image : bool) : str := if image then [33; 91]%N else [91%N].
Definition opened (image : bool) (st : ip) : ip :=
  addBracket (ip_next st) (ip_pos st + length (opening image) - 1) image (append_kid (text_node (opening image)) (ip_adv (length (opening image)) st)).
Lemma open_step image st rest : skipn (ip_pos st) (ip_subject st) = opening image ++ rest -> parseInline st = Ok (true, opened image st).
Proof.
  intros E. unfold parseInline. destruct image; cbn [opening app] in E; rewrite (peek_skipn st _ _ E).
  - change (parseBang st) with (let s1 := ip_adv 1 st in if peek_is 91 s1 then Ok (true, addBracket (ip_next (ip_adv 1 s1)) (ip_pos st + 1) true (append_kid (text_node [33%N; 91%N]) (ip_adv 1 s1))) else Ok (true, append_kid (text_node [33%N]) s1)).
    cbv zeta. assert (Ep : peek_is 91 (ip_adv 1 st) = true). { unfold peek_is. rewrite (peek_skipn (ip_adv 1 st) 91%N rest); [reflexivity|]. apply (skipn_adv st [33%N]); [exact E|reflexivity]. }
    rewrite Ep. cbv -[skipn Nat.add Nat.sub ip_pos ip_next addBracket append_kid ip_adv opened]. unfold opened. cbn [opening length]. replace (ip_pos st + 2 - 1) with (ip_pos st + 1) by lia.
    unfold ip_adv. cbn [set_ip_pos ip_pos ip_subject ip_refmap ip_smart ip_delims ip_brackets ip_kids ip_next]. replace (ip_pos st + 1 + 1) with (ip_pos st + 2) by lia. reflexivity.
  - change (N.eqb 91 LF) with false. cbv -[skipn Nat.add Nat.sub ip_pos ip_next addBracket append_kid ip_adv opened]. unfold opened. cbn [opening length]. replace (ip_pos st + 1 - 1) with (ip_pos st) by lia. reflexivity.
Qed.

(** ** The closing bracket *)
Definition tail_text (tail : option str) : str := match tail with None => [] | Some l => bracketed l end.
Definition tail_ok (tail : option str) : Prop := match tail with Some (c :: l) => plain_word (c :: l) | _ => True end.
Definition key (w : str) (tail : option str) : str := normalize_reference (bracketed (label_of w tail)).
Lemma slice_at s g q : skipn (ip_pos s) (ip_subject s) = g ++ q -> slice (ip_pos s) (ip_pos s + length g) (ip_subject s) = g.
Proof. intros E. unfold slice. rewrite E. replace (ip_pos s + length g - ip_pos s) with (length g) by lia. rewrite firstn_app, firstn_all, Nat.sub_diag. cbn [firstn]. apply app_nil_r. Qed.
Lemma reference_word op w tail sp st : skipn (ip_pos st) (ip_subject st) = tail_text tail -> tail_ok tail -> slice (b_index op) sp (ip_subject st) = bracketed w ->
  reference_tail op sp (ip_pos st) st =
    (match assoc_str (key w tail) (ip_refmap st) with Some (d, t) => Some (d, Some t) | None => None end, ip_adv (length (tail_text tail)) st).
Proof.
  intros E Ht Es. unfold reference_tail. destruct tail as [l|].
  - destruct l as [|c l].
    + rewrite (label_word st [] [] (eq_trans E (eq_sym (app_nil_r _))) (Forall_nil _) (Nat.le_0_l _)). cbn [length Nat.add]. change (Nat.ltb 2 2) with false. change (Nat.eqb 2 0) with false. cbv iota.
      cbn [ip_adv set_ip_pos ip_subject ip_refmap]. rewrite Es. change (is_nil (bracketed w)) with false. cbv iota. unfold key. cbn [label_of]. destruct (assoc_str _ _) as [[d t]|]; reflexivity.
    + destruct Ht as (_ & Hl & Hc). rewrite (label_word st (c :: l) [] (eq_trans E (eq_sym (app_nil_r _))) Hc Hl). rewrite (proj2 (Nat.ltb_lt 2 _)) by (cbn [length]; lia). rewrite (proj2 (Nat.eqb_neq (length (c :: l) + 2) 0)) by lia.
      cbn [ip_adv set_ip_pos ip_subject ip_refmap tail_text]. rewrite <- len_bracketed. rewrite (slice_at st (bracketed (c :: l)) []) by (rewrite app_nil_r; exact E).
      change (is_nil (bracketed (c :: l))) with false. cbv iota. unfold key. cbn [label_of]. destruct (assoc_str _ _) as [[d t]|]; reflexivity.
  - rewrite (label_end st E). change (Nat.ltb 2 0) with false. change (Nat.eqb 0 0) with true. cbv iota. rewrite Es. change (is_nil (bracketed w)) with false. cbv iota.
    assert (Eq : set_ip_pos (ip_pos st) st = st) by (destruct st; reflexivity). assert (Eq' : ip_adv (length (tail_text None)) st = st) by (unfold ip_adv; cbn [tail_text length]; rewrite Nat.add_0_r; exact Eq).
    rewrite Eq, Eq'. unfold key. cbn [label_of]. destruct (assoc_str _ _) as [[d t]|]; reflexivity.
Qed.
Lemma no_inline_tail st tail : skipn (ip_pos st) (ip_subject st) = tail_text tail -> inline_tail st = Ok (None, st).
Proof.
  intros E. unfold inline_tail. assert (Ep : peek_is 40 st = false); [|rewrite Ep; reflexivity]. unfold peek_is. destruct tail as [l|].
  - rewrite (peek_skipn st 91%N (l ++ [93%N])) by exact E. reflexivity.
  - rewrite (peek_end st) by exact E. reflexivity.
Qed.
Lemma close_step st w tail op bs : skipn (ip_pos st) (ip_subject st) = 93%N :: tail_text tail -> tail_ok tail ->
  ip_brackets st = op :: bs -> b_active op = true -> slice (b_index op) (ip_pos st + 1) (ip_subject st) = bracketed w ->
  parseInline st = match assoc_str (key w tail) (ip_refmap st) with
                   | Some (d, t) => let* s3 := make_link op d (Some t) (ip_adv (1 + length (tail_text tail)) st) in Ok (true, s3)
                   | None => Ok (true, append_kid (text_node [93%N]) (removeBracket (ip_adv 1 st)))
                   end.
Proof.
  intros E Ht Hb Ha Es. unfold parseInline. rewrite (peek_skipn st _ _ E).
  change (N.eqb 93 LF) with false. change (N.eqb 93 92) with false. change (N.eqb 93 96) with false. change (N.eqb 93 42) with false. change (N.eqb 93 95) with false. change (N.eqb 93 39) with false. change (N.eqb 93 34) with false.
  change (N.eqb 93 91) with false. change (N.eqb 93 33) with false. change (N.eqb 93 93) with true. cbv beta iota delta [orb].
  unfold parseCloseBracket. set (s := ip_adv 1 st). assert (E1 : skipn (ip_pos s) (ip_subject s) = tail_text tail) by (apply (skipn_adv st [93%N]); [exact E|reflexivity]).
  change (ip_brackets s) with (ip_brackets st). rewrite Hb, Ha. cbn [negb]. rewrite (no_inline_tail s tail E1). cbn [bind].
  rewrite (reference_word op w tail (ip_pos s) s E1 Ht); [|exact Es]. change (ip_refmap s) with (ip_refmap st).
  destruct (assoc_str (key w tail) (ip_refmap st)) as [[d t]|].
  - replace (ip_adv (length (tail_text tail)) s) with (ip_adv (1 + length (tail_text tail)) st). 2:{ unfold s, ip_adv. cbn [set_ip_pos ip_pos ip_subject ip_refmap ip_smart ip_delims ip_brackets ip_kids ip_next]. rewrite <- Nat.add_assoc. reflexivity. }
    destruct (make_link _ _ _ _); reflexivity.
  - cbn [bind]. unfold s. destruct st; reflexivity.
Qed.

(** ** One group of brackets *)
Lemma word_run w : Forall word_char w -> forallb (fun c => negb (main_special c)) w = true /\ re_search reEllipses w = None /\ re_search reDash w = None.
Proof.
  intros H. split.
  - apply forallb_forall. intros c Hc. rewrite Forall_forall in H. rewrite (word_main c (H c Hc)). reflexivity.
  - apply no_smart; intros X; rewrite Forall_forall in H; apply H in X; unfold word_char in X; lia.
Qed.
Definition after_words (image : bool) (w : str) (st : ip) : ip :=
  match w with [] => opened image st | _ => append_kid (text_node w) (ip_adv (length w) (opened image st)) end.
Lemma words_loop image w rest st fu : skipn (ip_pos st) (ip_subject st) = opening image ++ w ++ 93%N :: rest -> Forall word_char w ->
  length (opening image ++ w) < fu -> exists fu', fu <= fu' + length (opening image ++ w) /\ 0 < fu' /\ inline_loop fu st = inline_loop fu' (after_words image w st) /\
    skipn (ip_pos (after_words image w st)) (ip_subject (after_words image w st)) = 93%N :: rest.
Proof.
  intros E Hw Hf. rewrite app_length in Hf. assert (Ho : 1 <= length (opening image)) by (destruct image; cbn; lia). destruct fu as [|fu]; [lia|]. rewrite (loop_step fu st _ (open_step image st _ E)).
  assert (E1 : skipn (ip_pos (opened image st)) (ip_subject (opened image st)) = w ++ 93%N :: rest) by (apply (skipn_adv st (opening image)); [exact E|reflexivity]).
  rewrite app_length. destruct w as [|c w].
  - exists fu. cbn [length] in *. split; [lia|]. split; [lia|]. split; [reflexivity|exact E1].
  - destruct fu as [|fu]; [cbn [length] in Hf; lia|]. exists fu. split; [cbn [length]; lia|]. split; [cbn [length] in Hf; lia|]. destruct (word_run (c :: w) Hw) as (M & S1 & S2). split.
    + apply loop_step. apply (step_run (opened image st) (c :: w) (93%N :: rest) E1); [discriminate|exact M| |intros _; split; assumption]. intros x q' X. injection X as <- _. reflexivity.
    + apply (skipn_adv (opened image st) (c :: w)); [exact E1|reflexivity].
Qed.
Lemma after_words_fields image w st : ip_subject (after_words image w st) = ip_subject st /\ ip_refmap (after_words image w st) = ip_refmap st /\ ip_smart (after_words image w st) = ip_smart st /\
  ip_delims (after_words image w st) = ip_delims st /\
  ip_brackets (after_words image w st) = BK (ip_next st) (hd_id (ip_delims st)) (ip_pos st + length (opening image) - 1) image true :: ip_brackets st /\
  ip_pos (after_words image w st) = ip_pos st + length (opening image) + length w.
Proof.
  destruct w; cbn [after_words]; unfold opened, addBracket, append_kid, ip_adv; cbn [set_ip_pos set_ip_brackets set_ip_next set_ip_kids ip_pos ip_subject ip_refmap ip_smart ip_delims ip_brackets ip_kids ip_next length]; repeat (split; try reflexivity). lia.
Qed.
Lemma group_label image w rest st : skipn (ip_pos st) (ip_subject st) = opening image ++ w ++ 93%N :: rest ->
  slice (ip_pos st + length (opening image) - 1) (ip_pos st + length (opening image) + length w + 1) (ip_subject st) = bracketed w.
Proof.
  intros E. assert (E' : skipn (ip_pos st + (length (opening image) - 1)) (ip_subject st) = bracketed w ++ rest).
  { apply (skipn_adv st (removelast (opening image))); [|destruct image; reflexivity]. rewrite E. unfold bracketed. change (u "[") with [91%N]. change (u "]") with [93%N]. rewrite <- !app_assoc. destruct image; reflexivity. }
  assert (Ho : 1 <= length (opening image)) by (destruct image; cbn; lia). unfold slice. replace (ip_pos st + length (opening image) - 1) with (ip_pos st + (length (opening image) - 1)) by lia. rewrite E'.
  replace (_ - _) with (length (bracketed w)) by (rewrite len_bracketed; lia). rewrite firstn_app, firstn_all, Nat.sub_diag. cbn [firstn]. apply app_nil_r.
Qed.
Lemma adds_after image w st : adds st (removeBracket (after_words image w st)) (opening image :: match w with [] => [] | _ => [w] end).
Proof.
  destruct w; cbn [after_words]; unfold adds, opened, addBracket, append_kid, ip_adv, removeBracket; cbn [set_ip_pos set_ip_brackets set_ip_next set_ip_kids ip_pos ip_subject ip_refmap ip_smart ip_delims ip_brackets ip_kids ip_next tl]; rewrite ?map_app, <- ?app_assoc; auto 10.
Qed.
(** brackets that refer to nothing are text *)
Lemma literal_group image w tail st fu : skipn (ip_pos st) (ip_subject st) = opening image ++ w ++ 93%N :: tail_text tail -> Forall word_char w -> tail_ok tail ->
  assoc_str (key w tail) (ip_refmap st) = None -> length (opening image ++ w) + 1 < fu ->
  exists fu' st' ls, fu <= fu' + (length (opening image ++ w) + 1) /\ inline_loop fu st = inline_loop fu' st' /\ adds st st' ls /\ concat ls = opening image ++ w ++ [93%N] /\
    skipn (ip_pos st') (ip_subject st') = tail_text tail.
Proof.
  intros E Hw Ht Ha Hf. destruct (words_loop image w _ st fu E Hw ltac:(lia)) as (fu' & H1 & H2 & H3 & H4). destruct fu' as [|fu']; [lia|]. destruct (after_words_fields image w st) as (F1 & F2 & F3 & F4 & F5 & F6).
  exists fu', (append_kid (text_node [93%N]) (removeBracket (ip_adv 1 (after_words image w st)))), ((opening image :: match w with [] => [] | _ => [w] end) ++ [[93%N]]).
  split; [lia|]. split.
  { rewrite H3. apply loop_step. rewrite (close_step (after_words image w st) w tail _ _ H4 Ht F5 eq_refl).
    - rewrite F2, Ha. reflexivity.
    - cbn [b_index]. rewrite F1, F6. apply (group_label image w _ st E). }
  split.
  { eapply adds_trans; [apply adds_after|]. destruct (adds_one (removeBracket (after_words image w st)) 1 [93%N]) as (A1 & A2 & A3 & A4 & A5 & A6). unfold adds. auto 10. }
  split; [destruct w; cbn [concat app]; rewrite ?app_nil_r; reflexivity|].
  apply (skipn_adv (after_words image w st) [93%N]); [exact H4|reflexivity].
Qed.

(** ** The whole line *)
Definition ref_node (image : bool) (w d t : str) : tree :=
  T (set_n_title (Some t) (set_n_destination (Some d) (new_node (if image then Node.image else link) None))) [text_node w].
Theorem ref_inline image w tail rm smart : plain_word w -> tail_ok tail -> ~ In [] (keys rm) ->
  let l := opening image ++ w ++ 93%N :: tail_text tail in
  exists st', inline_loop (S (length l)) (IP l 0 rm smart [] [] [] 0) = Ok st' /\ ip_delims st' = [] /\ ip_refmap st' = rm /\
    match assoc_str (key w tail) rm with
    | Some (d, t) => map snd (ip_kids st') = [ref_node image w d t]
    | None => exists ls, map snd (ip_kids st') = map text_node ls /\ concat ls = l
    end.
Proof.
  intros Hw Ht Hk l. set (st := IP l 0 rm smart [] [] [] 0). pose proof Hw as (Hne & Hl & Hc).
  assert (E : skipn (ip_pos st) (ip_subject st) = opening image ++ w ++ 93%N :: tail_text tail) by reflexivity.
  assert (Ll : length l = length (opening image ++ w) + 1 + length (tail_text tail)) by (unfold l; rewrite !app_length; cbn [length]; lia).
  destruct (assoc_str (key w tail) rm) as [[d t]|] eqn:Ek.
  - destruct (words_loop image w _ st (S (length l)) E Hc ltac:(lia)) as (fu' & H1 & H2 & H3 & H4). destruct fu' as [|fu']; [lia|]. destruct (after_words_fields image w st) as (F1 & F2 & F3 & F4 & F5 & F6).
    set (sw := after_words image w st) in *.
    assert (Em : make_link (BK 0 None (length (opening image) - 1) image true) d (Some t) (ip_adv (1 + length (tail_text tail)) sw) =
      Ok (IP l (ip_pos sw + (1 + length (tail_text tail))) rm smart [] [] [(2, ref_node image w d t)] 3)).
    { unfold sw. destruct w as [|c w]; [congruence|]. cbn [after_words]. unfold make_link, opened, addBracket, append_kid, ip_adv, st.
      cbn [set_ip_pos set_ip_brackets set_ip_next set_ip_kids ip_pos ip_subject ip_refmap ip_smart ip_delims ip_brackets ip_kids ip_next split_kid b_node app Nat.eqb b_prevdelim]. rewrite emphasis_none.
      destruct image; reflexivity. }
    exists (IP l (ip_pos sw + (1 + length (tail_text tail))) rm smart [] [] [(2, ref_node image w d t)] 3). split; [|repeat split; reflexivity].
    rewrite H3. rewrite (loop_step fu' sw (IP l (ip_pos sw + (1 + length (tail_text tail))) rm smart [] [] [(2, ref_node image w d t)] 3)).
    + destruct fu' as [|fu']; [destruct Hw as (? & _); rewrite app_length in H1, Ll; exfalso; destruct tail; cbn [tail_text] in *; rewrite ?len_bracketed in *; cbn [length] in *; lia|]. apply loop_end. cbn [ip_pos ip_subject]. change (skipn (ip_pos sw + (1 + length (tail_text tail))) (ip_subject st) = []). rewrite <- F1. apply (skipn_adv sw (93%N :: tail_text tail)); [rewrite H4, app_nil_r; reflexivity|reflexivity].
    + rewrite (close_step sw w tail _ _ H4 Ht F5 eq_refl).
      * rewrite F2. change (ip_refmap st) with rm. rewrite Ek. change (ip_next st) with 0. change (hd_id (ip_delims st)) with (@None nat). change (ip_pos st + length (opening image) - 1) with (length (opening image) - 1). rewrite Em. reflexivity.
      * cbn [b_index]. rewrite F1, F6. apply (group_label image w _ st E).
  - destruct (literal_group image w tail st (S (length l)) E Hc Ht Ek ltac:(lia)) as (fu' & s1 & ls1 & H1 & H2 & (A1 & A2 & A3 & A4 & A5 & A6) & C1 & E1). rewrite H2.
    destruct tail as [l2|].
    + assert (Hc2 : Forall word_char l2) by (destruct l2; [constructor|apply Ht]). assert (Hk2 : assoc_str (key l2 None) (ip_refmap s1) = None).
      { rewrite A2. change (ip_refmap st) with rm. destruct l2 as [|c l2]; [|exact Ek]. assert (Z : key [] None = []) by (vm_compute; reflexivity). rewrite Z. apply assoc_none, Hk. }
      destruct (literal_group false l2 None s1 fu') as (fu2 & s2 & ls2 & G1 & G2 & (B1 & B2 & B3 & B4 & B5 & B6) & C2 & E2); [rewrite E1; reflexivity|exact Hc2|exact I|exact Hk2|cbn [opening app length] in *; cbn [tail_text] in Ll; rewrite len_bracketed in Ll; lia|].
      rewrite G2. destruct fu2 as [|fu2]; [exfalso; cbn [opening app length] in *; cbn [tail_text] in Ll; rewrite len_bracketed in Ll; lia|]. exists s2. split; [apply loop_end; exact E2|]. split; [rewrite B4, A4; reflexivity|]. split; [rewrite B2, A2; reflexivity|].
      exists (ls1 ++ ls2). split; [rewrite B6, A6, map_app; reflexivity|]. rewrite concat_app, C1, C2. unfold l. cbn [tail_text opening]. rewrite <- !app_assoc. reflexivity.
    + destruct fu' as [|fu']; [exfalso; cbn [tail_text length] in *; lia|]. exists s1. split; [apply loop_end; exact E1|]. split; [rewrite A4; reflexivity|]. split; [rewrite A2; reflexivity|]. exists ls1. split; [exact A6|exact C1].
Qed.
