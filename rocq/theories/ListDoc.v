(** * Documents of lists: C52 *)
From Verif Require Import Base Regex Common NormRef Node Inlines Blocks Html Main RegexFacts StrFacts Spec SpecTree SpecSame SpecLines SpecParas SpecLists
  TreeFacts CommonFacts StrProp HtmlFacts RenderFacts BlockFacts BlockRun LineFacts ParseFacts Sim SimFacts SameHtml DocFacts TextFacts RuleFacts WordFacts BlankFacts AfterFacts ParaFacts ParaInline ParaDoc ListLine.
From Coq Require Import ZifyBool ZifyNat ZifyN.

(** ** Closed items and lists *)
Definition para_of (w : str) (b : bool) (d : ndata) : Prop :=
  n_t d = paragraph /\ n_string_content d = Some (w ++ [LF]) /\ n_last_line_blank d = b /\ n_last_line_checked d = false.
Definition item_of (b : bool) (d : ndata) : Prop := n_t d = item /\ n_last_line_blank d = b /\ n_last_line_checked d = false.
Definition followed (i : li) : bool := negb (is_nil (li_blanks i)).
Definition closed_item (i : li) (t : tree) : Prop :=
  exists id pd, t = T id [T pd []] /\ item_of (followed i) id /\ para_of (li_words i) (followed i) pd.
Definition weak_item (i : li) (t : tree) : Prop :=
  exists id pd, t = T id [T pd []] /\ n_t id = item /\ n_t pd = paragraph /\ n_string_content pd = Some (li_words i ++ [LF]).
Lemma closed_weak i t : closed_item i t -> weak_item i t.
Proof. intros (id & pd & -> & (I1 & _) & (P1 & P2 & _)). exists id, pd. auto. Qed.
Lemma loose_cons i l : loose (i :: l) = match l with [] => false | _ => followed i || loose l end.
Proof. destruct l; reflexivity. Qed.
Lemma check_items_run : forall run items, Forall2 closed_item run items ->
  exists items', check_items items = (loose run, items') /\ Forall2 weak_item run items'.
Proof.
  intros run items H. induction H as [|i t run items (id & pd & -> & (I1 & I2 & I3) & (P1 & P2 & P3 & P4)) H IH]; [exists []; split; [reflexivity|constructor]|].
  assert (Hweak : Forall2 weak_item run items) by (eapply Forall2_impl'; [|exact H]; exact closed_weak).
  cbn [check_items ends_with_blank_line]. rewrite loose_cons, I2, I3, I1. change (is_list_or_item item) with true. cbn [negb andb].
  assert (En : is_nil items = is_nil run) by (destruct H; reflexivity).
  destruct (followed i) eqn:Ef.
  - rewrite En. destruct run as [|j run]; cbn [is_nil negb andb].
    + inversion H; subst items. cbn [t_kids t_data check_subitems ends_with_blank_line]. rewrite P3. cbn [andb orb is_nil negb check_items]. eexists. split; [reflexivity|]. constructor; [|constructor]. exists id, pd. auto.
    + exists (T id [T pd []] :: items). split; [reflexivity|]. constructor; [exists id, pd; auto|exact Hweak].
  - rewrite P3, P4, P1. change (is_list_or_item paragraph) with false. cbn [negb andb t_kids t_data check_subitems ends_with_blank_line n_last_line_blank n_last_line_checked set_n_last_line_checked n_t]. rewrite P3. cbn [negb andb].
    destruct IH as (items' & -> & Hi). exists (T (set_n_last_line_checked true id) [T (set_n_last_line_checked true (set_n_last_line_checked true pd)) []] :: items'). split.
    + cbn [orb]. destruct run; [|reflexivity]. reflexivity.
    + constructor; [|exact Hi]. eexists. eexists. split; [reflexivity|]. cbn. auto.
Qed.
Definition list_head (m : mark) (data : ldata) : Prop :=
  match m with
  | Bullet c => ld_type data = bullet /\ ld_start data = None
  | Number ds d => ld_type data = ordered /\ ld_start data = Some (int_of_digits ds)
  end.
Definition closed_run (run : list li) (t : tree) : Prop :=
  exists d items data i l, t = T d items /\ n_t d = list_ /\ n_list_data d = Some data /\ ld_tight data = negb (loose run) /\ run = i :: l /\ list_head (li_mark i) data /\ Forall2 weak_item run items.
Lemma finalize_run d items run i l off pad : n_t d = list_ -> n_list_data d = Some (mark_data (li_mark i) off pad) -> run = i :: l -> Forall2 closed_item run items ->
  exists d' items', finalize_list d items = (d', items') /\ closed_run run (T d' items').
Proof.
  intros Ed El Er H. destruct (check_items_run run items H) as (items' & E & Hi). unfold finalize_list. rewrite E. destruct (loose run) eqn:Elo.
  - subst run. inversion Hi as [|a t b items2 (id & pd & -> & W) Hi2]; subst. eexists. eexists. split; [reflexivity|].
    eexists. eexists. eexists. exists i, l. split; [reflexivity|]. split; [exact Ed|]. split; [unfold loosen; cbn [n_list_data set_n_list_data]; rewrite El; reflexivity|].
    split; [rewrite Elo; reflexivity|]. split; [reflexivity|]. split; [destruct (li_mark i); cbn; auto|]. constructor; [|exact Hi2]. exists (loosen id), pd. exact (conj eq_refl W).
  - eexists. eexists. split; [reflexivity|]. exists d, items', (mark_data (li_mark i) off pad), i, l. split; [reflexivity|]. split; [exact Ed|]. split; [exact El|]. split; [rewrite Elo; destruct (li_mark i); reflexivity|]. split; [exact Er|]. split; [destruct (li_mark i); cbn; auto|exact Hi].
Qed.

(** ** Closing blocks *)
Lemma fin_para ln p n i c r st : p_stack p = F (para_data n i (c :: r)) [] :: st -> c <> 91%N ->
  exists pd, finalize_tip ln p = Ok (attach (T pd []) (set_p_stack st p)) /\ n_t pd = paragraph /\ n_string_content pd = Some (c :: r) /\ n_last_line_blank pd = false /\ n_last_line_checked pd = false.
Proof.
  intros Es Hc. unfold finalize_tip. rewrite Es. cbn [f_data n_sourcepos set_n_is_open para_data set_n_string_content new_node of_option bind n_t set_n_sourcepos].
  unfold finalize_paragraph, para_data. cbn [n_string_content set_n_sourcepos set_n_is_open set_n_string_content of_option bind]. unfold strip_refs. cbn [length ref_loop]. unfold peek. cbn [nth_error opt_is].
  rewrite (proj2 (N.eqb_neq c 91) Hc). cbn [bind andb]. match goal with |- context [attach (T ?x _)] => exists x end. split; [destruct p; reflexivity|split; [reflexivity|split; [reflexivity|split; reflexivity]]].
Qed.
Lemma fin_item ln p d k st b : p_stack p = F d k :: st -> item_of b d -> n_sourcepos d <> None ->
  exists d', finalize_tip ln p = Ok (attach (T d' k) (set_p_stack st p)) /\ item_of b d'.
Proof.
  intros Es (I1 & I2 & I3) Hsp. unfold finalize_tip. rewrite Es. cbn [f_data f_kids n_sourcepos set_n_is_open]. destruct (n_sourcepos d) as [[sp0 e]|]; [|congruence]. cbn [of_option bind n_t set_n_sourcepos set_n_is_open]. rewrite I1.
  eexists. split; [reflexivity|]. split; [exact I1|]. split; [exact I2|exact I3].
Qed.
Lemma fin_list ln p d items st run i l off pad : p_stack p = F d items :: st -> n_t d = list_ -> n_sourcepos d <> None -> n_list_data d = Some (mark_data (li_mark i) off pad) -> run = i :: l -> Forall2 closed_item run items ->
  exists t, finalize_tip ln p = Ok (attach t (set_p_stack st p)) /\ closed_run run t.
Proof.
  intros Es Et Hsp Ed Er H. unfold finalize_tip. rewrite Es. cbn [f_data f_kids n_sourcepos set_n_is_open]. destruct (n_sourcepos d) as [[sp0 e]|]; [|congruence]. cbn [of_option bind n_t set_n_sourcepos set_n_is_open]. rewrite Et.
  match goal with |- context [finalize_list ?x items] => destruct (finalize_run x items run i l off pad) as (d' & items' & E & Hc); [exact Et|exact Ed|exact Er|exact H|] end. rewrite E.
  eexists. split; [reflexivity|exact Hc].
Qed.

(** ** The states between the lines *)
Definition open_state (done : list (list li)) (prev : list li) (i : li) (b : bool) (p : parser) : Prop :=
  exists top ld kl dd kd i0 l0 off pad id w,
    p_stack p = top ++ [F ld kl; F dd kd] /\ n_t dd = document /\ n_sourcepos dd <> None /\ Forall2 closed_run done kd /\
    n_t ld = list_ /\ n_sourcepos ld <> None /\ prev ++ [i] = i0 :: l0 /\ n_list_data ld = Some (mark_data (li_mark i0) off pad) /\ Forall2 closed_item prev kl /\
    same_kind (li_mark i0) (li_mark i) = true /\
    item_of b id /\ n_sourcepos id <> None /\ item_indent id = Ok w /\
    (2 <= w /\ w = li_indent i + (length (mark_text (li_mark i)) + li_gap i) /\ n_string_content id = Some [] /\ (b = true -> p_all_closed p = true)) /\
    (if b then exists pd, top = [F id [T pd []]] /\ para_of (li_words i) true pd
     else exists n j, top = [F (para_data n j (li_words i ++ [LF])) []; F id []]) /\
    p_refmap p = [] /\ p_smart p = false.
(** the same with an arbitrary property [X] of the closed items, the closed blocks and the list's data *)
Definition open_gen (X : list tree -> list tree -> option ldata -> Prop) (i : li) (b : bool) (p : parser) : Prop :=
  exists top ld kl dd kd id w,
    p_stack p = top ++ [F ld kl; F dd kd] /\ n_t dd = document /\ n_sourcepos dd <> None /\
    n_t ld = list_ /\ n_sourcepos ld <> None /\ X kl kd (n_list_data ld) /\
    item_of b id /\ n_sourcepos id <> None /\ item_indent id = Ok w /\
    (2 <= w /\ w = li_indent i + (length (mark_text (li_mark i)) + li_gap i) /\ n_string_content id = Some [] /\ (b = true -> p_all_closed p = true)) /\
    (if b then exists pd, top = [F id [T pd []]] /\ para_of (li_words i) true pd
     else exists n j, top = [F (para_data n j (li_words i ++ [LF])) []; F id []]) /\
    p_refmap p = [] /\ p_smart p = false.
Definition of_runs (done : list (list li)) (prev : list li) (i : li) (kl kd : list tree) (data : option ldata) : Prop :=
  exists i0 l0 off pad, Forall2 closed_run done kd /\ prev ++ [i] = i0 :: l0 /\ data = Some (mark_data (li_mark i0) off pad) /\ Forall2 closed_item prev kl /\ same_kind (li_mark i0) (li_mark i) = true.
Lemma open_of_gen done prev i b p : open_gen (of_runs done prev i) i b p -> open_state done prev i b p.
Proof.
  intros (top & ld & kl & dd & kd & id & w & S1 & S2 & S3 & S5 & S6 & (i0 & l0 & off & pad & S4 & S7 & S8 & S9 & S10) & S11 & S12 & S13 & S14 & S15 & S16).
  exists top, ld, kl, dd, kd, i0, l0, off, pad, id, w. auto 20.
Qed.
Lemma gen_of_open done prev i b p : open_state done prev i b p -> open_gen (of_runs done prev i) i b p.
Proof.
  intros (top & ld & kl & dd & kd & i0 & l0 & off & pad & id & w & S1 & S2 & S3 & S4 & S5 & S6 & S7 & S8 & S9 & S10 & S11 & S12 & S13 & S14 & S15 & S16).
  exists top, ld, kl, dd, kd, id, w. split; [exact S1|]. split; [exact S2|]. split; [exact S3|]. split; [exact S5|]. split; [exact S6|]. split; [exists i0, l0, off, pad; auto|]. auto 10.
Qed.
Lemma words_head w : words_ok w -> exists c r, w = c :: r /\ is_space c = false /\ c <> 91%N.
Proof.
  intros (Hne & Hw & Hs). destruct w as [|c r]; [congruence|]. exists c, r. split; [reflexivity|]. split; [apply Hs; left; reflexivity|]. inversion Hw as [|x y H1 _]; subst. intros ->. apply H1. cbn. tauto.
Qed.
Lemma attach_line t f st p : same_line p (attach t (set_p_stack (f :: st) p)) /\ p_stack (attach t (set_p_stack (f :: st) p)) = F (f_data f) (f_kids f ++ [t]) :: st /\
  p_matched (attach t (set_p_stack (f :: st) p)) = p_matched p /\ p_all_closed (attach t (set_p_stack (f :: st) p)) = p_all_closed p.
Proof. unfold attach. cbn [p_stack set_p_stack]. split; [unfold same_line; cbn; auto 20|]. cbn. auto. Qed.
Lemma close_item i b top ld kl dd kd id z : words_ok (li_words i) -> followed i = b -> p_stack z = top ++ [F ld kl; F dd kd] -> item_of b id -> n_sourcepos id <> None ->
  (if b then exists pd, top = [F id [T pd []]] /\ para_of (li_words i) true pd
   else exists n j, top = [F (para_data n j (li_words i ++ [LF])) []; F id []]) ->
  p_matched z = 2 -> p_all_closed z = false ->
  exists y t, close_unmatched_blocks z = Ok y /\ p_stack y = [F ld (kl ++ [t]); F dd kd] /\ closed_item i t /\ same_line z y /\ p_all_closed y = true.
Proof.
  intros Hw Hf Es Hid Hsp Htop Em Ea. unfold close_unmatched_blocks. rewrite Ea. destruct b.
  - destruct Htop as (pd & -> & Hpd). cbn [app] in Es. rewrite Es. cbn [length close_loop]. rewrite Es, Em. cbn [length]. change (Nat.leb 3 2) with false. cbv iota.
    destruct (fin_item (p_line_number z - 1) z id [T pd []] [F ld kl; F dd kd] true Es Hid Hsp) as (d' & -> & Hd'). cbn [bind].
    destruct (attach_line (T d' [T pd []]) (F ld kl) [F dd kd] z) as (A1 & A2 & A3 & A4). set (y1 := attach _ _) in *.
    cbn [close_loop]. rewrite A2, A3, Em. cbn [length]. change (Nat.leb 2 2) with true. cbv iota. cbn [bind].
    eexists. exists (T d' [T pd []]). split; [reflexivity|]. split; [exact A2|]. split; [exists d', pd; rewrite Hf; auto|]. split; [exact A1|reflexivity].
  - destruct Htop as (n & j & ->). cbn [app] in Es. rewrite Es. cbn [length close_loop]. rewrite Es, Em. cbn [length]. change (Nat.leb 4 2) with false. cbv iota.
    destruct (words_head _ Hw) as (c & r & Ew & _ & H91). rewrite Ew in Es. cbn [app] in Es.
    destruct (fin_para (p_line_number z - 1) z n j c (r ++ [LF]) _ Es H91) as (pd & -> & P1 & P2 & P3 & P4). cbn [bind].
    destruct (attach_line (T pd []) (F id []) [F ld kl; F dd kd] z) as (A1 & A2 & A3 & A4). set (y1 := attach _ _) in *. clearbody y1.
    cbn [close_loop]. rewrite A2, A3, Em. cbn [length]. change (Nat.leb 3 2) with false. cbv iota. cbn [f_data f_kids app] in A2.
    destruct (fin_item (p_line_number y1 - 1) y1 id [T pd []] [F ld kl; F dd kd] false A2 Hid Hsp) as (d' & -> & Hd'). cbn [bind].
    destruct (attach_line (T d' [T pd []]) (F ld kl) [F dd kd] y1) as (B1 & B2 & B3 & B4). set (y2 := attach _ _) in *. clearbody y2.
    cbn [close_loop]. rewrite B2, B3, A3, Em. cbn [length]. change (Nat.leb 2 2) with true. cbv iota. cbn [bind].
    eexists. exists (T d' [T pd []]). split; [reflexivity|]. split; [exact B2|]. split; [exists d', pd; rewrite Hf; split; [reflexivity|]; split; [exact Hd'|]; split; [exact P1|]; rewrite P2, Ew; auto|]. split; [|reflexivity].
    exact (same_line_trans _ _ _ A1 B1).
Qed.
Lemma match_kind m m' a b a' b' : lists_match (Some (mark_data m a b)) (mark_data m' a' b') = same_kind m m'.
Proof. destruct m, m'; cbn; try reflexivity. apply andb_true_r. Qed.
Lemma same_kind_trans m m' m'' : same_kind m m' = true -> same_kind m' m'' = same_kind m m''.
Proof.
  destruct m, m', m''; cbn; intros H; try discriminate H; try reflexivity; apply N.eqb_eq in H as ->; reflexivity.
Qed.
Lemma same_kind_refl m : same_kind m m = true.
Proof. destruct m; apply N.eqb_refl. Qed.

(** ** The lines *)
Lemma li_facts i : li_ok i -> exists c r, li_words i = c :: r /\ is_space c = false /\ c <> 91%N /\ ~ block_char c /\ ~ In 10%N (li_words i) /\
  no_eol (li_line i) /\ replace_char 0 65533 (li_line i) = li_line i.
Proof.
  intros (H1 & H2 & H3 & H4 & H5 & H6 & H7). destruct (words_head _ H4) as (c & r & Ew & Hc & H91). exists c, r. split; [exact Ew|]. split; [exact Hc|]. split; [exact H91|]. split; [apply H5; rewrite Ew; reflexivity|].
  assert (Hall : forall x, In x (li_line i) -> x <> 10%N /\ x <> 13%N /\ x <> 0%N).
  { intros x. unfold li_line. rewrite !in_app_iff. intros [X|[X|[X|X]]].
    - apply repeat_spec in X as ->. repeat split; discriminate.
    - destruct (li_mark i) as [y|ds d]; cbn [mark_text mark_ok] in *.
      + destruct X as [<-|[]]. apply bullet_in in H2. lia.
      + destruct H2 as (_ & Hd & Hd'). apply in_app_or in X as [X|[<-|[]]]; [|lia]. rewrite Forall_forall in Hd. specialize (Hd _ X). unfold digit in Hd. lia.
    - apply repeat_spec in X as ->. repeat split; discriminate.
    - destruct H4 as (_ & Hw & _). rewrite Forall_forall in Hw. specialize (Hw x X). repeat split; intros ->; apply Hw; cbn; tauto. }
  split. { intros X. destruct (Hall 10%N) as [Y _]; [|congruence]. unfold li_line. rewrite !in_app_iff. auto. }
  split. { intros x Hx. destruct (Hall x Hx) as (A & B & _). auto. }
  unfold replace_char. rewrite <- (map_id (li_line i)) at 2. apply map_ext_in. intros x Hx. destruct (Hall x Hx) as (_ & _ & Hx0). rewrite (proj2 (N.eqb_neq x 0) Hx0). reflexivity.
Qed.
(** The state behind an item, for the three ways to open its list *)
Lemma state_item i p n j i0 l0 done prev lf dd kd off pad data : li_ok i -> 
  p_stack p = F (para_data n j (li_words i ++ [LF])) [] :: F (item_data data n (li_indent i)) [] :: unblank lf :: map unblank [F dd kd] -> 
  data = mark_data (li_mark i) (li_indent i) (length (mark_text (li_mark i)) + li_gap i) ->
  n_t dd = document -> n_sourcepos dd <> None -> Forall2 closed_run done kd -> f_type lf = list_ -> n_sourcepos (f_data lf) <> None -> prev ++ [i] = i0 :: l0 -> n_list_data (f_data lf) = Some (mark_data (li_mark i0) off pad) ->
  Forall2 closed_item prev (f_kids lf) -> same_kind (li_mark i0) (li_mark i) = true -> p_refmap p = [] -> p_smart p = false -> open_state done prev i false p.
Proof.
  intros Hi Es Ed D1 D2 D3 L1 L2 L3 L4 L5 L6 R1 R2. pose proof Hi as (H1 & H2 & H3 & _). pose proof (mark_len _ H2).
  exists [F (para_data n j (li_words i ++ [LF])) []; F (item_data data n (li_indent i)) []], (set_n_last_line_blank false (f_data lf)), (f_kids lf), (set_n_last_line_blank false dd), kd, i0, l0, off, pad, (item_data data n (li_indent i)), (li_indent i + (length (mark_text (li_mark i)) + li_gap i)).
  split; [exact Es|]. split; [exact D1|]. split; [exact D2|]. split; [exact D3|]. split; [exact L1|]. split; [exact L2|]. split; [exact L3|]. split; [exact L4|]. split; [exact L5|]. split; [exact L6|].
  split; [repeat split|]. split; [discriminate|]. split; [subst data; unfold item_indent; cbn [n_list_data item_data set_n_list_data]; destruct (li_mark i); reflexivity|]. split; [split; [lia|]; split; [reflexivity|]; split; [reflexivity|discriminate]|]. split; [exists n, j; reflexivity|]. auto.
Qed.
(** the first item *)
Lemma first_item i p d : li_ok i -> p_stack p = [F d []] -> n_t d = document -> n_sourcepos d <> None -> p_refmap p = [] -> p_smart p = false ->
  exists p', incorporate_line (li_line i) p = Ok p' /\ open_state [] [] i false p' /\ p_line_number p' = S (p_line_number p).
Proof.
  intros Hi Es Ed Hsp R1 R2. pose proof Hi as (H1 & H2 & H3 & H4 & H5 & H6 & H7). destruct (li_facts i Hi) as (c & r & Ew & Hc & H91 & Hb & H10 & _ & Erep).
  rewrite (incorporate_doc _ p d [] Es Ed), Erep. destruct (fresh_fields (li_line i) p) as (P1 & P2 & P3 & P4 & P5 & P6 & P7 & P8 & P9 & P10).
  remember (set_p_matched 1 (set_p_all_closed true (line_start (li_line i) p))) as x eqn:Z. clear Z.
  set (data := mark_data (li_mark i) (li_indent i) (length (mark_text (li_mark i)) + li_gap i)).
  destruct (item_rest (fun lf st => exists n j, lf = F (list_node data n j) [] /\ st = [F d []]) (li_line i) x 1 (F d []) document (li_indent i) (li_mark i) (li_gap i) (li_words i) c data) as (p' & lf & st & (n & j & -> & ->) & E & Q1 & Q2 & Q3 & Q4).
  - unfold block_at. rewrite P1, Es. reflexivity.
  - exact Ed.
  - left. reflexivity.
  - unfold rest_offset. rewrite P2, P3. reflexivity.
  - lia.
  - exact H2.
  - exact H3.
  - rewrite Ew. reflexivity.
  - exact Hc.
  - exact Hb.
  - exact H6.
  - exact H10.
  - exact P3.
  - exact P4.
  - exact P2.
  - reflexivity.
  - intros z (K1 & K2 & K3 & K4 & K5 & K6 & K7 & K8) _ _. exists z. unfold close_unmatched_blocks. rewrite K4, P6. unfold open_list, tip. rewrite K1, P1, Es. cbn [hd_error of_option bind]. unfold f_type. cbn [f_data]. rewrite Ed. cbn [ntype_eqb negb orb].
    unfold add_child. rewrite K1, P1, Es. cbn [length make_room]. unfold tip. rewrite K1, P1, Es. cbn [hd_error of_option bind]. unfold f_type. cbn [f_data]. rewrite Ed. change (can_contain document list_) with (Ok (A:=bool) true). cbn [bind].
    unfold on_tip. cbn [p_stack set_p_stack bind f_data f_kids set_f_data]. rewrite K1, P1, Es. eexists. eexists. eexists. split; [reflexivity|]. split; [reflexivity|]. split; [reflexivity|]. split; [unfold same_line; cbn; auto 20|]. split; [cbn; congruence|]. split; [reflexivity|]. eexists. eexists. split; reflexivity.
  - exists p'. rewrite E. split; [reflexivity|]. split; [|congruence]. eapply (state_item i p' (p_line_number x) _ i [] [] [] (F (list_node data n j) []) d [] (li_indent i) _ data); try exact Q1; try exact Hi; try exact Ed; try exact Hsp; try reflexivity; try constructor; try congruence; try discriminate.
    apply same_kind_refl.
Qed.
(** the next one *)
Lemma stack_tail top ld kl dd kd (b : bool) id i :
  (if b then exists pd, top = [F id [T pd []]] /\ para_of (li_words i) true pd else exists n j, top = [F (para_data n j (li_words i ++ [LF])) []; F id []]) ->
  exists u hk, top = u ++ [F id hk] /\ (negb (is_nil hk) || negb (is_nil (rev u))) = true /\ tl (rev (top ++ [F ld kl; F dd kd])) = F ld kl :: F id hk :: rev u /\ length (top ++ [F ld kl; F dd kd]) = 3 + length u /\
    (if b then u = [] else exists n j, u = [F (para_data n j (li_words i ++ [LF])) []]).
Proof.
  destruct b.
  - intros (pd & -> & _). exists [], [T pd []]. repeat split.
  - intros (n & j & ->). exists [F (para_data n j (li_words i ++ [LF])) []], []. repeat split. exists n, j. reflexivity.
Qed.
Lemma next_item done prev i b i' p : li_ok i -> li_ok i' -> followed i = b -> open_state done prev i b p ->
  exists p', incorporate_line (li_line i') p = Ok p' /\
    (if same_kind (li_mark i) (li_mark i') then open_state done (prev ++ [i]) i' false p' else open_state (done ++ [prev ++ [i]]) [] i' false p') /\ p_line_number p' = S (p_line_number p).
Proof.
  intros Hi Hi' Hf (top & ld & kl & dd & kd & i0 & l0 & off & pad & id & w & S1 & S2 & S3 & S4 & S5 & S6 & S7 & S8 & S9 & S10 & S11 & S12 & S13 & S14 & S15 & S16 & S17).
  pose proof Hi' as (H1 & H2 & H3 & H4 & H5 & H6 & H7). destruct (li_facts i' Hi') as (c & r & Ew & Hc & H91 & Hb & H10 & _ & Erep). assert (Hwi : words_ok (li_words i)) by apply Hi.
  destruct (stack_tail top ld kl dd kd b id i S15) as (u0 & hk & Et & Hk & Etl & Elen & Hu).
  rewrite incorporate_line_eq. cbn zeta. rewrite Erep.
  set (ln := li_line i') in *.
  assert (P : p_stack (line_start ln p) = p_stack p /\ p_line (line_start ln p) = ln /\ p_offset (line_start ln p) = 0 /\ p_column (line_start ln p) = 0 /\ p_line_number (line_start ln p) = S (p_line_number p) /\ p_refmap (line_start ln p) = p_refmap p /\ p_smart (line_start ln p) = p_smart p) by (unfold line_start; cbn; auto 10).
  remember (line_start ln p) as x eqn:Z. clear Z. destruct P as (P1 & P2 & P3 & P4 & P5 & P6 & P7). rewrite P1, S1, Etl.
  destruct (mark_head _ H2) as (x0 & r0 & Em & Hx0). assert (Hs0 : is_space x0 = false). { destruct Hx0 as [Hx|Hx]; [apply bullet_in in Hx as [-> | [-> | ->]]; reflexivity|]. assert (Hin : In x0 [48;49;50;51;52;53;54;55;56;57]%N) by (clear -Hx; unfold digit in Hx; cbn; lia). clear -Hin. repeat (destruct Hin as [<-|Hin]; [reflexivity|]). destruct Hin. }
  assert (Eln : ln = repeat SP (li_indent i') ++ x0 :: (r0 ++ repeat SP (li_gap i') ++ li_words i')) by (unfold ln, li_line; rewrite Em; reflexivity).
  cbn [descend]. destruct (fnn_at x (li_indent i') x0 (r0 ++ repeat SP (li_gap i') ++ li_words i')) as (Z0 & _ & _ & _ & _ & _ & _ & _ & Z8 & Z9 & _); [unfold rest_offset; rewrite P2, P3; exact Eln|exact Hs0|].
  remember (find_next_nonspace x) as z eqn:Z. clear Z. cbn [f_data f_kids]. unfold continue_ at 1. rewrite S5. cbn [bind].
  pose proof Z0 as (K1 & K2 & K3 & K4 & K5 & K6 & K7 & K8).
  destruct (fnn_at z (li_indent i') x0 (r0 ++ repeat SP (li_gap i') ++ li_words i')) as (W0 & W1 & W2 & W3 & W4 & W5 & _ & _ & W8 & W9 & _); [unfold rest_offset; rewrite K2, Z8, P2, P3; exact Eln|exact Hs0|].
  remember (find_next_nonspace z) as v eqn:V. clear V. unfold continue_ at 1. destruct S11 as (I1 & I2 & I3). rewrite I1, W5, S13. cbn [bind]. rewrite W3. rewrite (proj2 (Nat.leb_gt _ _)) by (clear -H1 S14; destruct S14 as [S14 _]; lia). cbn [bind].
  unfold line_rest. pose proof W0 as (V1 & V2 & V3 & V4 & V5 & V6 & V7 & V8).
  assert (Hl2 : Nat.eqb 2 (length (p_stack v)) = false) by (rewrite V1, K1, P1, S1, Elen; reflexivity). rewrite Hl2.
  set (x' := set_p_matched 2 (set_p_all_closed false v)).
  assert (X : p_stack x' = top ++ [F ld kl; F dd kd] /\ p_line x' = ln /\ p_offset x' = 0 /\ p_column x' = 0 /\ p_line_number x' = S (p_line_number p) /\ p_refmap x' = [] /\ p_smart x' = false /\ p_matched x' = 2 /\ p_all_closed x' = false).
  { unfold x'. cbn. repeat split; congruence. } remember x' as y eqn:Y. clear Y x'. destruct X as (X1 & X2 & X3 & X4 & X5 & X6 & X7 & X8 & X9).
  assert (Eb : block_at 2 y = Ok (F ld kl)). { unfold block_at. rewrite X1, Elen. replace (3 + length u0 - 2) with (length top + 0) by (rewrite Et, app_length; clear; cbn; lia). rewrite nth_error_app2 by (clear; lia). replace (length top + 0 - length top) with 0 by (clear; lia). reflexivity. }
  rewrite Eb. cbn [bind]. change (f_type (F ld kl)) with (n_t ld). rewrite S5. change (accepts_lines list_) with (Ok (A:=bool) false). cbn [bind]. rewrite andb_false_r.
  set (data := mark_data (li_mark i') (li_indent i') (length (mark_text (li_mark i')) + li_gap i')).
  destruct (item_rest (fun lf st => if same_kind (li_mark i) (li_mark i') then exists t, lf = F ld (kl ++ [t]) /\ closed_item i t /\ st = [F dd kd]
      else exists n j t, lf = F (list_node data n j) [] /\ closed_run (prev ++ [i]) t /\ st = [F dd (kd ++ [t])]) ln y 2 (F ld kl) list_ (li_indent i') (li_mark i') (li_gap i') (li_words i') c data) as (p' & lf & st & HPL & E & Q1 & Q2 & Q3 & Q4).
  - exact Eb.
  - exact S5.
  - right. reflexivity.
  - unfold rest_offset. rewrite X2, X3. reflexivity.
  - clear -H1. lia.
  - exact H2.
  - exact H3.
  - rewrite Ew. reflexivity.
  - exact Hc.
  - exact Hb.
  - exact H6.
  - exact H10.
  - exact X3.
  - exact X4.
  - exact X2.
  - reflexivity.
  - intros q (L1 & L2 & L3 & L4 & L5 & L6 & L7 & L8) _ _.
    destruct (close_item i b top ld kl dd kd id q Hwi Hf ltac:(congruence) (conj I1 (conj I2 I3)) S12 S15 ltac:(congruence) ltac:(congruence)) as (y1 & t & -> & C1 & C2 & C3 & C4).
    exists y1. unfold open_list, tip. rewrite C1. cbn [hd_error of_option bind f_data]. change (f_type (F ld (kl ++ [t]))) with (n_t ld). rewrite S5, S8. unfold data at 1. rewrite match_kind. cbn [ntype_eqb negb orb].
    rewrite <- (same_kind_trans _ _ (li_mark i') S10). destruct (same_kind (li_mark i) (li_mark i')).
    + exists y1, (F ld (kl ++ [t])), [F dd kd]. cbn [negb]. split; [reflexivity|]. split; [reflexivity|]. split; [exact C1|]. split; [exact C3|]. split; [exact C4|]. split; [exact S5|]. exists t. auto.
    + cbn [negb]. unfold add_child. rewrite C1. cbn [length make_room]. unfold tip. rewrite C1. cbn [hd_error of_option bind]. change (f_type (F ld (kl ++ [t]))) with (n_t ld). rewrite S5. change (can_contain list_ list_) with (Ok (A:=bool) false). cbn [bind].
      destruct (fin_list (p_line_number y1 - 1) y1 ld (kl ++ [t]) [F dd kd] (prev ++ [i]) i0 l0 off pad C1 S5 S6 S8 S7) as (tl' & -> & Ht). { apply Forall2_app; [exact S9|]. constructor; [exact C2|constructor]. }
      cbn [bind]. destruct (attach_line tl' (F dd kd) [] y1) as (A1 & A2 & A3 & A4). set (y2 := attach _ _) in *. clearbody y2. cbn [f_data f_kids] in A2.
      cbn [make_room]. unfold tip. rewrite A2. cbn [hd_error of_option bind]. change (f_type (F dd (kd ++ [tl']))) with (n_t dd). rewrite S2. change (can_contain document list_) with (Ok (A:=bool) true). cbn [bind].
      unfold on_tip. cbn [p_stack set_p_stack bind f_data f_kids set_f_data]. rewrite A2. eexists. eexists. eexists. split; [reflexivity|]. split; [reflexivity|]. split; [reflexivity|].
      split; [apply (same_line_trans _ _ _ C3); apply (same_line_trans _ _ _ A1); unfold same_line; cbn; auto 20|]. split; [cbn; congruence|]. split; [reflexivity|]. eexists. eexists. exists tl'. split; [reflexivity|]. auto.
  - exists p'. rewrite E. split; [reflexivity|]. split; [|congruence]. destruct (same_kind (li_mark i) (li_mark i')) eqn:Ek.
    + destruct HPL as (t & -> & Ht & ->). eapply (state_item i' p' (p_line_number y) _ i0 (l0 ++ [i']) done (prev ++ [i]) (F ld (kl ++ [t])) dd kd off pad data); try exact Q1; try exact Hi'; try reflexivity; try congruence; try assumption.
      * rewrite S7. reflexivity.
      * cbn [f_kids]. apply Forall2_app; [exact S9|]. constructor; [exact Ht|constructor].
      * rewrite (same_kind_trans _ _ (li_mark i') S10) in Ek. exact Ek.
    + destruct HPL as (n & j & t & -> & Ht & ->). eapply (state_item i' p' (p_line_number y) _ i' [] (done ++ [prev ++ [i]]) [] (F (list_node data n j) []) dd (kd ++ [t]) _ _ data); try exact Q1; try exact Hi'; try reflexivity; try congruence; try assumption; try discriminate; try constructor.
      * apply Forall2_app; [exact S4|]. constructor; [exact Ht|constructor].
      * apply same_kind_refl.
Qed.
(** a blank line *)
Lemma blank_at x l : p_line x = l -> blank_line (rest_offset x) -> p_offset x <= length l -> keeps x (find_next_nonspace x) /\ at_blank (find_next_nonspace x) /\ p_next_nonspace (find_next_nonspace x) = length l.
Proof.
  intros El Hb Ho. split; [apply keeps_fnn|]. destruct (blank_skip (rest_offset x) (p_offset x) (p_column x) Hb) as (c & Ec).
  assert (El' : p_offset x + length (rest_offset x) = length l) by (unfold rest_offset; rewrite skipn_length, El; lia). rewrite El' in Ec.
  assert (E : peek (p_line x) (length l) = None) by (unfold peek; apply nth_error_None; rewrite El; lia).
  unfold find_next_nonspace. rewrite Ec. split; [constructor|]; unfold rest_nonspace; cbn [p_blank p_line p_next_nonspace set_p_indented set_p_indent set_p_next_nonspace_column set_p_next_nonspace set_p_blank]; rewrite ?E; auto.
  rewrite El. apply skipn_all.
Qed.
Lemma blank_loop_at x l depth fu : p_line x = l -> blank_line (rest_offset x) -> p_offset x <= length l -> 1 <= depth <= length (p_stack x) ->
  exists y, starts_loop (S fu) depth x = Ok (depth, y) /\ keeps x y /\ p_blank y = true.
Proof.
  intros El Hb Eo Hd. destruct (blank_at x l El Hb Eo) as (K & B & _). cbn [starts_loop]. remember (find_next_nonspace x) as z eqn:Z. clear Z.
  assert (Hend : keeps x (advance_next_nonspace z) /\ p_blank (advance_next_nonspace z) = true) by (split; [eapply keeps_trans; [exact K|apply keeps_ann]|apply (ab_blank _ B)]).
  destruct (_ && _); [eexists; split; [reflexivity|exact Hend]|]. pose proof K as (K1 & _). unfold block_at. rewrite K1.
  destruct (nth_error (p_stack x) (length (p_stack x) - depth)) as [c|] eqn:En; [|apply nth_error_None in En; lia]. cbn [of_option bind].
  rewrite blank_tries; [|exact B|rewrite K1; destruct (p_stack x); [cbn in Hd; lia|discriminate]]. cbn [bind]. eexists. split; [reflexivity|exact Hend].
Qed.
Lemma blanks_line l : blanks l -> blank_line l.
Proof. unfold blanks, blank_line. rewrite Forall_forall. auto. Qed.
Lemma blank_gen X i b l p : li_ok i -> blank_line l -> open_gen X i b p ->
  exists p', incorporate_line l p = Ok p' /\ open_gen X i true p' /\ p_line_number p' = S (p_line_number p).
Proof.
  intros Hi Hb (top & ld & kl & dd & kd & id & w & S1 & S2 & S3 & S5 & S6 & S7 & S11 & S12 & S13 & S14 & S15 & S16 & S17).
  assert (Hwi : words_ok (li_words i)) by apply Hi. destruct (stack_tail top ld kl dd kd b id i S15) as (u0 & hk & Et & Hk & Etl & Elen & Hu).
  rewrite incorporate_line_eq. cbn zeta. rewrite (blank_replace l Hb).
  assert (P : p_stack (line_start l p) = p_stack p /\ p_line (line_start l p) = l /\ p_offset (line_start l p) = 0 /\ p_column (line_start l p) = 0 /\ p_line_number (line_start l p) = S (p_line_number p) /\ p_refmap (line_start l p) = p_refmap p /\ p_smart (line_start l p) = p_smart p) by (unfold line_start; cbn; auto 10).
  remember (line_start l p) as x eqn:Z. clear Z. destruct P as (P1 & P2 & P3 & P4 & P5 & P6 & P7). rewrite P1, S1, Etl.
  cbn [descend]. destruct (blank_at x l P2) as (Z0 & Zb & Zn); [unfold rest_offset; rewrite P2, P3; exact Hb|rewrite P3; clear; lia|].
  assert (Zo : p_offset (find_next_nonspace x) = 0). { unfold find_next_nonspace. destruct (skip_spaces _ _ _). exact P3. }
  remember (find_next_nonspace x) as z eqn:Z. clear Z. cbn [f_data f_kids]. unfold continue_ at 1. rewrite S5. cbn [bind]. pose proof Z0 as (K1 & K2 & K3 & K4 & K5 & K6 & K7 & K8).
  destruct (blank_at z l ltac:(congruence)) as (W0 & Wb & Wn); [unfold rest_offset; rewrite K2, P2, Zo; exact Hb|rewrite Zo; clear; lia|].
  remember (find_next_nonspace z) as v eqn:V. clear V. pose proof W0 as (V1 & V2 & V3 & V4 & V5 & V6 & V7 & V8).
  unfold continue_ at 1. pose proof S11 as (I1 & I2 & I3). rewrite I1, (ab_blank _ Wb), Hk. cbn [bind].
  (* the paragraph, if it is open, does not go on *)
  assert (D : exists y, descend (rev u0) 3 (advance_next_nonspace v) = Ok (Some 3, y) /\ keeps v y /\ p_offset y = length l).
  { assert (Ho : p_offset (advance_next_nonspace v) = length l) by exact Wn.
    destruct b.
    - subst u0. cbn [rev descend]. eexists. split; [reflexivity|]. split; [apply keeps_ann|exact Ho].
    - destruct Hu as (n & j & ->). cbn [rev app descend f_data f_kids]. 
      destruct (blank_at (advance_next_nonspace v) l) as (Y0 & Yb & Yn); [cbn; congruence|unfold rest_offset; rewrite Ho; cbn [p_line advance_next_nonspace set_p_pct set_p_column set_p_offset]; rewrite V2, K2, P2, skipn_all; intros a []|rewrite Ho; constructor|].
      assert (Yo : p_offset (find_next_nonspace (advance_next_nonspace v)) = length l). { rewrite <- Ho. unfold find_next_nonspace. destruct (skip_spaces _ _ _). reflexivity. }
      remember (find_next_nonspace (advance_next_nonspace v)) as y eqn:Y. clear Y. rewrite blank_fails; [|left; reflexivity|exact Yb]. cbn [bind]. eexists. split; [reflexivity|]. split; [|exact Yo]. eapply keeps_trans; [apply keeps_ann|exact Y0]. }
  destruct D as (y & -> & Y0 & Yo). cbn [bind]. unfold line_rest. pose proof Y0 as (Y1 & Y2 & Y3 & Y4 & Y5 & Y6 & Y7 & Y8).
  assert (Hl3 : Nat.eqb 3 (length (p_stack y)) = b). { rewrite Y1, V1, K1, P1, S1, Elen. destruct b; [subst u0; reflexivity|destruct Hu as (n & j & ->); reflexivity]. } rewrite Hl3.
  set (x' := set_p_matched 3 (set_p_all_closed b y)).
  assert (X' : p_stack x' = top ++ [F ld kl; F dd kd] /\ p_line x' = l /\ p_offset x' = length l /\ p_line_number x' = S (p_line_number p) /\ p_refmap x' = [] /\ p_smart x' = false /\ p_matched x' = 3 /\ p_all_closed x' = b).
  { unfold x'. cbn. repeat split; congruence. } remember x' as q eqn:Q. clear Q x'. destruct X' as (X1 & X2 & X3 & X5 & X6 & X7 & X8 & X9).
  assert (Eb : block_at 3 q = Ok (F id hk)). { unfold block_at. rewrite X1, Elen, Et. replace (3 + length u0 - 3) with (length u0 + 0) by (clear; lia). rewrite <- app_assoc. rewrite nth_error_app2 by (clear; lia). replace (length u0 + 0 - length u0) with 0 by (clear; lia). reflexivity. }
  rewrite Eb. cbn [bind]. change (f_type (F id hk)) with (n_t id). rewrite I1. change (accepts_lines item) with (Ok (A:=bool) false). cbn [bind]. rewrite andb_false_r. unfold line_tail.
  destruct (blank_loop_at q l 3 (length l) X2) as (q' & -> & (T1 & T2 & T3 & T4 & T5 & T6 & T7 & T8) & Tb); [unfold rest_offset; rewrite X2, X3, skipn_all; intros a []|rewrite X3; constructor|rewrite X1, Elen; clear; lia|]. cbn [bind].
  assert (Hsd : forall sl sc se dq kq, n_sourcepos id = Some (sl, sc, se) -> (let llb := true && negb (ntype_eqb (f_type (F id [T dq kq])) block_quote || ntype_eqb (f_type (F id [T dq kq])) code_block && n_is_fenced id || ntype_eqb (f_type (F id [T dq kq])) item && is_nil [T dq kq] && Nat.eqb sl (p_line_number q')) in llb) = true).
  { intros. unfold f_type. cbn [f_data]. rewrite I1. reflexivity. }
  (* closing *)
  assert (C : exists y1 pd, close_unmatched_blocks q' = Ok y1 /\ p_stack y1 = [F id [T pd []]; F ld kl; F dd kd] /\ para_of (li_words i) b pd /\ p_all_closed y1 = true /\ same_line q' y1).
  { unfold close_unmatched_blocks. rewrite T4, X9. destruct b.
    - destruct S15 as (pd & E & Hpd). exists q', pd. split; [reflexivity|]. split; [rewrite T1, X1, E; reflexivity|]. split; [exact Hpd|]. split; [congruence|apply same_line_refl].
    - destruct S15 as (n & j & E). assert (Es : p_stack q' = F (para_data n j (li_words i ++ [LF])) [] :: [F id []; F ld kl; F dd kd]) by (rewrite T1, X1, E; reflexivity).
      rewrite Es. cbn [length close_loop]. rewrite Es, T5, X8. cbn [length]. change (Nat.leb 4 3) with false. cbv iota. destruct (words_head _ Hwi) as (c & r & Ew & _ & H91). rewrite Ew in Es. cbn [app] in Es.
      destruct (fin_para (p_line_number q' - 1) q' n j c (r ++ [LF]) _ Es H91) as (pd & -> & A1 & A2 & A3 & A4). cbn [bind].
      destruct (attach_line (T pd []) (F id []) [F ld kl; F dd kd] q') as (B1 & B2 & B3 & B4). set (y1 := attach _ _) in *. clearbody y1. cbn [f_data f_kids app] in B2.
      cbn [close_loop]. rewrite B2, B3, T5, X8. cbn [length]. change (Nat.leb 3 3) with true. cbv iota. cbn [bind]. eexists. exists pd. split; [reflexivity|]. split; [exact B2|]. split; [split; [exact A1|]; rewrite A2, Ew; auto|]. split; [reflexivity|exact B1]. }
  destruct C as (y1 & pd & Ec & C1 & (G1 & G2 & G3 & G4) & Cc & (M1 & M2 & M3 & M4 & M5 & M6 & M7 & M8 & M9 & M10 & M11)).
  unfold line_end, tip. assert (Hne : p_stack q' <> []) by (rewrite T1, X1; destruct top; discriminate). destruct (p_stack q') as [|f0 st0]; [congruence|]. cbn [hd_error of_option bind]. rewrite Tb. cbn [negb]. rewrite andb_false_r. cbn [andb].
  unfold add_text. rewrite Ec. cbn [bind]. unfold tip. rewrite C1. cbn [hd_error of_option bind]. rewrite M6, Tb. cbn [f_kids f_data tl]. change (mark_last_blank [T pd []]) with [T (set_n_last_line_blank true pd) []].
  destruct (n_sourcepos id) as [[[sl sc] se]|] eqn:Esp; [|congruence]. cbn [bind]. change (f_type (F id [T pd []])) with (n_t id). rewrite I1. cbn [ntype_eqb andb orb negb is_nil]. change (accepts_lines item) with (Ok (A:=bool) false). cbn [bind].
  cbn [p_blank set_p_stack]. rewrite M6, Tb. cbn [negb]. rewrite andb_false_r. cbn [bind map].
  eexists. split; [reflexivity|]. split; [|cbn; congruence].
  exists [F (set_n_last_line_blank true id) [T (set_n_last_line_blank true pd) []]], (set_n_last_line_blank true ld), kl, (set_n_last_line_blank true dd), kd, (set_n_last_line_blank true id), w.
  split; [reflexivity|]. split; [exact S2|]. split; [exact S3|]. split; [exact S5|]. split; [exact S6|]. split; [exact S7|].
  split; [repeat split; [exact I1|exact I3]|]. split; [cbn [n_sourcepos set_n_last_line_blank]; congruence|]. split; [exact S13|]. split; [destruct S14 as (U1 & U2 & U3 & _); split; [exact U1|]; split; [exact U2|]; split; [exact U3|intros _; exact Cc]|]. split; [exists (set_n_last_line_blank true pd); split; [reflexivity|]; split; [exact G1|]; split; [exact G2|]; split; [reflexivity|exact G4]|]. split; cbn; congruence.
Qed.
Lemma blank_item done prev i b l p : li_ok i -> blank_line l -> open_state done prev i b p ->
  exists p', incorporate_line l p = Ok p' /\ open_state done prev i true p' /\ p_line_number p' = S (p_line_number p).
Proof. intros Hi Hb H. destruct (blank_gen _ i b l p Hi Hb (gen_of_open _ _ _ _ _ H)) as (p' & E & G & N). exists p'. split; [exact E|]. split; [apply open_of_gen, G|exact N]. Qed.
