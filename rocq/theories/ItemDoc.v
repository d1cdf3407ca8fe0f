(** * Blocks under a list item: C55 *)
From Verif Require Import Base Regex Common NormRef Node Inlines Blocks Html Main RegexFacts StrFacts Spec SpecTree SpecSame SpecLines SpecParas SpecLists SpecItems
  TreeFacts CommonFacts StrProp InlineFacts InlineInv HtmlFacts RenderFacts BlockFacts BlockInv BlockRun LineFacts ParseFacts Sim SimFacts SmartFacts SameHtml DocFacts TextFacts RuleFacts WordFacts BlankFacts AfterFacts ParaFacts ParaInline ParaDoc ListLine ListDoc ListHtml EmptyLine.
From Coq Require Import ZifyBool ZifyNat ZifyN.

Definition item_smart (a b : bool) : Prop := b = a /\ b = false.
Section Item.
  Variables (i : li) (dl : nat) (LD : option ldata) (LK : list tree).
  Hypothesis Hi : li_ok i.
  Hypothesis Hfol : li_blanks i <> [].
  Let n := li_width i.
  Definition item_Rl (a b : nat) : Prop := b = a + n \/ a = 0.
  Definition item_hex (x : False) : dl = 0 /\ n = 0 /\ 2 = 0 /\ (forall a b, item_Rl a b -> b = a) := match x with end.
  Definition item_pre (a : list tree) : Prop := exists pd, a = [T pd []] /\ para_of (li_words i) true pd.
  Lemma item_pre_blank a : item_pre a -> item_pre (mark_last_blank a).
  Proof. intros (pd & -> & P1 & P2 & P3 & P4). exists (set_n_last_line_blank true pd). split; [reflexivity|]. split; [exact P1|]. split; [exact P2|]. split; [reflexivity|exact P4]. Qed.
  Lemma item_pre_ne a : item_pre a -> a <> [].
  Proof. intros (pd & -> & _). discriminate. Qed.
  Lemma n_pos : 1 <= n.
  Proof. unfold n, li_width. destruct Hi as (_ & H & _). pose proof (mark_len _ H). lia. Qed.
  Notation RLi := (RL dl n 2 LD LK item_Rl False item_smart item_pre).
  Notation R1i := (R1 dl n 2 LD LK item_Rl False item_smart item_pre).
  (** the relation between lines *)
  Definition RE (p q : parser) : Prop := RLi p q /\ 1 <= p_line_number p.

  Lemma line_length ln p p1 : incorporate_line ln p = Ok p1 -> p_last_line_length p1 = length ln.
  Proof.
    rewrite incorporate_line_eq. cbn zeta. assert (E : length (replace_char 0 65533 ln) = length ln) by apply map_length. set (l := replace_char 0 65533 ln) in *.
    destruct (descend _ _ _) as [[[m|] x]|]; cbn [bind]; [|intros H; apply Ok_inj in H as <-; exact E|discriminate].
    assert (Hend : forall x, line_end l x = Ok p1 -> p_last_line_length p1 = length ln).
    { intros y. unfold line_end. destruct (tip y) as [t|]; [|discriminate]. cbn [bind]. match goal with |- (let* p5 := ?X in _) = _ -> _ => destruct X as [z|]; [|discriminate] end. cbn [bind]. intros H. apply Ok_inj in H as <-. exact E. }
    unfold line_rest. destruct (block_at _ _) as [c|]; [|discriminate]. cbn [bind]. destruct (accepts_lines _) as [acc|]; [|discriminate]. cbn [bind]. destruct (_ && _); [apply Hend|].
    unfold line_tail. destruct (starts_loop _ _ _) as [[k y]|]; [|discriminate]. apply Hend.
  Qed.
  Lemma rl_kept p q r : RLi p q -> kept q r -> item_Rl (p_last_line_length p) (p_last_line_length r) -> RLi p r.
  Proof.
    intros [H1 H2 H3 H4 H5 H6 H7] (K1 & K2 & K3 & K4 & K5 & K6) Hl. constructor; rewrite ?K1, ?K2, ?K3, ?K4, ?K5, ?K6; assumption.
  Qed.
  Lemma item_line l l' p q : indented n l l' -> ~ In TAB l -> no_eol l -> ((forall c, In c l -> c = SP) -> l = []) -> RLi p q ->
    rrel RE (incorporate_line l p) (incorporate_line l' q).
  Proof.
    intros Hl Ht Hn Hb H.
    assert (G0 : forall q, RLi p q -> rrel R1i (incorporate_line l p) (incorporate_line (repeat SP n ++ l) q)).
    { intros q0 H0. apply (incorporate_indented dl n 2 LD LK item_Rl False item_hex item_smart item_pre item_pre_blank l p q0 eq_refl n_pos (fun a => or_introl eq_refl) item_pre_ne Ht Hn Hb H0). }
    pose proof (G0 q H) as G. clear G0.
    assert (Hr1 : forall a b, R1i a b -> RE a b) by (intros a b R; split; [eapply r1_rl, R|destruct R as [[] _ _ _ _ _]; assumption]).
    destruct Hl as [-> |[-> (j & ->)]].
    - destruct (incorporate_line l p) as [p1|e]; [|exact G]. destruct G as (q1 & E & G). exists q1. split; [exact E|]. apply Hr1, G.
    - rewrite app_nil_r in G. pose proof (l_stack _ _ _ _ _ _ _ _ _ _ _ H) as Hs. destruct (srel_path _ _ _ _ _ _ _ _ _ _ Hs) as (up & b & up' & b' & e & E1 & E2 & Hu & Hbr & He).
      destruct He as [[_ X]|[(d & _ & _ & _ & X)|(l0 & d & -> & [L1 L1'] & L2 & D1 & D2 & _)]]; [discriminate..|]. pose proof Hbr as (_ & _ & (ka & kb & Ek & Hka & _) & _ & _ & Bq). destruct (Bq eq_refl) as [Bt Bi].
      assert (Hne : f_kids b' <> []) by (rewrite Ek; pose proof (item_pre_ne _ Hka); destruct ka; [congruence|discriminate]).
      pose proof (incorporate_spaces q up' b' l0 LK d n j E2 L1 Bt Hne) as J.
      destruct (incorporate_line [] p) as [p1|e] eqn:Ep.
      + destruct G as (q1 & Eq & G). change (repeat 32%N j) with (repeat SP j). rewrite Eq in J. destruct J as (r & Er & K & Kl). exists r. split; [exact Er|].
        destruct (Hr1 _ _ G) as [G1 G2]. split; [|exact G2]. eapply rl_kept; [exact G1|exact K|]. right. apply line_length in Ep. exact Ep.
      + change (repeat 32%N j) with (repeat SP j). destruct e; cbn [rrel] in G |- *; try exact I; rewrite G in J; exact J.
  Qed.
  Lemma item_lines_sim : forall ls ls' p q, Forall2 (indented n) ls ls' -> Forall (fun l => ~ In TAB l /\ no_eol l /\ ((forall c, In c l -> c = SP) -> l = [])) ls -> RE p q ->
    rrel RE (incorporate_lines ls p) (incorporate_lines ls' q).
  Proof.
    intros ls ls' p q H. revert p q. induction H as [|l l' ls ls' Hl _ IH]; intros p q Ht Hr; cbn [incorporate_lines]; [apply rrel_ok, Hr|].
    inversion Ht as [|x y (T1 & T2 & T3) T4]; subst. eapply rrel_bind; [apply item_line; [exact Hl|exact T1|exact T2|exact T3|apply Hr]|]. intros p1 q1 H1. apply IH; assumption.
  Qed.
  Lemma item_lines_first ls ls' p q : ls <> [] -> Forall2 (indented n) ls ls' -> Forall (fun l => ~ In TAB l /\ no_eol l /\ ((forall c, In c l -> c = SP) -> l = [])) ls -> RLi p q ->
    rrel RE (incorporate_lines ls p) (incorporate_lines ls' q).
  Proof.
    intros Hne H Ht Hr. destruct H as [|l l' ls ls' Hl H]; [congruence|]. cbn [incorporate_lines].
    inversion Ht as [|x y (T1 & T2 & T3) T4]; subst. eapply rrel_bind; [apply item_line; [exact Hl|exact T1|exact T2|exact T3|exact Hr]|]. intros p1 q1 H1. apply item_lines_sim; assumption.
  Qed.
  (** closing everything does not depend on the place in the line *)
  Lemma fin_all_rel x : forall f ln z, finalize_all f ln (rel x z) = rmap (rel x) (finalize_all f ln z).
  Proof.
    induction f as [|f IH]; intros ln z; cbn [finalize_all]; change (p_stack (rel x z)) with (p_stack z); destruct (p_stack z) as [|a st]; try reflexivity.
    rewrite fin_tip_rel. destruct (finalize_tip ln z); [|reflexivity]. cbn [rmap bind]. apply IH.
  Qed.
  Lemma item_finalize ln p q f f' : f + 2 <= f' -> RE p q -> rrel (docrel dl n 2 LD LK item_Rl False item_smart item_pre) (finalize_all f ln p) (finalize_all f' (ln + dl) q).
  Proof.
    intros Hf [[H1 H2 H3 H4 H5 H6 H7] H8].
    set (a := er p). set (b := P [] None (repeat SP n) 0 n n n n 0 false true false false 0 [] 0 (p_ip q) false).
    assert (G : R1i (rel a p) (rel b q)).
    { constructor; try reflexivity. constructor; try assumption; try reflexivity; try (right; intros []; fail). exists (repeat SP n). split; [apply repeat_length|cbn; rewrite app_nil_r; reflexivity]. right. reflexivity. }
    pose proof (finalize_all_sim dl n 2 LD LK item_Rl False item_hex item_smart item_pre item_pre_blank f f' ln _ _ Hf G) as K. rewrite !fin_all_rel in K.
    destruct (finalize_all f ln p) as [p1|e]; cbn [rmap] in K.
    - destruct K as (q1 & E & K). destruct (finalize_all f' (ln + dl) q) as [q2|]; [|discriminate]. cbn [rmap] in E. apply Ok_inj in E as <-. exists q2. split; [reflexivity|exact K].
    - destruct e; cbn [rrel] in K |- *; try exact I; destruct (finalize_all f' (ln + dl) q); cbn [rmap] in K; congruence.
  Qed.
End Item.

(** ** The flag that closing a list leaves *)
Lemma own_flag d : set_n_last_line_checked (n_last_line_checked d) d = d.
Proof. destruct d; reflexivity. Qed.
Lemma su_refl t : same_unflagged t t.
Proof. induction t as [d k IH] using tree_ind'. rewrite <- (own_flag d) at 2. constructor. induction IH; constructor; assumption. Qed.
Lemma sus_refl k : Forall2 same_unflagged k k.
Proof. induction k; constructor; [apply su_refl|assumption]. Qed.
Lemma su_eqp : forall t t', same_unflagged t t' -> eqp t t'.
Proof.
  induction t as [d k IH] using tree_ind'. intros t' H. inversion H as [d1 k1 b k' Hk]; subst. rewrite <- (set_own_pos d) at 2. constructor.
  clear - IH Hk. revert k' Hk. induction IH as [|x l Hx _ IHl]; intros k' H; inversion H; subst; constructor; auto.
Qed.
(** [ends_with_blank_line] on the last child *)
Fixpoint on_last (ks : list tree) : bool * list tree :=
  match ks with
  | [] => (false, [])
  | k :: ks' =>
      match ks' with
      | [] => let '(r, k') := ends_with_blank_line k in (r, [k'])
      | _ => let '(r, l) := on_last ks' in (r, k :: l)
      end
  end.
Lemma ends_eq d kids : ends_with_blank_line (T d kids) =
  if n_last_line_blank d then (true, T d kids)
  else if negb (n_last_line_checked d) && is_list_or_item (n_t d) then let '(r, kids') := on_last kids in (r, T (set_n_last_line_checked true d) kids')
  else (false, T (set_n_last_line_checked true d) kids).
Proof. reflexivity. Qed.
Lemma ends_su : forall t, same_unflagged t (snd (ends_with_blank_line t)).
Proof.
  induction t as [d k IH] using tree_ind'. rewrite ends_eq. destruct (n_last_line_blank d); [apply su_refl|].
  destruct (negb (n_last_line_checked d) && is_list_or_item (n_t d)); [|constructor; apply sus_refl].
  assert (G : Forall2 same_unflagged k (snd (on_last k))).
  { clear -IH. induction IH as [|x l Hx _ IHl]; [constructor|]. cbn [on_last]. destruct l as [|y l].
    - destruct (ends_with_blank_line x) as [r x']. constructor; [exact Hx|constructor].
    - destruct (on_last (y :: l)) as [r l']. constructor; [apply su_refl|exact IHl]. }
  destruct (on_last k) as [r k']. constructor. exact G.
Qed.
Lemma on_last_su k : Forall2 same_unflagged k (snd (on_last k)).
Proof.
  induction k as [|x l IHl]; [constructor|]. cbn [on_last]. destruct l as [|y l].
  - pose proof (ends_su x) as Hx. destruct (ends_with_blank_line x) as [r x']. constructor; [exact Hx|constructor].
  - destruct (on_last (y :: l)) as [r l']. constructor; [apply su_refl|exact IHl].
Qed.
Lemma ends_kids pd b d : n_last_line_blank pd = true -> exists kb d', snd (ends_with_blank_line (T d (T pd [] :: b))) = T d' (T pd [] :: kb) /\ n_t d' = n_t d /\ Forall2 same_unflagged b kb.
Proof.
  intros Hp. rewrite ends_eq. destruct (n_last_line_blank d); [exists b, d; split; [reflexivity|]; split; [reflexivity|apply sus_refl]|].
  destruct (negb (n_last_line_checked d) && is_list_or_item (n_t d)); [|exists b; eexists; split; [reflexivity|]; split; [reflexivity|apply sus_refl]].
  destruct b as [|y b].
  - cbn [on_last ends_with_blank_line]. rewrite Hp. exists []. eexists. split; [reflexivity|]. split; [reflexivity|constructor].
  - change (on_last (T pd [] :: y :: b)) with (let '(r, l) := on_last (y :: b) in (r, T pd [] :: l)). pose proof (on_last_su (y :: b)) as G. destruct (on_last (y :: b)) as [r l]. exists l. eexists. split; [reflexivity|]. split; [reflexivity|exact G].
Qed.
Lemma finalize_item l it pd b : n_last_line_blank pd = true ->
  exists l' it' kb, finalize_list l [T it (T pd [] :: b)] = (l', [T it' (T pd [] :: kb)]) /\ n_t l' = n_t l /\ n_t it' = n_t it /\ Forall2 same_unflagged b kb /\
    n_list_data l' = (if is_nil b then n_list_data l else option_map (set_ld_tight false) (n_list_data l)).
Proof.
  intros Hp. destruct (ends_kids pd b it Hp) as (kb & it' & E & Et & Hk). unfold finalize_list. cbn [check_items]. destruct (ends_with_blank_line (T it (T pd [] :: b))) as [r x]. cbn [snd] in E. subst x.
  cbn [is_nil negb]. rewrite andb_false_r. cbn [t_kids t_data]. cbn [check_subitems ends_with_blank_line]. rewrite Hp. cbn [andb orb].
  destruct Hk as [|x y b kb Hx Hk]; cbn [is_nil negb check_subitems orb].
  - exists l, it', []. split; [reflexivity|]. split; [reflexivity|]. split; [exact Et|]. split; [constructor|reflexivity].
  - exists (loosen l), (loosen it'), (y :: kb). split; [reflexivity|]. split; [reflexivity|]. split; [exact Et|]. split; [constructor; assumption|reflexivity].
Qed.

(** ** Inlines *)
Lemma process_su : forall t t', same_unflagged t t' -> forall s,
  match process_inlines t s with Ok (a, s1) => exists a', process_inlines t' s = Ok (a', s1) /\ same_unflagged a a' | Err e => process_inlines t' s = Err e end.
Proof.
  induction t as [d k IH] using tree_ind'. intros t' H s. inversion H as [d1 k1 b k' Hk]; subst. rewrite !process_inlines_eq. cbn [n_t set_n_last_line_checked n_string_content].
  assert (Hgo : forall s, match process_all k s with Ok (a, s1) => exists a', process_all k' s = Ok (a', s1) /\ Forall2 same_unflagged a a' | Err e => process_all k' s = Err e end).
  { clear - IH Hk. revert k' Hk. induction IH as [|x l Hx _ IHl]; intros k' Hk s; inversion Hk as [|x0 y l0 l' Hy Hk']; subst; cbn [process_all]; [exists []; split; [reflexivity|constructor]|].
    pose proof (Hx y Hy s) as G. destruct (process_inlines x s) as [[a s1]|e]; [|rewrite G; reflexivity]. destruct G as (a' & -> & Ga). cbn [bind].
    pose proof (IHl l' Hk' s1) as G. destruct (process_all l s1) as [[la s2]|e]; [|rewrite G; reflexivity]. destruct G as (la' & -> & Gl). cbn [bind]. eexists. split; [reflexivity|]. constructor; assumption. }
  destruct (is_container (n_t d)); [|eexists; split; [reflexivity|exact H]].
  pose proof (Hgo s) as G. destruct (process_all k s) as [[a s1]|e]; [|rewrite G; reflexivity]. destruct G as (a' & -> & Ga). cbn [bind].
  destruct (ntype_eqb (n_t d) paragraph || ntype_eqb (n_t d) heading); [|eexists; split; [reflexivity|]; constructor; exact Ga].
  destruct (n_string_content d) as [c|]; cbn [of_option bind]; [|reflexivity]. destruct (parseInlines c s1) as [[i s2]|e]; cbn [bind]; [|reflexivity]. eexists. split; [reflexivity|]. constructor. apply Forall2_app; [exact Ga|apply sus_refl].
Qed.
Lemma process_sus : forall k k', Forall2 same_unflagged k k' -> forall s,
  match process_all k s with Ok (a, s1) => exists a', process_all k' s = Ok (a', s1) /\ Forall2 same_unflagged a a' | Err e => process_all k' s = Err e end.
Proof.
  intros k k' H. induction H as [|x y l l' Hx _ IH]; intros s; cbn [process_all]; [exists []; split; [reflexivity|constructor]|].
  pose proof (process_su x y Hx s) as G. destruct (process_inlines x s) as [[a s1]|e]; [|rewrite G; reflexivity]. destruct G as (a' & -> & Ga). cbn [bind].
  pose proof (IH s1) as G. destruct (process_all l s1) as [[la s2]|e]; [|rewrite G; reflexivity]. destruct G as (la' & -> & Gl). cbn [bind]. eexists. split; [reflexivity|]. constructor; assumption.
Qed.

(** ** The item line and the blank lines behind it *)
Definition fresh := set_p_matched 1 (set_p_all_closed true (reset (new_parser false))).
Lemma fresh_fields_eq : p_stack fresh = p_stack (reset (new_parser false)) /\ p_line_number fresh = 0 /\ p_all_closed fresh = true /\ p_refmap fresh = [] /\ p_last_line_length fresh = 0 /\ p_smart fresh = false /\ p_line_number (reset (new_parser false)) = 0.
Proof. vm_compute. repeat (split; [reflexivity|]). reflexivity. Qed.
Lemma fresh_lines ls : ls <> [] -> incorporate_lines ls fresh = incorporate_lines ls (reset (new_parser false)).
Proof.
  intros Hne. destruct ls as [|l ls]; [congruence|]. assert (E : length (p_stack (reset (new_parser false))) = 1) by (vm_compute; reflexivity). unfold fresh. remember (reset (new_parser false)) as p eqn:Z. clear Z. cbn [incorporate_lines]. rewrite incorporate_flags by exact E. reflexivity.
Qed.
Lemma item_start i : li_ok i -> li_blanks i <> [] -> exists q off pad, incorporate_lines (li_lines i) (reset (new_parser false)) = Ok q /\
  RL (S (length (li_blanks i))) (li_width i) 2 (Some (mark_data (li_mark i) off pad)) [] (item_Rl i) False item_smart (item_pre i) fresh q.
Proof.
  intros Hi Hb. destruct (reset_fresh false) as ((d & Es & Ed & Ep & Ec) & _). destruct (first_item i (reset (new_parser false)) d Hi Es Ed Ep eq_refl eq_refl) as (p1 & E1 & H1 & L1).
  destruct (blank_items [] [] i Hi (li_blanks i) false p1 ltac:(apply Hi) H1) as (p2 & E2 & H2 & L2).
  replace (false || negb (is_nil (li_blanks i))) with true in H2 by (destruct (li_blanks i); [congruence|reflexivity]).
  destruct H2 as (top & ld & kl & dd & kd & i0 & l0 & off & pad & id & w & S1 & S2 & S3 & S4 & S5 & S6 & S7 & S8 & S9 & S10 & S11 & S12 & S13 & (S14 & Sw & Sc & Sa) & (pd & -> & Hpd) & S16 & S17).
  cbn [app] in S7. injection S7 as <- <-. inversion S4; subst kd. inversion S9; subst kl. exists p2, off, pad. unfold li_lines. cbn [incorporate_lines]. rewrite E1. split; [exact E2|].
  destruct fresh_fields_eq as (Y1 & Y2 & Y3 & Y4 & Y5 & Y6 & Y7). rewrite Y7 in L1. assert (Hd : p_stack fresh = [F d []]) by (rewrite Y1; exact Es). remember fresh as f0 eqn:Zf. clear Zf Y1.
  constructor.
  - rewrite Hd, S1. cbn [app]. constructor.
    + split; [|split; [|split; [|split]]].
      * split; [left; exact Ed|]. split; [exact Ep|exact Ec].
      * split; [right; split; [reflexivity|apply S11]|]. split; [exact S12|exact Sc].
      * exists [T pd []], []. split; [reflexivity|]. split; [exists pd; split; [reflexivity|exact Hpd]|constructor].
      * intros [].
      * split; [discriminate|]. intros _. split; [apply S11|]. cbn [f_data]. rewrite S13, Sw. reflexivity.
    + right. right. exists ld, dd. split; [reflexivity|]. split; [split; [exact S5|exact S8]|]. split; [exact S6|]. split; [exact S2|]. split; [exact S3|reflexivity].
  - rewrite Y2, L2, L1. lia.
  - rewrite (Sa eq_refl), Y3. reflexivity.
  - rewrite Y3. discriminate.
  - rewrite Y4. exact S16.
  - rewrite Y5. right. reflexivity.
  - unfold item_smart. rewrite Y6. split; exact S17.
Qed.

(** ** Documents *)
Lemma no_blanks_eol bs : Forall blanks bs -> Forall no_eol bs.
Proof. intros H. eapply Forall_impl; [|exact H]. intros x Hb c Hc. unfold blanks in Hb. rewrite Forall_forall in Hb. specialize (Hb c Hc). split; intros ->; destruct Hb; discriminate. Qed.
Lemma item_text_lines i t : li_ok i -> t <> [] -> text_lines (li_text i ++ t) = li_lines i ++ text_lines t.
Proof.
  intros Hi Ht. replace (li_text i) with (flat_map (fun l => l ++ [10%N]) (li_lines i)) by (unfold li_lines, li_text; cbn [flat_map]; rewrite <- app_assoc; reflexivity).
  apply text_lines_before; [|exact Ht]. constructor; [destruct (li_facts i Hi) as (c & r & _ & _ & _ & _ & _ & H & _); exact H|apply no_blanks_eol, Hi].
Qed.
Lemma prel_len dl dc Rl k k' : Forall2 (prel dl dc Rl) k k' -> is_nil k = is_nil k'.
Proof. intros H. destruct H; reflexivity. Qed.
Lemma process_len : forall k s k' s', process_all k s = Ok (k', s') -> is_nil k' = is_nil k.
Proof. intros [|x k] s k' s'; cbn [process_all]; [intros H; apply Ok_inj in H; injection H as <- <-; reflexivity|]. destruct (process_inlines x s) as [[a s1]|]; [|discriminate]. cbn [bind]. destruct (process_all k s1) as [[b s2]|]; [|discriminate]. cbn [bind]. intros H. apply Ok_inj in H. injection H as <- <-. reflexivity. Qed.
Lemma words_code w s : words_ok w -> Forall code_point w -> ip_smart s = false -> refs_ok code_point (ip_refmap s) ->
  exists K s', parseInlines (w ++ [LF]) s = Ok (K, s') /\ (forall soft, shows soft K (html_text w)) /\ same_ip s s'.
Proof.
  intros Hw Hc Hs Hr. destruct (words_inlines [] w s Hw Hs) as (K & s' & E & _ & Es). exists K, s'. split; [exact E|]. split.
  - intros soft. destruct (words_inlines soft w s Hw Hs) as (K2 & s2 & E2 & H & _). rewrite E in E2. apply Ok_inj in E2. injection E2 as <- <-. exact H.
  - pose proof (parseInlines_spec code_point plain_code (fun c H => H) (w ++ [LF]) s) as G. rewrite E in G. destruct G as (_ & G1 & G2); [apply Forall_app; split; [exact Hc|constructor; [unfold code_point, LF; lia|constructor]]|exact Hr|]. split; assumption.
Qed.

Theorem item_doc i s s2 : li_ok i -> li_blanks i <> [] -> Forall code_point (li_words i) -> Forall code_point s -> plain_spaces s -> indented_text (li_width i) s s2 -> s2 <> [] ->
  match parse_doc false s with
  | Ok (T d k) => exists e l it pd K kb data, parse_doc false (li_text i ++ s2) = Ok (T e [T l [T it (T pd K :: kb)]]) /\
      n_t d = document /\ n_t e = document /\ n_t l = list_ /\ n_t it = item /\ n_t pd = paragraph /\ (forall soft, shows soft K (html_text (li_words i))) /\
      n_list_data l = Some data /\ list_head (li_mark i) data /\ ld_tight data = is_nil k /\ moved_blocks (S (length (li_blanks i))) (li_width i) k kb
  | Err x => parse_doc false (li_text i ++ s2) = Err x
  end.
Proof.
  intros Hi Hb Hw Hs [Ht Hsp] Hin Hne2. pose proof (result_total (new_parser false) s Hs) as Hf. pose proof (fun t => doc_positions false s t Hs) as Hpos. pose proof (parse_doc_facts false s) as Hty.
  pose proof (parse_blocks_spec code_point plain_code (fun c H => H) (fun w => infix w (replace_char 0 65533 s)) s (new_parser false)) as Hrf.
  assert (Hok : ok_str code_point (fun w => infix w (replace_char 0 65533 s)) (replace_char 0 65533 s)).
  { split; [|auto]. unfold replace_char. apply Forall_forall. intros x Hx. apply in_map_iff in Hx as (y & <- & Hy). rewrite Forall_forall in Hs. destruct (N.eqb y 0); [unfold code_point; lia|apply Hs, Hy]. }
  specialize (Hrf Hok). unfold parse_blocks in Hrf.
  change (parse_doc false s) with (result (parse (new_parser false) s)) in *. rewrite (parse_finish (new_parser false) s) in *.
  set (dl := S (length (li_blanks i))) in *. set (n := li_width i) in *.
  destruct (item_start i Hi Hb) as (q0 & off & pad & E0 & H0). fold dl n in H0. set (LD := Some (mark_data (li_mark i) off pad)) in *.
  assert (Hlen : length (text_lines s2) = length (input_lines s)) by (rewrite input_lines_text; unfold indented_text in Hin; apply Forall2_len in Hin; congruence).
  assert (Es' : parse_doc false (li_text i ++ s2) = let* p1 := incorporate_lines (text_lines s2) q0 in finish (length (input_lines s) + dl) p1).
  { change (parse_doc false (li_text i ++ s2)) with (result (parse (new_parser false) (li_text i ++ s2))). rewrite parse_finish, (input_lines_text (li_text i ++ s2)), item_text_lines by assumption.
    rewrite incorporate_app, E0. cbn [bind]. rewrite app_length, Hlen. unfold li_lines. cbn [length]. fold dl. rewrite Nat.add_comm. reflexivity. }
  assert (Hne : input_lines s <> []) by (rewrite input_lines_text; apply text_lines_ne).
  assert (Hlines : Forall (fun l => ~ In TAB l /\ no_eol l /\ ((forall c, In c l -> c = SP) -> l = [])) (input_lines s)).
  { rewrite input_lines_text. apply Forall_forall. intros l Hl. split; [intros G; apply Ht; eapply text_lines_incl; eassumption|]. split; [exact (proj1 (Forall_forall _ _) (text_lines_no_eol s) l Hl)|]. intros G. exact (Hsp l Hl G). }
  assert (Efr : incorporate_lines (input_lines s) fresh = incorporate_lines (input_lines s) (reset (new_parser false))).
  { apply fresh_lines, Hne. }
  rewrite (input_lines_text s) in Efr, Hne, Hlines. pose proof (item_lines_first i dl LD [] Hi (text_lines s) (text_lines s2) fresh q0 Hne Hin Hlines H0) as H. rewrite Efr in H. rewrite <- (input_lines_text s) in H, Hlines, Hne.
  destruct (incorporate_lines (input_lines s) (reset (new_parser false))) as [p1|e] eqn:E1; cbn [bind] in *; [|destruct e; cbn [rrel] in H; try (rewrite Es', H; reflexivity); congruence].
  destruct H as (q1 & E2 & H). rewrite E2 in Es'. cbn [bind] in Es'. unfold finish in *.
  pose proof (srel_len _ _ _ _ _ _ _ (item_hex i dl) _ _ _ (l_stack _ _ _ _ _ _ _ _ _ _ _ (proj1 H))) as [El _].
  pose proof (item_finalize i dl LD [] (length (input_lines s)) p1 q1 (length (p_stack p1)) (length (p_stack q1)) ltac:(lia) H) as G. fold dl in G.
  destruct (finalize_all (length (p_stack p1)) (length (input_lines s)) p1) as [p2|e] eqn:E3; cbn [bind] in *; [|destruct e; cbn [rrel] in G; try (rewrite Es', G; reflexivity); congruence].
  destruct G as (q2 & E4 & G1 & G2 & d & k & d' & k' & G3 & G4 & G5 & _ & _ & _ & [[X _]|[[X _]|(_ & l & e & I1 & (L1 & L2) & De & G9)]]); [discriminate|discriminate|].
  rewrite E4 in Es'. cbn [bind] in Es'. rewrite G9 in Es'. cbn [of_option bind] in Es'. 
  assert (Hleaf : tree_every leaf_par (T d k)) by (eapply blocks_leaf; eassumption). apply tree_every_unfold in Hleaf as [_ Hleaf].
  destruct Hrf as (t0 & Et0 & _ & _ & _ & _ & Hrefs). rewrite G3 in *. cbn [of_option bind] in *. rewrite (process_bt d k) in * by exact G4. 
  set (s0 := IP _ _ (p_refmap p2) _ _ _ _ _) in *. set (s1 := IP _ _ (p_refmap q2) _ _ _ _ _) in *.
  assert (Hip : same_ip s0 s1) by (split; [exact G1|exact (proj1 G2)]).
  assert (Hsm : ip_smart s1 = false) by exact (proj2 G2).
  destruct G5 as (a & b & -> & (pd & -> & P1 & P2 & P3 & P4) & Hkb). cbn [app] in Es'.
  destruct (finalize_item l d' pd b P3) as (l' & it' & kb & Efl & T1 & T2 & Hsu & Hld). rewrite Efl in Es'. cbn [fst snd] in Es'.
  rewrite (process_bt e) in Es' by (left; exact De). cbn [process_all] in Es'. rewrite process_inlines_eq, T1, L1 in Es'. change (is_container list_) with true in Es'. cbv iota in Es'. cbn [process_all] in Es'.
  rewrite process_inlines_eq, T2, I1 in Es'. change (is_container item) with true in Es'. cbv iota in Es'. cbn [ntype_eqb orb] in Es'.
  change (T pd [] :: kb) with ([T pd []] ++ kb) in Es'. rewrite process_all_app, (process_para pd _ s1 (or_introl P1) P2) in Es'.
  destruct (words_code (li_words i) s1 ltac:(apply Hi) Hw Hsm ltac:(cbn [ip_refmap s1]; rewrite G1; exact Hrefs)) as (K & s3 & EK & HK & Hs3). rewrite EK in Es'. cbn [bind] in Es'.
  assert (Hip3 : same_ip s0 s3) by (destruct Hip, Hs3; split; congruence).
  pose proof (process_all_sim _ _ _ k b s0 s3 Hkb Hleaf Hip3) as Gk.
  destruct (process_all k s0) as [[kf sf]|x] eqn:Ek; cbn [bind] in *.
  - destruct Gk as ([bf sb] & Eb & Gb & _). cbn [fst snd] in Gb. pose proof (process_sus b kb Hsu s3) as Gs. rewrite Eb in Gs. destruct Gs as (kbf & Ekb & Hkbf). rewrite Ekb in Es'. cbn [bind app] in Es'.
    eexists. eexists. eexists. eexists. eexists. eexists. exists (set_ld_tight (is_nil kf) (mark_data (li_mark i) off pad)). split; [exact Es'|]. pose proof (Hty _ Hs eq_refl) as (_ & Hdoc & _). split; [exact Hdoc|]. split; [exact De|]. split; [congruence|]. split; [congruence|]. split; [exact P1|]. split; [exact HK|].
    assert (Enil : is_nil kf = is_nil b) by (rewrite (process_len _ _ _ _ Ek); destruct Hkb; reflexivity).
    split; [rewrite Hld, L2, Enil; destruct (is_nil b); [destruct (li_mark i); reflexivity|reflexivity]|]. split; [destruct (li_mark i); split; reflexivity|]. split; [destruct (li_mark i); reflexivity|].
    exists bf. split; [|exact Hkbf]. specialize (Hpos _ eq_refl). apply tree_every_unfold in Hpos as [_ Hpos].
    clear - Gb Hpos. induction Gb as [|x y l l' Hx _ IH]; [constructor|]. inversion Hpos as [|a b P1 P2]; subst. constructor; [|apply IH, P2].
    eapply prel_blocks; [|exact Hx|exact P1]. intros. cbn [moved]. unfold item_Rl in *. auto.
  - pose proof (process_sus b kb Hsu s3) as Gs. destruct x; cbn [rrel] in Gk; try (rewrite Gk in Gs; rewrite Gs in Es'; exact Es'). congruence.
Qed.
