(** * The invariant of the block parser *)
From Verif Require Import Base Regex Common NormRef Node Inlines Blocks RegexFacts RegexLang StrFacts Spec SpecTree TreeFacts CommonFacts StrProp EmphFacts InlineFacts InlineInv BlockFacts.
From Coq Require Import ZifyBool ZifyNat ZifyN.

Lemma last_opt_none {A} (l : list A) : last_opt l = None -> l = [].
Proof. destruct l as [|x l]; [reflexivity|]. rewrite last_opt_cons. destruct (last_opt l); discriminate. Qed.
(** ** Trees that differ only in the bookkeeping flags *)
Definition dsim (d d' : ndata) : Prop := exists a b ld,
  d' = ND (n_t d) (n_sourcepos d) a b (n_is_open d) (n_string_content d) (n_literal d) ld (n_info d) (n_destination d) (n_title d) (n_is_fenced d) (n_fence_char d) (n_fence_length d) (n_fence_offset d) (n_level d) (n_on_enter d) (n_on_exit d) (n_html_block_type d)
  /\ (ld = n_list_data d \/ ld = option_map (set_ld_tight false) (n_list_data d)).
Inductive flg : tree -> tree -> Prop :=
| flg_intro d d' k k' : dsim d d' -> Forall2 flg k k' -> flg (T d k) (T d' k').
Lemma dsim_refl d : dsim d d.
Proof. destruct d. do 3 eexists. split; [reflexivity|]. left. reflexivity. Qed.
Lemma dsim_trans a b c : dsim a b -> dsim b c -> dsim a c.
Proof.
  intros (x & y & z & -> & H) (x' & y' & z' & -> & H'). do 3 eexists. split; [reflexivity|]. cbn in H'.
  destruct H as [->| ->]; destruct H' as [->| ->]; auto. right. destruct (n_list_data a) as [[]|]; reflexivity.
Qed.
Lemma dsim_checked b d : dsim d (set_n_last_line_checked b d).
Proof. do 3 eexists. split; [reflexivity|]. left. reflexivity. Qed.
Lemma dsim_blank b d : dsim d (set_n_last_line_blank b d).
Proof. do 3 eexists. split; [reflexivity|]. left. reflexivity. Qed.
Lemma dsim_loosen d : dsim d (loosen d).
Proof. do 3 eexists. split; [reflexivity|]. right. reflexivity. Qed.
Lemma flg_refl t : flg t t.
Proof.
  induction t as [d kids IH] using tree_ind'. constructor; [apply dsim_refl|]. induction IH; constructor; auto.
Qed.
Lemma flgs_refl l : Forall2 flg l l.
Proof. induction l; constructor; [apply flg_refl|assumption]. Qed.
Lemma flg_trans : forall a b c, flg a b -> flg b c -> flg a c.
Proof.
  induction a as [d kids IH] using tree_ind'. intros b c H1 H2. inversion H1 as [d1 d2 k1 k2 D1 K1]; subst. inversion H2 as [d3 d4 k3 k4 D2 K2]; subst.
  constructor; [eapply dsim_trans; eassumption|]. clear -IH K1 K2. revert k2 k4 K1 K2.
  induction IH as [|x l Hx _ IHl]; intros k2 k4 K1 K2; inversion K1; subst; inversion K2; subst; constructor; eauto.
Qed.
Lemma flg_data t t' : flg t t' -> dsim (t_data t) (t_data t') /\ Forall2 flg (t_kids t) (t_kids t').
Proof. intros H. inversion H; subst. split; assumption. Qed.
Lemma dsim_fields d d' : dsim d d' -> n_t d' = n_t d /\ n_sourcepos d' = n_sourcepos d.
Proof. intros (a & b & ld & -> & _). split; reflexivity. Qed.
Lemma flg_fields t t' : flg t t' -> t_type t' = t_type t /\ first_line (t_data t') = first_line (t_data t) /\ last_line (t_data t') = last_line (t_data t).
Proof.
  intros H. apply flg_data in H as [H _]. apply dsim_fields in H as [H1 H2]. unfold t_type, first_line, last_line. rewrite H1, H2. auto.
Qed.
Lemma ewbl_flg t : flg t (snd (ends_with_blank_line t)).
Proof.
  induction t as [d kids IH] using tree_ind'. cbn [ends_with_blank_line].
  destruct (n_last_line_blank d); [apply flg_refl|]. destruct (negb _ && _).
  - set (f := fix on_last (ks : list tree) : bool * list tree := _).
    assert (G : Forall2 flg kids (snd (f kids))).
    { induction IH as [|x l Hx _ IHl]; [constructor|]. cbn [f]. destruct l as [|y l].
      - destruct (ends_with_blank_line x) as [r x'] eqn:E. cbn [snd] in *. constructor; [exact Hx|constructor].
      - fold f. destruct (f (y :: l)) as [r l'] eqn:E. cbn [snd] in *. constructor; [apply flg_refl|exact IHl]. }
    destruct (f kids) as [r kids']. cbn [snd] in *. constructor; [apply dsim_checked|exact G].
  - cbn [snd]. constructor; [apply dsim_checked|apply flgs_refl].
Qed.
Lemma check_subitems_flg b : forall l, Forall2 flg l (snd (check_subitems b l)).
Proof.
  induction l as [|s r IH]; cbn [check_subitems]; [constructor|]. pose proof (ewbl_flg s) as Hs. destruct (ends_with_blank_line s) as [x s'].
  cbn [snd] in Hs. destruct (x && _); cbn [snd]; [constructor; [exact Hs|apply flgs_refl]|].
  destruct (check_subitems b r) as [b' r']. cbn [snd] in *. constructor; assumption.
Qed.
Lemma check_items_flg : forall l, Forall2 flg l (snd (check_items l)).
Proof.
  induction l as [|i r IH]; cbn [check_items]; [constructor|]. pose proof (ewbl_flg i) as Hi. destruct (ends_with_blank_line i) as [x i'].
  cbn [snd] in Hi. destruct (x && _); cbn [snd]; [constructor; [exact Hi|apply flgs_refl]|].
  pose proof (check_subitems_flg (negb (is_nil r)) (t_kids i')) as Hs. destruct (check_subitems _ _) as [b1 subs]. destruct (check_items r) as [b2 r']. cbn [snd] in *.
  constructor; [|exact IH]. eapply flg_trans; [exact Hi|]. destruct i' as [d k]. cbn [t_data t_kids] in *. constructor; [apply dsim_refl|exact Hs].
Qed.
Lemma finalize_list_flg d items d' items' : finalize_list d items = (d', items') -> dsim d d' /\ Forall2 flg items items'.
Proof.
  unfold finalize_list. pose proof (check_items_flg items) as H. destruct (check_items items) as [loose its]. cbn [snd] in H.
  destruct loose; intros E; injection E as <- <-.
  - split; [apply dsim_loosen|]. destruct its as [|[di k] r]; [exact H|]. inversion H; subst. constructor; [|assumption].
    eapply flg_trans; [eassumption|]. constructor; [apply dsim_loosen|apply flgs_refl].
  - split; [apply dsim_refl|exact H].
Qed.
Lemma mark_last_blank_flg l : Forall2 flg l (mark_last_blank l).
Proof.
  unfold mark_last_blank. destruct (last_opt l) as [[d k]|] eqn:E.
  - apply last_opt_inv in E as [l' ->]. rewrite removelast_last. apply Forall2_app; [apply flgs_refl|]. constructor; [|constructor].
    constructor; [apply dsim_blank|apply flgs_refl].
  - apply last_opt_none in E as ->. constructor.
Qed.

(** ** Positions are kept *)
Definition pos_of (p : parser) :=
  (p_line p, p_line_number p, p_offset p, p_column p, p_next_nonspace p, p_next_nonspace_column p, p_indent p, p_indented p, p_blank p, p_pct p, p_matched p, p_last_line_length p, p_smart p).
Ltac posn H := let G := fresh in pose proof H as G; unfold pos_of in G; injection G; clear G; intros.

(** ** A definition has its label followed by a colon *)
Lemma label_end s m s' : ip_match reLinkLabel s = Some (m, s') -> exists g a, skipn (ip_pos s) (ip_subject s) = g ++ [93%N] ++ a /\ s' = set_ip_pos (ip_pos s + (length g + 1)) s.
Proof.
  unfold ip_match. set (r := match reLinkLabel with RSeq _ r => r | r => r end). assert (E : reLinkLabel = RSeq RBol r) by reflexivity.
  rewrite E, re_search_bol. destruct (match_at r None (skipn (ip_pos s) (ip_subject s))) as [[[g a] caps]|] eqn:Em; [|discriminate].
  intros H. apply Some_inj in H. injection H as <- <-. apply RegexLang.match_at_L in Em as [Ea HL]; [|vm_compute; reflexivity].
  assert (E2 : exists g0, g = g0 ++ [93%N]).
  { destruct HL as (g1 & g2 & -> & _ & g3 & g4 & -> & _ & (d & -> & Hd)). exists (g1 ++ g3). rewrite <- app_assoc. do 2 f_equal.
    cm_unfold_in Hd. unfold in_range in Hd. f_equal. lia. }
  destruct E2 as [g0 ->]. exists g0, a. split; [rewrite Ea, <- app_assoc; reflexivity|]. unfold rm_end. cbn [rm_group rm_before length]. rewrite app_length. cbn [length]. reflexivity.
Qed.
Lemma reference_colon subj rm s n s' rm' : parseReference subj rm s = Ok (n, s', rm') -> (n = 0 /\ rm' = rm) \/ infix [93; 58]%N subj.
Proof.
  unfold parseReference. unfold parseLinkLabel. destruct (ip_match reLinkLabel (set_ip_pos 0 (set_ip_subject subj s))) as [[m s1]|] eqn:Em.
  - apply label_end in Em as (g & a & E & ->). cbn [ip_pos ip_subject set_ip_pos set_ip_subject skipn] in E.
    destruct (peek_is 58 (set_ip_pos (ip_pos (set_ip_pos 0 (set_ip_subject subj s)) + (length g + 1)) (set_ip_pos 0 (set_ip_subject subj s)))) eqn:E58.
    + intros _. right. unfold peek_is, ip_peek in E58. cbn [ip_pos ip_subject set_ip_pos set_ip_subject] in E58. rewrite Nat.add_0_l, E in E58.
      exists g. rewrite app_assoc, nth_error_app2 in E58 by (rewrite app_length; cbn; lia). rewrite app_length in E58. cbn [length] in E58. rewrite Nat.sub_diag in E58.
      destruct a as [|c a]; [discriminate|]. cbn [nth_error] in E58. apply N.eqb_eq in E58 as ->. exists a. exact E.
    + destruct (Nat.ltb 1001 (length m)); [cbn [Nat.eqb orb]|destruct (Nat.eqb (length m) 0 || Nat.eqb (length m) 2)]; [| |rewrite E58; cbn [negb]]; intros X; apply Ok_inj in X; injection X as <- _ <-; left; split; reflexivity.
  - cbn [Nat.eqb orb]. intros X. apply Ok_inj in X. injection X as <- _ <-. left. split; reflexivity.
Qed.

Section B.
  Variable Q : N -> Prop.
  Hypothesis HQ : forall c, plain_char c -> Q c.
  Hypothesis HQc : forall c, Q c -> code_point c.
  (** the words that may occur *)
  Variable A : str -> Prop.
  Notation Qs := (Qs Q).
  Notation raises_unicode := (raises_unicode Q).
  (** nothing is defined unless "]:" may occur *)
  Definition refs_in (rm : refmap_t) : Prop := refs_ok Q rm /\ (~ A [93; 58]%N -> rm = []).
  Notation refs_ok := refs_in.
  Definition ok_str (s : str) : Prop := Qs s /\ (forall w, word w -> infix w s -> A w).
  Lemma ok_infix a s : infix a s -> ok_str s -> ok_str a.
  Proof. intros Hi [H1 H2]. split; [eapply Qs_infix; eassumption|]. intros w Hw Ha. apply H2; [exact Hw|]. eapply infix_trans; eassumption. Qed.
  Lemma ok_nil : ok_str [].
  Proof. split; [constructor|]. intros w Hw H. destruct (word_nil _ (proj1 Hw) H). Qed.
  Definition lines_ok (s : str) : Prop := s = [] \/ last_opt s = Some LF.
  Lemma Q_plain c : (0 < c)%N -> (c < 55296)%N -> Q c.
  Proof. intros H1 H2. apply HQ. unfold plain_char. lia. Qed.
  Lemma Q_LF : Q LF. Proof. apply Q_plain; reflexivity. Qed.
  Lemma Q_SP : Q SP. Proof. apply Q_plain; reflexivity. Qed.

  (** ** Data *)
  Definition ld_ok (ld : ldata) : Prop :=
    match ld_type ld with
    | bullet => ld_start ld = None /\ ld_delimiter ld = None /\ exists c, ld_bullet_char ld = Some c /\ In c [42; 43; 45]%N
    | ordered => ld_bullet_char ld = None /\ (exists n, ld_start ld = Some n /\ (n <= 999999999)%N) /\ exists c, ld_delimiter ld = Some c /\ In c [46; 41]%N
    end.
  Definition common_data (d : ndata) : Prop :=
    n_destination d = None /\ n_title d = None /\ n_on_enter d = None /\ n_on_exit d = None.
  Definition kind_ok (d : ndata) : Prop :=
    match n_t d with
    | document | block_quote | thematic_break | paragraph => True
    | heading => exists n, n_level d = Some n /\ 1 <= n <= 6
    | list_ | item => exists ld, n_list_data d = Some ld /\ ld_ok ld /\ 1 <= ld_padding ld
    | code_block => n_is_fenced d = true -> exists k, n_fence_offset d = Some k
    | html_block => exists k, n_html_block_type d = Some k
    | _ => False
    end.
  Definition open_data (d : ndata) : Prop :=
    common_data d /\ n_literal d = None /\ n_info d = None /\ kind_ok d /\
    n_sourcepos d <> None /\ 1 <= first_line d /\
    exists s, n_string_content d = Some s /\ ok_str s /\ (n_t d <> heading -> lines_ok s).

  Definition content_ok (d : ndata) : Prop :=
    match n_t d with
    | paragraph => exists s, n_string_content d = Some s /\ ok_str s /\ (~ A [91%N] -> visible_start s)
    | heading => exists s, n_string_content d = Some s /\ ok_str s
    | code_block => (exists l, n_literal d = Some l) /\ (n_is_fenced d = true -> exists i, n_info d = Some i)
    | html_block => exists l, n_literal d = Some l
    | _ => True
    end.
  Definition in_range_of (l e : nat) (k : tree) : Prop :=
    l <= first_line (t_data k) /\ last_line (t_data k) <= e.
  Definition closed_node (t : tree) : Prop :=
    let 'T d kids := t in
    common_data d /\ kind_ok d /\ Forall Qs (node_strings d) /\ n_sourcepos d <> None /\
    1 <= first_line d /\ first_line d <= last_line d /\
    Forall (fun k => block_holds (n_t d) (t_type k) = true /\ in_range_of (first_line d) (last_line d) k) kids /\
    (n_t d = list_ -> kids <> []) /\ content_ok d.
  Definition closed := tree_every closed_node.

  Lemma dsim_closed d d' k k' : dsim d d' -> Forall2 flg k k' -> closed_node (T d k) -> closed_node (T d' k').
  Proof.
    intros Hd Hk (H1 & H2 & H3 & H4 & H5 & H6 & H7 & H8 & H9). pose proof Hd as Hd'. destruct Hd' as (a & b & ld & -> & Hld).
    split; [exact H1|]. split.
    { unfold kind_ok in *. cbn [n_t n_level n_is_fenced n_fence_offset n_html_block_type n_list_data] in *.
      destruct (n_t d); try exact H2; destruct H2 as (x & Hx & Hx'); rewrite Hx in Hld; cbn in Hld; destruct Hld as [->| ->]; eexists; (split; [reflexivity|exact Hx']). }
    split; [exact H3|]. split; [exact H4|]. split; [exact H5|]. split; [exact H6|]. split; [|split; [|exact H9]].
    - cbn [n_t]. clear -H7 Hk. change (first_line (ND _ _ _ _ _ _ _ _ _ _ _ _ _ _ _ _ _ _ _)) with (first_line d). change (last_line (ND _ _ _ _ _ _ _ _ _ _ _ _ _ _ _ _ _ _ _)) with (last_line d).
      induction Hk as [|x y l l' Hxy _ IH]; [constructor|]. inversion H7 as [|x0 l0 Hx Hl]; subst. constructor; [|auto].
      unfold in_range_of in *. apply flg_fields in Hxy as (-> & -> & ->). exact Hx.
    - cbn [n_t]. intros E. apply H8 in E. destruct Hk; congruence.
  Qed.
  Lemma flg_closed : forall t t', flg t t' -> closed t -> closed t'.
  Proof.
    unfold closed. induction t as [d kids IH] using tree_ind'. intros t' H Hc. inversion H as [d1 d2 k1 k2 D1 K1]; subst.
    apply tree_every_unfold in Hc as [Hc1 Hc2]. apply tree_every_unfold. split; [eapply dsim_closed; eassumption|].
    clear -IH K1 Hc2. revert k2 K1. induction IH as [|x l Hx _ IHl]; intros k2 K1; inversion K1; subst; [constructor|]. inversion Hc2; subst. constructor; auto.
  Qed.

  (** ** The stack *)
  Definition kid_ok (ty : ntype) (l e : nat) (k : tree) : Prop :=
    closed k /\ block_holds ty (t_type k) = true /\ in_range_of l e k.
  Definition fr_ok (E : nat) (fr : frame) : Prop :=
    open_data (f_data fr) /\ Forall (kid_ok (f_type fr) (first_line (f_data fr)) E) (f_kids fr).
  Fixpoint stack_ok (E : nat) (st : list frame) : Prop :=
    match st with
    | [] => False
    | fr :: st' =>
        fr_ok E fr /\
        match st' with
        | [] => f_type fr = document /\ first_line (f_data fr) = 1
        | par :: _ => block_holds (f_type par) (f_type fr) = true /\ first_line (f_data par) <= first_line (f_data fr) /\ stack_ok E st'
        end
    end.
  Definition starts_le (m : nat) (st : list frame) : Prop :=
    Forall (fun fr => f_type fr = document \/ first_line (f_data fr) <= m) st.
  Definition ready (fr : frame) : Prop :=
    (f_type fr = list_ -> f_kids fr <> []) /\
    (f_type fr = code_block -> n_is_fenced (f_data fr) = true -> n_string_content (f_data fr) <> Some []) /\
    (f_type fr = paragraph -> ~ A [91%N] -> forall s, n_string_content (f_data fr) = Some s -> visible_start s).
  Definition tip_ok (p : parser) : Prop := match p_stack p with fr :: _ => ready fr | [] => False end.
  Definition unicode_err (e : exn) : Prop := e = UnicodeEncodeError /\ raises_unicode.

  Lemma kid_ok_mono ty l e e' k : e <= e' -> kid_ok ty l e k -> kid_ok ty l e' k.
  Proof. intros H (H1 & H2 & H3 & H4). split; [exact H1|]. split; [exact H2|]. split; [exact H3|lia]. Qed.
  Lemma fr_ok_mono e e' fr : e <= e' -> fr_ok e fr -> fr_ok e' fr.
  Proof. intros H [H1 H2]. split; [exact H1|]. eapply Forall_impl; [|exact H2]. intros k. apply kid_ok_mono, H. Qed.
  Lemma stack_ok_mono e e' st : e <= e' -> stack_ok e st -> stack_ok e' st.
  Proof.
    intros H. induction st as [|fr st IH]; cbn [stack_ok]; [auto|]. intros [H1 H2]. split; [eapply fr_ok_mono; eassumption|].
    destruct st as [|par st]; [exact H2|]. destruct H2 as (H2 & H3 & H4). auto.
  Qed.
  Lemma starts_le_mono a b st : a <= b -> starts_le a st -> starts_le b st.
  Proof. intros H. apply Forall_impl. intros fr [G|G]; [left; exact G|right; lia]. Qed.
  Lemma stack_ok_hd E fr st : stack_ok E (fr :: st) -> fr_ok E fr.
  Proof. intros [H _]. exact H. Qed.
  Lemma stack_ok_tl E fr par st : stack_ok E (fr :: par :: st) -> stack_ok E (par :: st).
  Proof. intros [_ (_ & _ & H)]. exact H. Qed.
  Lemma not_doc E fr par st : stack_ok E (fr :: par :: st) -> f_type fr <> document.
  Proof. intros [_ (H & _ & _)] E'. rewrite E' in H. destruct (f_type par); discriminate. Qed.
  (** replacing the tip *)
  Lemma stack_ok_replace E fr fr' st : stack_ok E (fr :: st) -> fr_ok E fr' -> f_type fr' = f_type fr -> first_line (f_data fr') = first_line (f_data fr) -> stack_ok E (fr' :: st).
  Proof. cbn [stack_ok]. intros [H1 H2] H3 H4 H5. split; [exact H3|]. rewrite H4, H5. exact H2. Qed.
  Lemma starts_le_replace m fr fr' st : starts_le m (fr :: st) -> f_type fr' = f_type fr -> first_line (f_data fr') = first_line (f_data fr) -> starts_le m (fr' :: st).
  Proof. intros H E1 E2. inversion H as [|x l H1 H2]; subst. constructor; [|exact H2]. rewrite E1, E2. exact H1. Qed.
  Lemma stack_ok_push E fr st par st0 : st = par :: st0 -> stack_ok E st -> fr_ok E fr -> block_holds (f_type par) (f_type fr) = true -> first_line (f_data par) <= first_line (f_data fr) -> stack_ok E (fr :: st).
  Proof. intros -> H1 H2 H3 H4. split; [exact H2|]. auto. Qed.

  (** ** Definitions at the start of a paragraph *)
  Lemma bracket_in content : ok_str content -> opt_is 91 (peek content 0) = true -> A [91%N].
  Proof.
    intros [_ H] E. apply H; [split; [discriminate|split; intros [G|[]]; discriminate]|]. unfold opt_is, peek in E. destruct content as [|c r]; [discriminate|]. cbn in E. apply N.eqb_eq in E as ->. exists [], r. reflexivity.
  Qed.
  Lemma ref_loop_spec : forall f content found s rm, length content < f -> ok_str content -> refs_ok rm ->
    match ref_loop f content found s rm with
    | Ok (c, _, s', rm') => (exists n, c = skipn n content /\ (~ A [91%N] -> n = 0)) /\ refs_ok rm' /\ ip_smart s' = ip_smart s
    | Err e => unicode_err e
    end.
  Proof.
    induction f as [|f IH]; intros content found s rm Hf Hc Hr; [lia|]. cbn [ref_loop].
    destruct (opt_is 91 (peek content 0)) eqn:Ep.
    - pose proof (parseReference_spec Q HQ HQc content rm s (proj1 Hc) (proj1 Hr)) as H. destruct (parseReference content rm s) as [[[n s'] rm']|e] eqn:Epr; cbn [bind].
      + destruct H as (H1 & H2' & H3 & _).
        assert (H2 : refs_ok rm').
        { split; [exact H2'|]. intros HA. destruct (reference_colon _ _ _ _ _ _ Epr) as [[_ ->]|Hi]; [exact (proj2 Hr HA)|]. exfalso. apply HA, (proj2 Hc); [|exact Hi].
          split; [discriminate|]. unfold SP, LF. cbn. split; intuition discriminate. }
        clear H2'. destruct (Nat.eqb_spec n 0) as [->|Hn].
        * split; [exists 0; split; reflexivity|]. auto.
        * assert (Hlen : length (skipn n content) < f) by (rewrite skipn_length; lia).
          pose proof (IH (skipn n content) true s' rm' Hlen (ok_infix _ _ (infix_skipn n content) Hc) H2) as G.
          destruct (ref_loop f (skipn n content) true s' rm') as [[[[c b] s2] rm2]|e]; [|exact G].
          destruct G as ((k & -> & _) & G2 & G3). split; [exists (k + n); rewrite skipn_skipn; split; [reflexivity|intros HA; destruct (HA (bracket_in content Hc Ep))]|]. split; [exact G2|congruence].
      + exact H.
    - split; [exists 0; split; reflexivity|]. auto.
  Qed.
  Lemma strip_refs_spec content p : ok_str content -> refs_ok (p_refmap p) ->
    match strip_refs content p with
    | Ok (c, _, q) => (exists n, c = skipn n content /\ (~ A [91%N] -> n = 0)) /\ refs_ok (p_refmap q) /\ pos_of q = pos_of p /\ p_all_closed q = p_all_closed p /\ p_stack q = p_stack p /\ p_doc q = p_doc p
    | Err e => unicode_err e
    end.
  Proof.
    intros Hc Hr. unfold strip_refs. pose proof (ref_loop_spec (S (length content)) content false (p_ip p) (p_refmap p) ltac:(lia) Hc Hr) as H.
    destruct (ref_loop _ _ _ _ _) as [[[[c b] s'] rm']|e]; cbn [bind]; [|exact H]. destruct H as (H1 & H2 & _).
    split; [exact H1|]. split; [exact H2|]. repeat split.
  Qed.
  Lemma lines_ok_skipn n s : lines_ok s -> lines_ok (skipn n s).
  Proof.
    unfold lines_ok. intros [->|H]; [left; apply skipn_nil|]. destruct (skipn n s) as [|c r] eqn:E; [left; reflexivity|right].
    rewrite <- (firstn_skipn n s), E in H. rewrite last_opt_app in H. destruct (last_opt (c :: r)) eqn:E2; [exact H|]. apply last_opt_none in E2. discriminate.
  Qed.

  (** ** Closing the tip *)
  Lemma index_of_some c : forall s : str, In c s -> exists i, index_of c s = Some i.
  Proof.
    induction s as [|x s IH]; [intros []|]. cbn [index_of]. intros [->|H]; [rewrite N.eqb_refl; eauto|].
    destruct (N.eqb x c); [eauto|]. destruct (IH H) as [i ->]. cbn. eauto.
  Qed.
  Lemma last_In (s : str) c : last_opt s = Some c -> In c s.
  Proof. intros H. apply last_opt_inv in H as [l ->]. apply in_or_app. right. left. reflexivity. Qed.
  Lemma opt_strings (d : ndata) : common_data d -> forall a b c, n_string_content d = a -> n_literal d = b -> n_info d = c ->
    (forall s, a = Some s -> Qs s) -> (forall s, b = Some s -> Qs s) -> (forall s, c = Some s -> Qs s) -> Forall Qs (node_strings d).
  Proof.
    intros (H1 & H2 & H3 & H4) a b c Ea Eb Ec Ha Hb Hc. unfold node_strings. rewrite H1, H2, H3, H4, Ea, Eb, Ec. cbn [flat_map app].
    rewrite !app_nil_r. repeat (apply Forall_app; split); [destruct a|destruct b|destruct c]; cbn; repeat constructor; auto.
  Qed.

  (** the data of the closed tip *)
  Definition ended (a x : nat) (d : ndata) : ndata :=
    match n_sourcepos d with
    | Some (sp0, _) => set_n_sourcepos (Some (sp0, (a, x))) (set_n_is_open false d)
    | None => d
    end.
  Lemma attach_stack t p : pos_of (attach t p) = pos_of p /\ p_all_closed (attach t p) = p_all_closed p /\ p_refmap (attach t p) = p_refmap p /\ p_ip (attach t p) = p_ip p.
  Proof. unfold attach. destruct (p_stack p); repeat split. Qed.

  Definition closes_to (a E : nat) (p q : parser) (fr : frame) (st : list frame) : Prop :=
    pos_of q = pos_of p /\ p_all_closed q = p_all_closed p /\ refs_ok (p_refmap q) /\
    match st with
    | [] => p_stack q = [] /\ exists t, p_doc q = Some t /\ closed t /\ t_type t = document /\ last_line (t_data t) = a
    | par :: st' => exists extra, p_stack q = F (f_data par) (f_kids par ++ extra) :: st' /\
        Forall (kid_ok (f_type par) (first_line (f_data par)) a) extra /\ (f_type par = list_ -> extra <> [])
    end.
  Lemma closes_attach a E p q d kids fr st :
    pos_of q = pos_of p -> p_all_closed q = p_all_closed p -> p_stack q = st -> refs_ok (p_refmap q) ->
    stack_ok E (fr :: st) -> E <= a -> closed (T d kids) -> n_t d = f_type fr -> first_line d = first_line (f_data fr) -> last_line d = a ->
    closes_to a E p (attach (T d kids) q) fr st.
  Proof.
    intros H1 H2 H3 H4 H5 H6 H7 H8 H9 H10. destruct (attach_stack (T d kids) q) as (A1 & A2 & A3 & A4).
    split; [congruence|]. split; [congruence|]. split; [rewrite A3; exact H4|]. destruct st as [|par st].
    - unfold attach. rewrite H3. split; [exact H3|]. exists (T d kids). split; [reflexivity|]. split; [exact H7|].
      destruct H5 as [_ [H5 _]]. split; [unfold t_type; cbn [t_data]; congruence|exact H10].
    - destruct H5 as [_ (B1 & B2 & _)]. unfold attach. rewrite H3. exists [T d kids]. split; [reflexivity|]. split; [|intros _; discriminate].
      constructor; [|constructor]. split; [exact H7|]. unfold t_type, in_range_of. cbn [t_data]. rewrite H8, H9, H10. auto.
  Qed.

  Lemma finalize_tip_spec a E p fr st : p_stack p = fr :: st -> stack_ok E (fr :: st) -> E <= a -> first_line (f_data fr) <= a -> ready fr -> refs_ok (p_refmap p) ->
    match finalize_tip a p with
    | Ok q => closes_to a E p q fr st
    | Err e => unicode_err e
    end.
  Proof.
    intros Es Hst HE Hfl Hrd Hrm. unfold finalize_tip. rewrite Es.
    pose proof (stack_ok_hd _ _ _ Hst) as [(C1 & C2 & C3 & C4 & C5 & C6 & (sc & C7 & C8 & C9)) Hk].
    set (d0 := f_data fr) in *. cbn [n_sourcepos set_n_is_open]. destruct (n_sourcepos d0) as [[sp0 e0]|] eqn:Esp; [|congruence]. cbn [of_option bind].
    set (d := set_n_sourcepos (Some (sp0, (a, p_last_line_length p))) (set_n_is_open false d0)).
    assert (Ety : n_t d = f_type fr) by reflexivity.
    assert (Efl : first_line d = first_line d0) by (unfold first_line; rewrite Esp; reflexivity).
    assert (Ell : last_line d = a) by (unfold last_line, d; cbn; destruct sp0; reflexivity).
    assert (Hkids : forall n, Forall (fun k => block_holds n (t_type k) = true /\ in_range_of (first_line d0) a k) (f_kids fr) <-> Forall (fun k => block_holds n (t_type k) = true /\ in_range_of (first_line d0) a k) (f_kids fr)) by reflexivity.
    clear Hkids.
    assert (Hks : Forall (fun k => block_holds (f_type fr) (t_type k) = true /\ in_range_of (first_line d0) a k) (f_kids fr)).
    { eapply Forall_impl; [|exact Hk]. intros k Hk0. apply (kid_ok_mono _ _ _ a) in Hk0; [|exact HE]. destruct Hk0 as (_ & Hk1 & Hk2). auto. }
    assert (Hcl : Forall closed (f_kids fr)) by (eapply Forall_impl; [|exact Hk]; intros k [Hk0 _]; exact Hk0).
    (* a closed node from data agreeing with d *)
    assert (Hmk : forall d', n_t d' = f_type fr -> n_sourcepos d' = n_sourcepos d -> common_data d' -> kind_ok d' -> Forall Qs (node_strings d') ->
               (n_t d' = list_ -> f_kids fr <> []) -> content_ok d' -> closed (T d' (f_kids fr))).
    { intros d' E1 E2 E3 E4 E5 E6 E7. apply tree_every_unfold. split; [|exact Hcl].
      assert (F1 : first_line d' = first_line d0) by (rewrite <- Efl; unfold first_line; rewrite E2; reflexivity).
      assert (F2 : last_line d' = a) by (rewrite <- Ell; unfold last_line; rewrite E2; reflexivity).
      split; [exact E3|]. split; [exact E4|]. split; [exact E5|]. split; [rewrite E2; discriminate|]. rewrite F1, F2, E1.
      split; [exact C6|]. split; [exact Hfl|]. split; [exact Hks|]. split; [rewrite <- E1; exact E6|exact E7]. }
    assert (Hfl' : forall d', n_sourcepos d' = n_sourcepos d -> first_line d' = first_line d0 /\ last_line d' = a).
    { intros d' E2. rewrite <- Efl, <- Ell. unfold first_line, last_line. rewrite E2. auto. }
    assert (Hplain : f_type fr = document \/ f_type fr = block_quote \/ f_type fr = item \/ f_type fr = heading \/ f_type fr = thematic_break ->
        closes_to a E p (attach (T d (f_kids fr)) (set_p_stack st p)) fr st).
    { intros Hty. eapply closes_attach; try reflexivity; try eassumption.
      - apply Hmk; try reflexivity; try assumption.
        + eapply opt_strings; try reflexivity; try exact C1; intros s Hs; change (n_string_content d0 = Some s) in Hs || change (n_literal d0 = Some s) in Hs || change (n_info d0 = Some s) in Hs; [rewrite C7 in Hs; apply Some_inj in Hs as <-; apply C8|congruence|congruence].
        + intros El. exfalso. rewrite Ety in El. intuition congruence.
        + unfold content_ok. rewrite Ety. destruct Hty as [->|[->|[->|[->| ->]]]]; try exact I. exists sc. auto. }
    rewrite Ety. destruct (f_type fr) eqn:Et; try (apply Hplain; auto 6; fail); try (exfalso; unfold kind_ok in C4; change (n_t d0) with (f_type fr) in C4; rewrite Et in C4; exact C4).
    - (* list *)
      destruct (finalize_list d (f_kids fr)) as [d' items] eqn:Ef. apply finalize_list_flg in Ef as [Hd Hi].
      assert (Hc : closed (T d (f_kids fr))).
      { apply Hmk; try reflexivity; try assumption.
        + eapply opt_strings; try reflexivity; try exact C1; intros s Hs; change (n_string_content d0 = Some s) in Hs || change (n_literal d0 = Some s) in Hs || change (n_info d0 = Some s) in Hs; [rewrite C7 in Hs; apply Some_inj in Hs as <-; apply C8|congruence|congruence].
        + intros _. apply Hrd. exact Et.
        + unfold content_ok. rewrite Ety. exact I. }
      assert (Hc' : closed (T d' items)) by (eapply flg_closed; [|exact Hc]; constructor; assumption).
      apply dsim_fields in Hd as [Hd1 Hd2]. destruct (Hfl' d' Hd2) as [F1 F2].
      eapply closes_attach; try reflexivity; try eassumption.
    - (* paragraph *)
      unfold finalize_paragraph. change (n_string_content d) with (n_string_content d0). rewrite C7. cbn [of_option bind].
      pose proof (strip_refs_spec sc (set_p_stack st p) C8 Hrm) as H. destruct (strip_refs sc (set_p_stack st p)) as [[[c found] q]|e]; cbn [bind]; [|exact H].
      destruct H as ((n & -> & Hn0) & H2 & H3 & H4 & H5 & H6).
      assert (H3' : pos_of q = pos_of p) by (rewrite H3; reflexivity). assert (H4' : p_all_closed q = p_all_closed p) by (rewrite H4; reflexivity). assert (H5' : p_stack q = st) by (rewrite H5; reflexivity).
      destruct (found && is_blank (skipn n sc)).
      + split; [exact H3'|]. split; [exact H4'|]. split; [exact H2|]. destruct st as [|par st].
        * exfalso. destruct Hst as [_ [Hst _]]. congruence.
        * exists []. rewrite H5', app_nil_r. split; [destruct par; reflexivity|]. split; [constructor|]. intros El. exfalso.
          destruct Hst as [_ [Hst _]]. rewrite El, Et in Hst. discriminate.
      + eapply closes_attach; try eassumption; try reflexivity.
        apply Hmk; try reflexivity; try assumption.
        * eapply opt_strings; try reflexivity; try exact C1; intros s Hs.
          -- change (Some (skipn n sc) = Some s) in Hs. apply Some_inj in Hs as <-. eapply Qs_infix; [apply infix_skipn|apply C8].
          -- change (n_literal d0 = Some s) in Hs. congruence.
          -- change (n_info d0 = Some s) in Hs. congruence.
        * intros El. change (f_type fr = list_) in El. congruence.
        * unfold content_ok. change (n_t (set_n_string_content (Some (skipn n sc)) d)) with (f_type fr). rewrite Et. exists (skipn n sc). split; [reflexivity|]. split; [eapply ok_infix; [apply infix_skipn|exact C8]|]. intros HA. rewrite (Hn0 HA). destruct Hrd as (_ & _ & Hrd). apply Hrd; [exact Et|exact HA|exact C7].
    - (* code *)
      unfold finalize_code. change (n_string_content d) with (n_string_content d0). change (n_is_fenced d) with (n_is_fenced d0). rewrite C7. cbn [of_option bind].
      destruct (n_is_fenced d0) eqn:Efen.
      + assert (Hne : sc <> []). { intros ->. destruct Hrd as (_ & Hrd & _). apply Hrd; [exact Et|exact Efen|exact C7]. }
        destruct (C9 ltac:(change (n_t d0) with (f_type fr); congruence)) as [->|Hlast]; [congruence|].
        destruct (index_of_some LF sc (last_In _ _ Hlast)) as [i ->]. cbn [of_option bind].
        eapply closes_attach; try eassumption; try reflexivity.
        apply Hmk; try reflexivity; try assumption.
        * eapply opt_strings; try reflexivity; try exact C1; intros s Hs.
          -- discriminate.
          -- change (Some (skipn (i + 1) sc) = Some s) in Hs. apply Some_inj in Hs as <-. eapply Qs_infix; [apply infix_skipn|apply C8].
          -- change (Some (unescape_string (strip (firstn i sc))) = Some s) in Hs. apply Some_inj in Hs as <-. apply (unescape_string_chars Q HQ).
             eapply Qs_infix; [|apply C8]. eapply infix_trans; [apply infix_strip|apply infix_firstn].
        * intros El. change (f_type fr = list_) in El. congruence.
        * unfold content_ok. change (n_t (set_n_string_content _ _)) with (f_type fr). rewrite Et. split; [|intros _]; eexists; reflexivity.
      + eapply closes_attach; try eassumption; try reflexivity.
        apply Hmk; try reflexivity; try assumption.
        * eapply opt_strings; try reflexivity; try exact C1; intros s Hs.
          -- discriminate.
          -- change (Some (re_sub reTrailingBlank (fun _ => [LF]) sc) = Some s) in Hs. apply Some_inj in Hs as <-.
             apply (re_sub_chars Q); [|apply C8]. intros m _ _. constructor; [apply Q_LF|constructor].
          -- change (n_info d0 = Some s) in Hs. congruence.
        * intros El. change (f_type fr = list_) in El. congruence.
        * unfold content_ok. change (n_t (set_n_string_content _ _)) with (f_type fr). rewrite Et. split; [eexists; reflexivity|].
          intros G. change (n_is_fenced d0 = true) in G. congruence.
    - (* html *)
      unfold finalize_html. change (n_string_content d) with (n_string_content d0). rewrite C7. cbn [of_option bind].
      eapply closes_attach; try eassumption; try reflexivity.
      apply Hmk; try reflexivity; try assumption.
      + eapply opt_strings; try reflexivity; try exact C1; intros s Hs.
        * discriminate.
        * change (Some (re_sub reTrailingBlank (fun _ => []) sc) = Some s) in Hs. apply Some_inj in Hs as <-.
          apply (re_sub_chars Q); [|apply C8]. intros m _ _. constructor.
        * change (n_info d0 = Some s) in Hs. congruence.
      + intros El. change (f_type fr = list_) in El. congruence.
      + unfold content_ok. change (n_t (set_n_string_content _ _)) with (f_type fr). rewrite Et. eexists; reflexivity.
  Qed.
End B.
