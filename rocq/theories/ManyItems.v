(** * Lists of several items with texts under each item: C59 *)
From Verif Require Import Base Regex Common NormRef Node Inlines Blocks Html Main RegexFacts StrFacts Spec SpecTree SpecSame SpecLines SpecParas SpecLists SpecItems SpecJoin SpecMany
  TreeFacts CommonFacts StrProp InlineFacts InlineInv HtmlFacts RenderFacts BlockFacts BlockInv BlockRun LineFacts ParseFacts RefMapFacts Sim SimFacts SmartFacts SameHtml DocFacts TextFacts RuleFacts WordFacts BlankFacts AfterFacts ParaFacts ParaInline ParaDoc ListLine ListDoc ListHtml EmptyLine ItemDoc ItemHtml JoinClose JoinBlocks JoinDoc.
From Coq Require Import ZifyBool ZifyNat ZifyN.

(** ** Flags *)
Lemma su_trans : forall a b c, same_unflagged a b -> same_unflagged b c -> same_unflagged a c.
Proof.
  induction a as [d k IH] using tree_ind'. intros b c H1 H2. inversion H1 as [d1 k1 b1 k2 Hk]; subst. inversion H2 as [d2 k3 b2 k4 Hk2]; subst.
  change (set_n_last_line_checked b2 (set_n_last_line_checked b1 d)) with (set_n_last_line_checked b2 d). constructor.
  clear - IH Hk Hk2. revert k2 k4 Hk Hk2. induction IH as [|x l Hx _ IHl]; intros k2 k4 Hk Hk2; inversion Hk; subst; inversion Hk2; subst; constructor; eauto.
Qed.
Lemma check_subs_su b : forall k, Forall2 same_unflagged k (snd (check_subitems b k)).
Proof.
  induction k as [|x k IH]; [constructor|]. cbn [check_subitems]. pose proof (ends_su x) as Hx. destruct (ends_with_blank_line x) as [r x']. cbn [snd] in Hx.
  destruct (_ && _); [constructor; [exact Hx|apply sus_refl]|]. destruct (check_subitems b k) as [b' r']. constructor; [exact Hx|exact IH].
Qed.
Lemma check_items_su : forall k, Forall2 same_unflagged k (snd (check_items k)).
Proof.
  induction k as [|x k IH]; [constructor|]. cbn [check_items]. pose proof (ends_su x) as Hx. destruct (ends_with_blank_line x) as [r x']. cbn [snd] in Hx.
  destruct (_ && _); [constructor; [exact Hx|apply sus_refl]|]. pose proof (check_subs_su (negb (is_nil k)) (t_kids x')) as Hs. destruct (check_subitems _ _) as [b1 subs]. destruct (check_items k) as [b2 r']. cbn [snd] in *.
  constructor; [|exact IH]. eapply su_trans; [exact Hx|]. destruct x' as [d' k']. cbn [t_kids t_data] in *. rewrite <- (own_flag d') at 2. constructor. exact Hs.
Qed.
Lemma first_loose it pd kb t r : n_last_line_blank pd = true -> fst (check_items (T it (T pd [] :: kb) :: t :: r)) = true.
Proof.
  intros Hp. cbn [check_items]. destruct (ends_kids pd kb it Hp) as (kb' & it' & E & _ & _). destruct (ends_with_blank_line (T it (T pd [] :: kb))) as [b x]. cbn [snd] in E. subst x.
  cbn [is_nil negb]. rewrite andb_true_r. destruct b; [reflexivity|]. cbn [t_kids t_data check_subitems ends_with_blank_line]. rewrite Hp. cbn [andb orb]. match goal with |- context [let '(b2, r') := ?X in _] => destruct X end. reflexivity.
Qed.

(** ** Closing an entry on the next line *)
Section Close.
  Variables (dl dc dd : nat) (LD : option ldata) (LK : list tree) (Rl : nat -> nat -> Prop) (ex : Prop).
  Hypothesis Hex : ex -> dl = 0 /\ dc = 0 /\ dd = 0 /\ (forall a b, Rl a b -> b = a).
  Variables (Rs : bool -> bool -> Prop) (Pre : list tree -> Prop).
  Hypothesis Hpre : forall k, Pre k -> Pre (mark_last_blank k).
  Definition closerel (p q : parser) : Prop :=
    p_refmap q = p_refmap p /\
    exists d k d' k' l0 d0, p_doc p = Some (T d k) /\ krel dl dc Rl Pre k k' /\ n_t d' = item /\ n_t l0 = list_ /\ n_list_data l0 = LD /\ n_sourcepos l0 <> None /\ n_t d0 = document /\ n_sourcepos d0 <> None /\
      p_stack q = [F l0 (LK ++ [T d' k']); F d0 []].
  Lemma fin_to_sim : dd = 2 -> forall f f' ln p q, f <= f' -> R1 dl dc dd LD LK Rl ex Rs Pre p q -> rrel closerel (finalize_all f ln p) (fin_to 2 f' (ln + dl) q).
  Proof.
    intros Hd. induction f as [|f IH]; intros f' ln p q Hf H; pose proof (r_stack _ _ _ _ _ _ _ _ _ _ _ (r_0 _ _ _ _ _ _ _ _ _ _ _ H)) as Hs.
    - unfold finalize_all. destruct Hs; exact I.
    - pose proof (srel_len _ _ _ _ _ _ _ Hex _ _ _ Hs) as [El El1].
      destruct f' as [|f']; [lia|]. cbn [fin_to]. assert (Nat.leb (length (p_stack q)) 2 = false) as -> by (apply Nat.leb_gt; clear - El El1 Hd; lia). cbn [finalize_all].
      inversion Hs as [b b' e Hb He E1 E2|g g' st st' Hg Hs' E1 E2].
      + rewrite <- E1 in El1. destruct Hb as ((B1 & B2 & B3) & (B1' & B2' & B3') & B4 & B5 & B6).
        destruct (finalize_bt ln p b [] (eq_sym E1) B1 B2) as (sp & x & F1 & ->). destruct (finalize_bt' dd (ln + dl) q b' e (eq_sym E2) B1' B2') as (sp' & x' & F2 & ->). cbn [bind].
        destruct He as [[_ X]|[(d0 & _ & _ & _ & X)|(l0 & d0 & -> & (L1 & L1') & L2 & D1 & D2 & _)]]; [exfalso; clear - X Hd; lia..|].
        unfold attach. cbn [p_stack set_p_stack f_data f_kids].
        assert (Ef : forall p0, p_stack p0 = [] -> finalize_all f ln p0 = Ok p0) by (intros p0 E0; destruct f; cbn [finalize_all]; rewrite E0; reflexivity). rewrite Ef by reflexivity.
        assert (Eg : forall q0, length (p_stack q0) = 2 -> fin_to 2 f' (ln + dl) q0 = Ok q0) by (intros q0 E0; destruct f'; cbn [fin_to]; rewrite E0; reflexivity). rewrite Eg by reflexivity.
        apply rrel_ok. split; [exact (r_refmap _ _ _ _ _ _ _ _ _ _ _ (r_0 _ _ _ _ _ _ _ _ _ _ _ H))|].
        eexists _, _, (set_n_sourcepos (Some (sp', (ln + dl, p_last_line_length q))) (set_n_is_open false (f_data b'))), (f_kids b'), l0, d0. split; [reflexivity|]. split; [exact B4|]. split; [exact (proj1 (proj2 B6 Hd))|]. split; [exact L1|]. split; [exact L1'|]. split; [exact L2|]. split; [exact D1|]. split; [exact D2|]. reflexivity.
      + eapply rrel_bind.
        * apply (finalize_tip_sim dl dc dd LD LK Rl ex Hex Rs Pre Hpre); [exact H|rewrite <- E1; apply (srel_len _ _ _ _ _ _ _ Hex) in Hs'; clear - Hs'; cbn; lia|reflexivity].
        * intros p1 q1 H1. apply IH; [clear - Hf; lia|exact H1].
  Qed.
End Close.
Lemma fin_to_rel m x : forall f ln z, fin_to m f ln (rel x z) = rmap (rel x) (fin_to m f ln z).
Proof.
  induction f as [|f IH]; intros ln z; cbn [fin_to]; change (p_stack (rel x z)) with (p_stack z); destruct (Nat.leb _ m); try reflexivity.
  rewrite fin_tip_rel. destruct (finalize_tip ln z); [|reflexivity]. cbn [rmap bind]. apply IH.
Qed.
Lemma entry_close i dl LD LK ln p q f f' : f <= f' -> RE i dl LD LK p q ->
  rrel (closerel dl (li_width i) LD LK (item_Rl i) (item_pre i)) (finalize_all f ln p) (fin_to 2 f' (ln + dl) q).
Proof.
  intros Hf [[H1 H2 H3 H4 H5 H6 H7] H8].
  set (n := li_width i) in *. set (a := er p). set (b := P [] None (repeat SP n) 0 n n n n 0 false true false false 0 [] 0 (p_ip q) false).
  assert (G : R1 dl n 2 LD LK (item_Rl i) False item_smart (item_pre i) (rel a p) (rel b q)).
  { constructor; try reflexivity. constructor; try assumption; try reflexivity; try (right; intros []; fail). exists (repeat SP n). split; [apply repeat_length|cbn; rewrite app_nil_r; reflexivity]. right. reflexivity. }
  pose proof (fin_to_sim dl n 2 LD LK (item_Rl i) False (item_hex i dl) item_smart (item_pre i) (item_pre_blank i) eq_refl f f' ln _ _ Hf G) as K. rewrite fin_all_rel, fin_to_rel in K.
  destruct (finalize_all f ln p) as [p1|e]; cbn [rmap] in K.
  - destruct K as (q1 & E & K). destruct (fin_to 2 f' (ln + dl) q) as [q2|]; [|discriminate]. cbn [rmap] in E. apply Ok_inj in E as <-. exists q2. split; [reflexivity|exact K].
  - destruct e; cbn [rrel] in K |- *; try exact I; destruct (fin_to 2 f' (ln + dl) q); cbn [rmap] in K; congruence.
Qed.

(** ** The lines of an entry *)
Definition same_list (LK : list tree) (LD : option ldata) (kl kd : list tree) (data : option ldata) : Prop := kl = LK /\ kd = [] /\ data = LD.
Notation open_more LK LD := (open_gen (same_list LK LD)).
Lemma blanks_gen X i : li_ok i -> forall bs b p, Forall blanks bs -> open_gen X i b p ->
  exists p', incorporate_lines bs p = Ok p' /\ open_gen X i (b || negb (is_nil bs)) p' /\ p_line_number p' = p_line_number p + length bs.
Proof.
  intros Hi. induction bs as [|l bs IH]; intros b p Hb Hp.
  - exists p. split; [reflexivity|]. rewrite orb_false_r. split; [exact Hp|cbn; lia].
  - inversion Hb as [|x y B1 B2]; subst. destruct (blank_gen X i b l p Hi (blanks_line l B1) Hp) as (p1 & E1 & H1 & L1). destruct (IH true p1 B2 H1) as (p2 & E2 & H2 & L2).
    exists p2. cbn [incorporate_lines]. rewrite E1. split; [exact E2|]. cbn [is_nil negb orb] in *. rewrite orb_true_r. split; [exact H2|cbn [length]; lia].
Qed.
Lemma gen_start i LD LK q : open_more LK LD i true q -> RL (p_line_number q) (li_width i) 2 LD LK (item_Rl i) False item_smart (item_pre i) fresh q.
Proof.
  intros (top & ld & kl & dd & kd & id & w & S1 & S2 & S3 & S5 & S6 & (-> & -> & S8) & S11 & S12 & S13 & (S14 & Sw & Sc & Sa) & (pd & -> & Hpd) & S16 & S17).
  destruct (reset_fresh false) as ((d & Es & Ed & Ep & Ec) & _). destruct fresh_fields_eq as (Y1 & Y2 & Y3 & Y4 & Y5 & Y6 & Y7). assert (Hd : p_stack fresh = [F d []]) by (rewrite Y1; exact Es). remember fresh as f0 eqn:Zf. clear Zf Y1 Es Y7.
  constructor.
  - rewrite Hd, S1. cbn [app]. constructor.
    + split; [|split; [|split; [|split]]].
      * split; [left; exact Ed|]. split; [exact Ep|exact Ec].
      * split; [right; split; [reflexivity|apply S11]|]. split; [exact S12|exact Sc].
      * exists [T pd []], []. split; [reflexivity|]. split; [exists pd; split; [reflexivity|exact Hpd]|constructor].
      * intros [].
      * split; [discriminate|]. intros _. split; [apply S11|]. cbn [f_data]. rewrite S13, Sw. reflexivity.
    + right. right. exists ld, dd. split; [reflexivity|]. split; [split; [exact S5|exact S8]|]. split; [exact S6|]. split; [exact S2|]. split; [exact S3|reflexivity].
  - rewrite Y2. reflexivity.
  - rewrite (Sa eq_refl), Y3. reflexivity.
  - rewrite Y3. discriminate.
  - rewrite Y4. exact S16.
  - rewrite Y5. right. reflexivity.
  - unfold item_smart. rewrite Y6. split; exact S17.
Qed.
Lemma plain_lines s : plain_spaces s -> Forall (fun l => ~ In TAB l /\ no_eol l /\ ((forall c, In c l -> c = SP) -> l = [])) (text_lines s).
Proof.
  intros [Ht Hsp]. apply Forall_forall. intros l Hl. split; [intros G; apply Ht; eapply text_lines_incl; eassumption|]. split; [exact (proj1 (Forall_forall _ _) (text_lines_no_eol s) l Hl)|]. intros G. exact (Hsp l Hl G).
Qed.
Lemma entry_run i s t LD LK q p1 : li_ok i -> li_blanks i <> [] -> plain_spaces s -> indented_text (li_width i) s t -> open_more LK LD i false q ->
  incorporate_lines (text_lines s) (reset (new_parser false)) = Ok p1 ->
  exists q1, incorporate_lines (li_blanks i ++ text_lines t) q = Ok q1 /\ RE i (p_line_number q + length (li_blanks i)) LD LK p1 q1.
Proof.
  intros Hi Hb Hs Hin Hq E1. destruct (blanks_gen _ i Hi (li_blanks i) false q ltac:(apply Hi) Hq) as (q0 & E0 & H0 & L0). replace (false || negb (is_nil (li_blanks i))) with true in H0 by (destruct (li_blanks i); [congruence|reflexivity]).
  apply gen_start in H0. rewrite incorporate_app, E0. cbn [bind]. rewrite <- L0.
  assert (Hne : text_lines s <> []) by apply text_lines_ne.
  pose proof (item_lines_first i (p_line_number q0) LD LK Hi (text_lines s) (text_lines t) fresh q0 Hne Hin (plain_lines s Hs) H0) as H. rewrite (fresh_lines _ Hne), E1 in H. exact H.
Qed.
Lemma width_two i : li_ok i -> 2 <= li_width i.
Proof. intros (_ & H & H3 & _). unfold li_width. pose proof (mark_len _ H). lia. Qed.

(** ** The next entry *)
Lemma next_more i dl LD LK i' m0 off pad p1 q1 p2 d k : li_ok i -> li_ok i' -> RE i dl LD LK p1 q1 -> LD = Some (mark_data m0 off pad) -> same_kind m0 (li_mark i') = true ->
  finalize_all (length (p_stack p1)) (p_line_number p1) p1 = Ok p2 -> p_doc p2 = Some (T d k) -> p_refmap p1 = [] -> p_refmap p2 = [] ->
  exists q' it pd kb, incorporate_line (li_line i') q1 = Ok q' /\ open_more (LK ++ [T it (T pd [] :: kb)]) LD i' false q' /\ n_t it = item /\ para_of (li_words i) true pd /\
    Forall2 (trel dl (li_width i) (item_Rl i)) k kb /\ p_line_number q' = S (p_line_number q1).
Proof.
  intros Hi Hi' HR HLD Hkind Efin Edoc Hr1 Hr2. pose proof HR as [[R1 R2 R3 R4 R5 R6 [_ R7]] R8].
  destruct (srel_path _ _ _ _ _ _ _ _ _ _ R1) as (up & b & up' & b' & e & E1 & E2 & Hu & Hbr & He).
  destruct He as [[_ X]|[(d0 & _ & _ & _ & X)|(ld & dd & -> & [L1 L1'] & L2 & D1 & D2 & _)]]; [discriminate..|].
  pose proof Hbr as (_ & _ & (ka & kb & Ek & Hka & _) & _ & _ & Bq). destruct (Bq eq_refl) as [Bt Bi]. clear Bq.
  pose proof Hi' as (H1 & H2 & H3 & H4 & H5 & H6 & H7). destruct (li_facts i' Hi') as (c & r & Ew & Hc & H91 & Hb & H10 & _ & Erep).
  pose proof (width_two i Hi) as Hw2. assert (Elen : length (p_stack q1) = 3 + length up') by (rewrite E2, app_length; cbn; lia).
  rewrite incorporate_line_eq. cbn zeta. rewrite Erep.
  set (ln := li_line i') in *.
  assert (P : p_stack (line_start ln q1) = p_stack q1 /\ p_line (line_start ln q1) = ln /\ p_offset (line_start ln q1) = 0 /\ p_column (line_start ln q1) = 0 /\ p_line_number (line_start ln q1) = S (p_line_number q1) /\ p_refmap (line_start ln q1) = p_refmap q1 /\ p_smart (line_start ln q1) = p_smart q1 /\ p_last_line_length (line_start ln q1) = p_last_line_length q1) by (unfold line_start; cbn; auto 10).
  remember (line_start ln q1) as x eqn:Z. clear Z. destruct P as (P1 & P2 & P3 & P4 & P5 & P6 & P7 & P8). rewrite P1. rewrite E2. rewrite rev_app_distr. cbn [rev app tl].
  destruct (mark_head _ H2) as (x0 & r0 & Em & Hx0). assert (Hs0 : is_space x0 = false). { destruct Hx0 as [Hx|Hx]; [apply bullet_in in Hx as [-> | [-> | ->]]; reflexivity|]. assert (Hin : In x0 [48;49;50;51;52;53;54;55;56;57]%N) by (clear -Hx; unfold digit in Hx; cbn; lia). clear -Hin. repeat (destruct Hin as [<-|Hin]; [reflexivity|]). destruct Hin. }
  assert (Eln : ln = repeat SP (li_indent i') ++ x0 :: (r0 ++ repeat SP (li_gap i') ++ li_words i')) by (unfold ln, li_line; rewrite Em; reflexivity).
  cbn [descend]. destruct (fnn_at x (li_indent i') x0 (r0 ++ repeat SP (li_gap i') ++ li_words i')) as (Z0 & _ & _ & _ & _ & _ & _ & _ & Z8 & Z9 & _); [unfold rest_offset; rewrite P2, P3; exact Eln|exact Hs0|].
  remember (find_next_nonspace x) as z eqn:Z. clear Z. cbn [f_data f_kids]. unfold continue_ at 1. rewrite L1. cbn [bind].
  pose proof Z0 as (K1 & K2 & K3 & K4 & K5 & K6 & K7 & K8).
  destruct (fnn_at z (li_indent i') x0 (r0 ++ repeat SP (li_gap i') ++ li_words i')) as (W0 & W1 & W2 & W3 & W4 & W5 & _ & _ & W8 & W9 & _); [unfold rest_offset; rewrite K2, Z8, P2, P3; exact Eln|exact Hs0|].
  remember (find_next_nonspace z) as v eqn:V. clear V. unfold continue_ at 1. rewrite Bt, W5, Bi. cbn [bind]. rewrite W3. rewrite (proj2 (Nat.leb_gt _ _)) by (clear -H1 Hw2; lia). cbn [bind].
  unfold line_rest. pose proof W0 as (V1 & V2 & V3 & V4 & V5 & V6 & V7 & V8).
  assert (Hl2 : Nat.eqb 2 (length (p_stack v)) = false) by (rewrite V1, K1, P1, Elen; reflexivity). rewrite Hl2.
  set (x' := set_p_matched 2 (set_p_all_closed false v)).
  assert (X : p_stack x' = p_stack q1 /\ p_line x' = ln /\ p_offset x' = 0 /\ p_column x' = 0 /\ p_line_number x' = S (p_line_number q1) /\ p_refmap x' = [] /\ p_smart x' = false /\ p_matched x' = 2 /\ p_all_closed x' = false /\ p_last_line_length x' = p_last_line_length q1).
  { unfold x'. cbn. repeat split; congruence. } remember x' as y eqn:Y. clear Y x'. destruct X as (X1 & X2 & X3 & X4 & X5 & X6 & X7 & X8 & X9 & X10).
  assert (Eb : block_at 2 y = Ok (F ld LK)). { unfold block_at. rewrite X1, E2, app_length. cbn [length]. replace (length up' + 3 - 2) with (S (length up')) by (clear; lia). change (up' ++ [b'; F ld LK; F dd []]) with (up' ++ ([b'] ++ [F ld LK; F dd []])). rewrite app_assoc, nth_error_app2 by (rewrite app_length; cbn; clear; lia). rewrite app_length. cbn [length]. replace (S (length up') - (length up' + 1)) with 0 by (clear; lia). reflexivity. }
  rewrite Eb. cbn [bind]. change (f_type (F ld LK)) with (n_t ld). rewrite L1. change (accepts_lines list_) with (Ok (A:=bool) false). cbn [bind]. rewrite andb_false_r.
  set (data := mark_data (li_mark i') (li_indent i') (length (mark_text (li_mark i')) + li_gap i')).
  destruct (item_rest (fun lf st => exists ld' dd' it pd kb, lf = F ld' (LK ++ [T it (T pd [] :: kb)]) /\ st = [F dd' []] /\ n_t it = item /\ para_of (li_words i) true pd /\ Forall2 (trel dl (li_width i) (item_Rl i)) k kb /\
      n_t ld' = list_ /\ n_list_data ld' = LD /\ n_sourcepos ld' <> None /\ n_t dd' = document /\ n_sourcepos dd' <> None) ln y 2 (F ld LK) list_ (li_indent i') (li_mark i') (li_gap i') (li_words i') c data) as (p' & lf & st & HPL & E & Q1 & Q2 & Q3 & Q4).
  - exact Eb.
  - exact L1.
  - right. reflexivity.
  - unfold rest_offset. rewrite X2, X3. reflexivity.
  - clear -H1. lia.
  - exact H2.
  - exact H3.
  - rewrite Ew. reflexivity.
  - exact Hc.
  - exact Hb.
  - exact H6.
  - exact H10.
  - exact X3.
  - exact X4.
  - exact X2.
  - reflexivity.
  - intros w (M1 & M2 & M3 & M4 & M5 & M6 & M7 & M8) _ _.
    assert (HRw : RE i dl LD LK p1 (relk q1 w)).
    { split; [|exact R8]. constructor; cbn [relk p_stack p_line_number p_all_closed p_matched p_refmap p_last_line_length p_smart].
      - rewrite M1, X1. exact R1.
      - exact R2.
      - exact R3.
      - exact R4.
      - rewrite M6, X6, Hr1. reflexivity.
      - rewrite M7, X10. exact R6.
      - exact (l_smart _ _ _ _ _ _ _ _ _ _ _ (proj1 HR)). }
    assert (Hlp : length (p_stack p1) <= length (p_stack w)).
    { rewrite M1, X1. pose proof (srel_len _ _ _ _ _ _ _ (item_hex i dl) _ _ _ R1) as [G _]. clear -G. lia. }
    pose proof (entry_close i dl LD LK (p_line_number p1) p1 (relk q1 w) (length (p_stack p1)) (length (p_stack w)) Hlp HRw) as K. rewrite Efin in K.
    destruct K as (y1 & Ey & Erm & d1 & k1 & it & k' & l0 & d0 & C1 & (ka' & kb' & -> & (pd & -> & Hpd) & Htr) & C3 & C4 & C5 & C6 & C7 & C8 & C9). rewrite Edoc in C1. injection C1 as <- <-.
    assert (Ecl : close_unmatched_blocks w = Ok (set_p_all_closed true (relk w y1))).
    { unfold close_unmatched_blocks. rewrite M4, X9, close_loop_to, M5, X8, M3, X5. replace (S (p_line_number q1) - 1) with (p_line_number p1 + dl) by (rewrite R2; clear; lia).
      replace w with (relk w (relk q1 w)) at 2 by (destruct w; reflexivity). rewrite fin_to_relk, Ey. reflexivity. }
    exists (set_p_all_closed true (relk w y1)). unfold open_list, tip. cbn [p_stack set_p_all_closed relk]. rewrite C9. cbn [hd_error of_option bind f_data]. change (f_type (F l0 (LK ++ [T it ([T pd []] ++ kb')]))) with (n_t l0). rewrite C4, C5, HLD. unfold data at 1. rewrite match_kind, Hkind. cbn [ntype_eqb negb orb].
    exists (set_p_all_closed true (relk w y1)), (F l0 (LK ++ [T it (T pd [] :: kb')])), [F d0 []]. split; [exact Ecl|]. split; [reflexivity|]. split; [exact C9|].
    split. { apply fin_to_held in Ey as [_ Ey]. unfold same_line. cbn [relk set_p_all_closed p_line p_line_number p_offset p_column p_pct p_blank p_next_nonspace p_next_nonspace_column p_refmap p_smart p_last_line_length] in *. rewrite Erm, Hr2, M6, X6, Ey. auto 20. }
    split; [reflexivity|]. split; [exact C4|]. exists l0, d0, it, pd, kb'. rewrite <- HLD. auto 20.
  - destruct HPL as (ld' & dd' & it & pd & kb1 & -> & -> & T1 & T2 & T3 & T4 & T5 & T6 & T7 & T8).
    exists p', it, pd, kb1. rewrite E. split; [reflexivity|]. split; [|repeat (split; [assumption|]); congruence].
    exists [F (para_data (p_line_number y) (li_indent i' + length (mark_text (li_mark i')) + li_gap i') (li_words i' ++ [LF])) []; F (item_data data (p_line_number y) (li_indent i')) []], (set_n_last_line_blank false ld'), (LK ++ [T it (T pd [] :: kb1)]), (set_n_last_line_blank false dd'), [], (item_data data (p_line_number y) (li_indent i')), (li_indent i' + (length (mark_text (li_mark i')) + li_gap i')).
    split; [exact Q1|]. split; [exact T7|]. split; [exact T8|]. split; [exact T4|]. split; [exact T6|]. split; [split; [reflexivity|]; split; [reflexivity|exact T5]|].
    split; [repeat split|]. split; [discriminate|]. split; [unfold data, item_indent; cbn [n_list_data item_data set_n_list_data]; destruct (li_mark i'); reflexivity|].
    split; [split; [exact (width_two i' Hi')|]; split; [reflexivity|]; split; [reflexivity|discriminate]|]. split; [eexists; eexists; reflexivity|]. split; congruence.
Qed.

(** ** What an entry leaves *)
Definition closed_entry (x : entry) (t : tree) : Prop :=
  exists dl it pd kb kb' k s0 s1 da ka, t = T it (T pd [] :: kb') /\ n_t it = item /\ n_t pd = paragraph /\ n_string_content pd = Some (li_words (en_item x) ++ [LF]) /\
    Forall2 (trel dl (li_width (en_item x)) (item_Rl (en_item x))) k kb /\ Forall2 same_unflagged kb kb' /\ Forall (tree_every leaf_par) k /\
    ip_refmap s0 = [] /\ ip_smart s0 = false /\ process_all k s0 = Ok (ka, s1) /\ same_ip s0 s1 /\ parse_doc false (en_text x) = Ok (T da ka).
Definition noted_item (t : tree) : Prop := exists it pd kb, t = T it (T pd [] :: kb) /\ n_last_line_blank pd = true.
Lemma sus_trans : forall a b c, Forall2 same_unflagged a b -> Forall2 same_unflagged b c -> Forall2 same_unflagged a c.
Proof. intros a b c H. revert c. induction H as [|x y a b Hx _ IH]; intros c Hc; inversion Hc; subst; constructor; [eapply su_trans; eassumption|auto]. Qed.
Lemma closed_su x t t' : closed_entry x t -> same_unflagged t t' -> closed_entry x t'.
Proof.
  intros (dl & it & pd & kb & kb' & k & s0 & s1 & da & ka & -> & H1 & H2 & H3 & H4 & H5 & H6) Hs. inversion Hs as [d0 k0 b k1 Hk]; subst. inversion Hk as [|x0 y0 l l' Hp Hl]; subst. inversion Hp as [d1 k2 b1 k3 Hk3]; subst. inversion Hk3; subst.
  exists dl, (set_n_last_line_checked b it), (set_n_last_line_checked b1 pd), kb, l', k, s0, s1, da, ka. split; [reflexivity|]. split; [exact H1|]. split; [exact H2|]. split; [exact H3|]. split; [exact H4|]. split; [eapply sus_trans; eassumption|exact H6].
Qed.
Lemma closed_loose x d k : closed_entry x (T d k) -> closed_entry x (T (loosen d) k).
Proof.
  intros (dl & it & pd & kb & kb' & k1 & s0 & s1 & da & ka & E & H1 & H2). injection E as <- ->. exists dl, (loosen d), pd, kb, kb', k1, s0, s1, da, ka. split; [reflexivity|]. split; [exact H1|exact H2].
Qed.
Lemma closed_sus : forall l ts ts', Forall2 closed_entry l ts -> Forall2 same_unflagged ts ts' -> Forall2 closed_entry l ts'.
Proof. intros l ts ts' H. revert ts'. induction H as [|x t l ts Hx _ IH]; intros ts' Hs; inversion Hs; subst; constructor; [eapply closed_su; eassumption|auto]. Qed.
Lemma finalize_entries l d ts m off pad : Forall2 closed_entry l ts -> (exists t t' r, ts = t :: t' :: r /\ noted_item t) -> n_list_data d = Some (mark_data m off pad) ->
  exists d' ts' data, finalize_list d ts = (d', ts') /\ n_t d' = n_t d /\ n_list_data d' = Some data /\ ld_tight data = false /\ list_head m data /\ Forall2 closed_entry l ts'.
Proof.
  intros H (t & t' & r & -> & it & pd & kb & -> & Hp) Hd. unfold finalize_list. pose proof (first_loose it pd kb t' r Hp) as Hl. pose proof (check_items_su (T it (T pd [] :: kb) :: t' :: r)) as Hs. destruct (check_items _) as [b ts']. cbn [fst snd] in *. subst b.
  pose proof (closed_sus _ _ _ H Hs) as H'. exists (loosen d). destruct ts' as [|[di k] ts']; [inversion Hs|]. eexists. exists (set_ld_tight false (mark_data m off pad)). split; [reflexivity|]. split; [reflexivity|].
  split; [unfold loosen; cbn [n_list_data set_n_list_data]; rewrite Hd; reflexivity|]. split; [destruct m; reflexivity|]. split; [destruct m; split; reflexivity|].
  inversion H' as [|x0 y0 l0 l1 G1 G2]; subst. constructor; [apply closed_loose, G1|exact G2].
Qed.

(** ** The run of an entry's own text *)
Lemma entry_facts x da ka : entry_ok x -> parse_doc false (en_text x) = Ok (T da ka) ->
  exists p1 p2 d k s s1, incorporate_lines (text_lines (en_text x)) (reset (new_parser false)) = Ok p1 /\ p_line_number p1 = length (text_lines (en_text x)) /\
    finalize_all (length (p_stack p1)) (p_line_number p1) p1 = Ok p2 /\ p_doc p2 = Some (T d k) /\ p_refmap p1 = [] /\ p_refmap p2 = [] /\ Forall (tree_every leaf_par) k /\
    ip_refmap s = [] /\ ip_smart s = false /\ process_all k s = Ok (ka, s1) /\ same_ip s s1.
Proof.
  intros (_ & _ & _ & Hs & _ & Hr0 & _) E. assert (Hr : ~ infix [93; 58]%N (en_text x)) by (intros (p & q & X); exact (Hr0 p q X)). set (tx := en_text x) in *.
  destruct (run_facts false tx da ka Hs Hr E) as (p1 & p2 & d & k & s & s1 & E1 & E2 & E3 & S1 & S2 & S3 & S4). destruct (no_refs false tx p1 p2 Hs Hr E1 E2) as (t & _ & _ & _ & Hrm).
  pose proof (a_num false tx p1 Hs E1) as En. pose proof E2 as E2'. rewrite <- En in E2'.
  assert (Hrm1 : p_refmap p1 = []). { pose proof (finalize_all_grows _ _ _ _ E2) as [G _]. apply ext_prefix in G as (new & G). rewrite Hrm in G. symmetry in G. apply app_eq_nil in G. apply G. }
  pose proof (blocks_leaf (new_parser false) tx p1 p2 (T d k) Hs) as Hl. rewrite input_lines_text in Hl. specialize (Hl E1 E2 E3). apply tree_every_unfold in Hl as [_ Hl].
  exists p1, p2, d, k, s, s1. auto 20.
Qed.
Lemma under_len x : entry_ok x -> length (text_lines (en_under x)) = length (text_lines (en_text x)).
Proof. intros (_ & _ & _ & _ & _ & _ & H & _). unfold indented_text in H. apply Forall2_len in H. congruence. Qed.

(** ** All the lines *)
Definition entry_lines (x : entry) : list str := li_lines (en_item x) ++ text_lines (en_under x).
Definition parses (x : entry) : Prop := exists da ka, parse_doc false (en_text x) = Ok (T da ka).
Lemma entries_run m0 off pad : forall es x LK q done, entry_ok x -> parses x -> Forall entry_ok es -> Forall parses es -> Forall (fun y => same_kind m0 (li_mark (en_item y)) = true) es ->
  Forall2 closed_entry done LK -> Forall noted_item LK -> open_more LK (Some (mark_data m0 off pad)) (en_item x) false q ->
  exists q1 y p1 dl LK' done', incorporate_lines (li_blanks (en_item x) ++ text_lines (en_under x) ++ flat_map entry_lines es) q = Ok q1 /\ entry_ok y /\ parses y /\
    done ++ x :: es = done' ++ [y] /\ Forall2 closed_entry done' LK' /\ Forall noted_item LK' /\
    incorporate_lines (text_lines (en_text y)) (reset (new_parser false)) = Ok p1 /\ RE (en_item y) dl (Some (mark_data m0 off pad)) LK' p1 q1 /\
    p_line_number q1 = p_line_number q + length (li_blanks (en_item x) ++ text_lines (en_under x) ++ flat_map entry_lines es).
Proof.
  induction es as [|y es IH]; intros x LK q done Hx (da & ka & Ex) Hes Hps Hk Hdone Hnoted Hq; pose proof Hx as (X1 & X2 & X3 & X4 & X5 & X6 & X7 & X8).
  - destruct (entry_facts x da ka Hx Ex) as (p1 & p2 & d & k & s & s1 & E1 & En & E2 & E3 & F1 & F2 & F3 & F4 & F5 & F6 & F7).
    destruct (entry_run (en_item x) (en_text x) (en_under x) _ LK q p1 X1 X2 X5 X7 Hq E1) as (q1 & Eq & HR). cbn [flat_map]. rewrite app_nil_r. exists q1, x, p1, (p_line_number q + length (li_blanks (en_item x))), LK, done.
    split; [exact Eq|]. split; [exact Hx|]. split; [exists da, ka; exact Ex|]. split; [reflexivity|]. split; [exact Hdone|]. split; [exact Hnoted|]. split; [exact E1|]. split; [exact HR|].
    rewrite (l_num _ _ _ _ _ _ _ _ _ _ _ (proj1 HR)), En, app_length, (under_len x Hx). clear. lia.
  - inversion Hes as [|? ? Y1 Y2]; subst. inversion Hps as [|? ? Z1 Z2]; subst. inversion Hk as [|? ? K1 K2]; subst.
    destruct (entry_facts x da ka Hx Ex) as (p1 & p2 & d & k & s & s1 & E1 & En & E2 & E3 & F1 & F2 & F3 & F4 & F5 & F6 & F7).
    destruct (entry_run (en_item x) (en_text x) (en_under x) _ LK q p1 X1 X2 X5 X7 Hq E1) as (q1 & Eq & HR).
    destruct (next_more (en_item x) _ _ LK (en_item y) m0 off pad p1 q1 p2 d k X1 (proj1 Y1) HR eq_refl K1 E2 E3 F1 F2) as (q2 & it & pd & kb & Eq2 & Hop & Hit & (P1 & P2 & P3 & P4) & Htr & N2).
    set (t := T it (T pd [] :: kb)) in *.
    assert (Ht : closed_entry x t). { exists (p_line_number q + length (li_blanks (en_item x))), it, pd, kb, kb, k, s, s1, da, ka. repeat (split; [solve [reflexivity|assumption|apply sus_refl]|]). exact Ex. }
    destruct (IH y (LK ++ [t]) q2 (done ++ [x]) Y1 Z1 Y2 Z2 K2) as (q3 & z & p3 & dl & LK' & done' & G1 & G2 & G3 & G4 & G5 & G6 & G7 & G8 & G9).
    { apply Forall2_app; [exact Hdone|]. constructor; [exact Ht|constructor]. }
    { apply Forall_app. split; [exact Hnoted|]. constructor; [exists it, pd, kb; split; [reflexivity|exact P3]|constructor]. }
    { exact Hop. }
    exists q3, z, p3, dl, LK', done'. rewrite <- app_assoc in G4. cbn [app] in G4.
    assert (El : flat_map entry_lines (y :: es) = li_line (en_item y) :: (li_blanks (en_item y) ++ text_lines (en_under y) ++ flat_map entry_lines es)) by (cbn [flat_map]; unfold entry_lines at 1, li_lines; rewrite <- app_assoc; reflexivity).
    rewrite El, app_assoc, incorporate_app, Eq. cbn [bind incorporate_lines]. rewrite Eq2. cbn [bind]. split; [exact G1|]. repeat (split; [assumption|]).
    rewrite G9, N2, (l_num _ _ _ _ _ _ _ _ _ _ _ (proj1 HR)), En, (app_length (_ ++ _)). cbn [length]. rewrite (app_length (li_blanks (en_item x))), (under_len x Hx). clear. lia.
Qed.
