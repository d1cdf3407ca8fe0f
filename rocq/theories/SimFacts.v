(** * Consequences of the simulation: C02, C41, C45 *)
From Verif Require Import Base Regex Common NormRef Node Inlines Blocks Html Main RegexFacts RegexLang StrFacts Spec SpecTree SpecSame
  TreeFacts StrProp InlineFacts HtmlFacts RenderFacts BlockFacts BlockInv BlockRun LineFacts ParseFacts Sim.
From Coq Require Import ZifyBool ZifyNat ZifyN.

(** ** The tree after the block phase *)
Lemma closed_leaf Q A t : closed Q A t -> tree_every leaf_par t.
Proof.
  apply tree_every_impl. clear t. intros [d k] (C1 & C2 & C3 & C4 & C5 & C6 & C7 & C8 & C9). split.
  - unfold kind_ok in C2. destruct (n_t d); try reflexivity; destruct C2.
  - intros H. apply (no_kids d k C7). intros c. destruct H as [-> | ->]; reflexivity.
Qed.
Lemma ok_doc s : Forall code_point s -> ok_str (doc_char s) (fun w => infix w (replace_char 0 65533 s)) (replace_char 0 65533 s).
Proof.
  intros Hs. split; [|auto]. unfold replace_char. apply Forall_forall. intros x Hx. apply in_map_iff in Hx as (y & <- & Hy).
  destruct (N.eqb_spec y 0); [apply plain_doc_char; unfold plain_char; lia|]. rewrite Forall_forall in Hs. split; [apply Hs, Hy|]. split; [assumption|]. intros Hsu. exists y. auto.
Qed.
Lemma blocks_leaf p s p1 p2 t : Forall code_point s -> incorporate_lines (input_lines s) (reset p) = Ok p1 ->
  finalize_all (length (p_stack p1)) (length (input_lines s)) p1 = Ok p2 -> p_doc p2 = Some t -> tree_every leaf_par t.
Proof.
  intros Hs E1 E2 E3. pose proof (parse_blocks_spec (doc_char s) (plain_doc_char s) (doc_char_code s) (fun w => infix w (replace_char 0 65533 s)) s p (ok_doc s Hs)) as H.
  unfold parse_blocks in H. rewrite E1 in H. cbn [bind] in H. rewrite E2 in H. destruct H as (t' & E & H & _). rewrite E3 in E. injection E as <-. eapply closed_leaf, H.
Qed.
Lemma result_total p s : Forall code_point s -> result (parse p s) <> Err OutOfFuel.
Proof.
  intros Hs. destruct (parse_outcomes p s Hs) as [(t & p' & E)|[[E _]|[E _]]]; rewrite E; discriminate.
Qed.

(** ** C02 *)
Definition same_smart (a b : bool) : Prop := b = a.
Definition C02_Rl (a b : nat) : Prop := b = a.
Lemma C02_hex : True -> 0 = 0 /\ 0 = 0 /\ 0 = 0 /\ (forall a b, C02_Rl a b -> b = a).
Proof. intros _. repeat split. intros a b H. exact H. Qed.
Lemma posrel_eq a b : posrel 0 0 C02_Rl a b -> b = a.
Proof.
  destruct a as [[[l c] [el ec]]|], b as [[[l' c'] [el' ec']]|]; cbn [posrel]; try tauto. intros (-> & -> & [E|[-> E]]); [injection E as -> -> -> ->|unfold C02_Rl in E; subst ec']; rewrite ?Nat.add_0_r; reflexivity.
Qed.
Lemma drel_eq d d' : drel 0 0 C02_Rl d d' -> d' = d.
Proof. intros (sp & -> & H). apply posrel_eq in H as ->. destruct d; reflexivity. Qed.
Lemma prel_eq : forall t t', prel 0 0 C02_Rl t t' -> t' = t.
Proof.
  induction t as [d k IH] using tree_ind'. intros t' H. inversion H as [d1 d' k1 Ht Hd|d1 d' k1 k' Hi Hd Hk]; subst; apply drel_eq in Hd as ->; [reflexivity|].
  f_equal. clear - IH Hk. revert k' Hk. induction IH as [|x l Hx _ IHl]; intros k' Hk; inversion Hk; subst; [reflexivity|]. f_equal; auto.
Qed.
(** no blocks before *)
Definition no_pre (k : list tree) : Prop := k = [].
Lemma no_pre_blank k : no_pre k -> no_pre (mark_last_blank k).
Proof. intros ->. reflexivity. Qed.
Lemma no_pre_inlines a s : no_pre a -> exists a' s', process_all a s = Ok (a', s') /\ same_ip s s' /\ no_pre a'.
Proof. intros ->. exists [], s. repeat split. Qed.
Lemma no_krel dl dc Rl k k' : krel dl dc Rl no_pre k k' -> Forall2 (trel dl dc Rl) k k'.
Proof. intros (a & b & -> & -> & H). exact H. Qed.
Lemma no_pkrel dl dc Rl k k' : pkrel dl dc Rl no_pre k k' -> Forall2 (prel dl dc Rl) k k'.
Proof. intros (a & b & -> & -> & H). exact H. Qed.
Lemma srel_doc dl dc Rl ex : srel dl dc 0 None [] Rl ex no_pre [doc_frame] [doc_frame].
Proof.
  constructor; [|left; auto]. split; [split; [left; reflexivity|split; [discriminate|reflexivity]]|]. split; [split; [left; left; reflexivity|split; [discriminate|reflexivity]]|].
  split; [exists [], []; repeat split; constructor|]. split; [reflexivity|split; discriminate].
Qed.
(** two parsers, the second having read [n] lines without effect *)
Lemma lines_sim dl (Rl : nat -> nat -> Prop) (ex : Prop) (Hex : ex -> dl = 0 /\ 0 = 0 /\ 0 = 0 /\ (forall a b, Rl a b -> b = a)) (Rs : bool -> bool -> Prop) (Pre : list tree -> Prop) (Hpre : forall k, Pre k -> Pre (mark_last_blank k)) ls p q : (forall n, Rl n n) -> ls <> [] ->
  p_stack p = [doc_frame] -> srel dl 0 0 None [] Rl ex Pre [doc_frame] (p_stack q) -> p_line_number q = p_line_number p + dl -> p_refmap q = p_refmap p ->
  Rl (p_last_line_length p) (p_last_line_length q) -> Rs (p_smart p) (p_smart q) ->
  rrel (R1 dl 0 0 None [] Rl ex Rs Pre) (incorporate_lines ls p) (incorporate_lines ls q).
Proof.
  intros HR Hne Ep Hs Hn Hr Hl Hsm. destruct ls as [|l ls]; [congruence|].
  assert (Eq : length (p_stack q) = 1) by (pose proof (srel_len _ _ _ _ _ _ _ Hex _ _ _ Hs) as [E _]; cbn [length] in E; lia).
  assert (E1 : incorporate_lines (l :: ls) p = incorporate_lines (l :: ls) (set_p_matched 1 (set_p_all_closed true p))).
  { cbn [incorporate_lines]. rewrite incorporate_flags by (rewrite Ep; reflexivity). reflexivity. }
  assert (E2 : incorporate_lines (l :: ls) q = incorporate_lines (l :: ls) (set_p_matched 1 (set_p_all_closed true q))).
  { cbn [incorporate_lines]. rewrite incorporate_flags by exact Eq. reflexivity. }
  rewrite E1, E2. apply (incorporate_lines_same dl 0 0 None [] Rl ex Hex Rs Pre Hpre); [reflexivity|reflexivity|exact HR|discriminate|].
  constructor; cbn [p_stack p_line_number p_all_closed p_matched p_refmap p_last_line_length p_smart set_p_matched set_p_all_closed]; auto; try (rewrite Ep; exact Hs); discriminate.
Qed.
Lemma parse_reuse p s : Forall code_point s -> result (parse p s) = parse_doc (p_smart p) s.
Proof.
  intros Hs. change (parse_doc (p_smart p) s) with (result (parse (new_parser (p_smart p)) s)). set (q := new_parser (p_smart p)).
  pose proof (result_total q s Hs) as Hf. rewrite !parse_finish in *. pose proof (input_lines_ne s) as Hne. assert (Hne' : input_lines s <> []) by (intros E; rewrite E in Hne; cbn in Hne; lia).
  pose proof (lines_sim 0 C02_Rl True C02_hex same_smart no_pre no_pre_blank (input_lines s) (reset q) (reset p) (fun _ => eq_refl) Hne' eq_refl (srel_doc 0 0 C02_Rl True) eq_refl eq_refl eq_refl eq_refl) as H.
  destruct (incorporate_lines (input_lines s) (reset q)) as [q1|e] eqn:E1; cbn [bind] in *.
  - destruct H as (p1 & -> & H). cbn [bind].
    pose proof (finish_sim 0 0 0 None [] C02_Rl True C02_hex same_smart no_pre no_pre_blank no_pre no_pre_inlines (length (input_lines s)) q1 p1 ltac:(lia) (fun _ _ X => X) H ltac:(intros x t Ex Et; eapply blocks_leaf; eassumption)) as G. rewrite Nat.add_0_r in G.
    destruct (finish (length (input_lines s)) q1) as [t|e].
    + destruct G as (t' & -> & d & k & d' & k' & -> & G1 & G2 & G3 & G4 & G5 & [[_ ->]|[X _]]); [|discriminate]. rewrite (G3 I). do 2 f_equal.
      apply no_pkrel in G2. clear - G2. induction G2 as [|x y l l' Hx _ IH]; [reflexivity|]. f_equal; [apply prel_eq, Hx|exact IH].
    + destruct e; cbn in G; try exact G. congruence.
  - destruct e; cbn in H; try (rewrite H; reflexivity). congruence.
Qed.

(** ** Blank lines (C41) *)
Lemma blank_replace l : blank_line l -> replace_char 0 65533 l = l.
Proof.
  intros H. unfold replace_char. rewrite <- (map_id l) at 2. apply map_ext_in. intros c Hc. destruct (H c Hc) as [-> | ->]; reflexivity.
Qed.
Lemma blank_skip : forall l i c, blank_line l -> exists c', skip_spaces l i c = (i + length l, c').
Proof.
  induction l as [|x l IH]; intros i c H; cbn [skip_spaces length]; [exists c; rewrite Nat.add_0_r; reflexivity|].
  assert (H' : blank_line l) by (intros y Hy; apply H; right; exact Hy).
  destruct (H x (or_introl eq_refl)) as [-> | ->]; cbn [N.eqb]; [destruct (IH (S i) (S c) H') as (c' & E)|destruct (IH (S i) (c + (4 - c mod 4)) H') as (c' & E)].
  - exists c'. change (N.eqb 32 SP) with true. cbv iota. rewrite E, Nat.add_succ_r. reflexivity.
  - exists c'. change (N.eqb 9 SP) with false. change (N.eqb 9 TAB) with true. cbv iota. rewrite E, Nat.add_succ_r. reflexivity.
Qed.
(** a parser that has seen only blank lines *)
Definition fresh_doc (n : nat) (smart : bool) (p : parser) : Prop :=
  (exists d, p_stack p = [F d []] /\ n_t d = document /\ n_sourcepos d <> None /\ n_string_content d = Some []) /\
  p_line_number p = n /\ p_refmap p = [] /\ p_smart p = smart.
Lemma blank_starts x d fu : p_stack x = [F d []] -> n_t d = document -> blank_line (p_line x) -> p_offset x = 0 -> 
  exists y, starts_loop (S fu) 1 x = Ok (1, y) /\ p_stack y = [F d []] /\ p_line_number y = p_line_number x /\ p_refmap y = p_refmap x /\ p_smart y = p_smart x /\ p_blank y = true /\ p_all_closed y = p_all_closed x.
Proof.
  intros Es Ed Hb Eo. set (z := find_next_nonspace x).
  destruct (blank_skip (rest_offset x) (p_offset x) (p_column x)) as (c & Ec). { unfold rest_offset. rewrite Eo. exact Hb. }
  assert (Ez : p_stack z = [F d []] /\ p_line_number z = p_line_number x /\ p_refmap z = p_refmap x /\ p_smart z = p_smart x /\ p_blank z = true /\ p_all_closed z = p_all_closed x /\
    rest_nonspace z = [] /\ peek (p_line z) (p_next_nonspace z) = None /\ p_indented z = Nat.leb 4 (p_indent z)).
  { unfold z, find_next_nonspace. rewrite Ec. unfold rest_nonspace. cbn [p_stack p_line_number p_refmap p_smart p_blank p_all_closed p_line p_next_nonspace p_indented p_indent set_p_indented set_p_indent set_p_next_nonspace_column set_p_next_nonspace set_p_blank].
    assert (E : peek (p_line x) (p_offset x + length (rest_offset x)) = None) by (unfold peek; apply nth_error_None; unfold rest_offset; rewrite Eo; cbn; lia).
    rewrite E. repeat split; try assumption. apply skipn_all2. unfold rest_offset. rewrite Eo. cbn. lia. }
  destruct Ez as (Z1 & Z2 & Z3 & Z4 & Z5 & Z6 & Z7 & Z8 & Z9). cbn [starts_loop]. fold z. rewrite Z7. change (re_test reMaybeSpecial []) with false. cbn [negb]. rewrite andb_true_r.
  assert (Hend : p_stack (advance_next_nonspace z) = [F d []] /\ p_line_number (advance_next_nonspace z) = p_line_number x /\ p_refmap (advance_next_nonspace z) = p_refmap x /\ p_smart (advance_next_nonspace z) = p_smart x /\ p_blank (advance_next_nonspace z) = true /\ p_all_closed (advance_next_nonspace z) = p_all_closed x) by auto 10.
  clearbody z. destruct (p_indented z) eqn:Ei; cbn [negb]; [|eexists; split; [reflexivity|exact Hend]].
  unfold block_at. rewrite Z1. cbn [length Nat.sub nth_error of_option bind].
  assert (Et : try_starts block_starts (f_type (F d [])) z = Ok (SNone, z)).
  { unfold f_type. cbn [f_data]. rewrite Ed. unfold block_starts. cbn [try_starts].
    unfold start_block_quote at 1. rewrite Ei. cbn [negb andb bind]. unfold start_atx_heading at 1. rewrite Ei. cbn [bind]. unfold start_fenced_code at 1. rewrite Ei. cbn [bind].
    unfold start_html_block at 1. rewrite Ei. cbn [negb andb bind]. unfold start_setext_heading at 1. rewrite Ei. cbn [negb andb bind]. unfold start_thematic_break at 1. rewrite Ei. cbn [negb andb bind].
    unfold start_list_item at 1. rewrite Ei. change (ntype_eqb document list_) with false. cbn [negb orb bind]. unfold start_indented_code. unfold tip. rewrite Z1. cbn [hd_error of_option bind]. unfold f_type. cbn [f_data]. rewrite Ed, Z5. cbn [negb]. rewrite andb_false_r. reflexivity. }
  rewrite Et. cbn [bind]. eexists. split; [reflexivity|exact Hend].
Qed.
Lemma blank_step n smart l p : blank_line l -> fresh_doc n smart p -> exists p', incorporate_line l p = Ok p' /\ fresh_doc (S n) smart p'.
Proof.
  intros Hb ((d & Es & Ed & Ep & Ec) & Hn & Hr & Hs). rewrite (incorporate_doc l p d [] Es Ed), (blank_replace l Hb). unfold line_tail.
  destruct (fresh_fields l p) as (P1 & P2 & P3 & P4 & P5 & P6 & P7 & P8 & P9 & P10). remember (set_p_matched 1 (set_p_all_closed true (line_start l p))) as x eqn:Z. clear Z.
  destruct (blank_starts x d (length l)) as (y & -> & Y1 & Y2 & Y3 & Y4 & Y5 & Y6); [congruence|exact Ed|rewrite P2; exact Hb|exact P3|]. cbn [bind].
  unfold line_end, tip. rewrite Y1. cbn [hd_error of_option bind]. rewrite Y6, P6. cbn [negb andb]. unfold add_text, close_unmatched_blocks. rewrite Y6, P6. cbn [bind]. unfold tip. rewrite Y1, Y5. cbn [hd_error of_option bind f_kids f_data tl].
  destruct (n_sourcepos d) as [[[sl sc] se]|] eqn:Esp; [|congruence]. cbn [bind]. unfold f_type. cbn [f_data]. rewrite Ed. cbn [ntype_eqb]. change (accepts_lines document) with (Ok (A:=bool) false). cbn [bind].
  cbn [p_blank set_p_stack]. rewrite Y5. cbn [negb]. rewrite andb_false_r. cbn [bind].
  eexists. split; [reflexivity|]. split; [|cbn [p_line_number p_refmap p_smart set_p_last_line_length set_p_stack]; repeat split; congruence].
  eexists. split; [reflexivity|]. cbn [f_data set_f_data n_t n_sourcepos n_string_content set_n_last_line_blank]. rewrite Esp. repeat split; auto; discriminate.
Qed.
Lemma blank_steps : forall bs n smart p, Forall blank_line bs -> fresh_doc n smart p ->
  exists p', (forall ls, incorporate_lines (bs ++ ls) p = incorporate_lines ls p') /\ fresh_doc (n + length bs) smart p'.
Proof.
  induction bs as [|b bs IH]; intros n smart p Hb Hp; cbn [app length]; [exists p; rewrite Nat.add_0_r; auto|].
  inversion Hb as [|x y B1 B2]; subst. destruct (blank_step n smart b p B1 Hp) as (p1 & E1 & H1). destruct (IH (S n) smart p1 B2 H1) as (p2 & E2 & H2).
  exists p2. split; [|rewrite Nat.add_succ_r; exact H2]. intros ls. cbn [incorporate_lines]. rewrite E1. cbn [bind]. apply E2.
Qed.
Lemma reset_fresh smart : fresh_doc 0 smart (reset (new_parser smart)).
Proof. split; [|repeat split]. exists (new_node document (Some (1, 1, (0, 0)))). repeat split. discriminate. Qed.
Lemma finish_fresh n smart p ln : fresh_doc n smart p -> exists d, finish ln p = Ok (T d []) /\ n_t d = document.
Proof.
  intros ((d & Es & Ed & Ep & Ec) & _). unfold finish. rewrite Es. cbn [length]. cbn [finalize_all]. rewrite Es.
  destruct (finalize_bt ln p (F d []) [] Es (or_introl Ed) Ep) as (sp0 & x & F1 & ->). cbn [bind]. unfold attach. cbn [p_stack set_p_stack p_doc set_p_doc f_kids f_data].
  cbn [finalize_all p_stack set_p_doc set_p_stack bind p_doc of_option].
  rewrite process_bt by (left; exact Ed). cbn [process_all bind]. eexists. split; [reflexivity|]. exact Ed.
Qed.
Lemma blank_text smart s : Forall blank_line (text_lines s) -> exists d, parse_doc smart s = Ok (T d []) /\ n_t d = document.
Proof.
  intros Hb. change (parse_doc smart s) with (result (parse (new_parser smart) s)). rewrite parse_finish, input_lines_text.
  destruct (blank_steps (text_lines s) 0 smart _ Hb (reset_fresh smart)) as (p' & E & H). specialize (E []). rewrite app_nil_r in E. rewrite E. cbn [incorporate_lines bind]. eapply finish_fresh, H.
Qed.

Definition any_Rl (a b : nat) : Prop := True.
Definition no_hex n (x : False) : n = 0 /\ 0 = 0 /\ 0 = 0 /\ (forall a b, any_Rl a b -> b = a) := match x with end.

(** from related trees to [same_blocks], as the blocks of a document have last lines *)
Lemma prel_blocks dl dc (Rl : nat -> nat -> Prop) (P : nat * nat * (nat * nat) -> nat * nat * (nat * nat) -> Prop) :
  (forall l c el ec l' c' el' ec', l' = l + dl -> c' = c + dc -> el' = el + dl -> Rl ec ec' -> P (l, c, (el, ec)) (l', c', (el', ec'))) ->
  forall t t', prel dl dc Rl t t' -> tree_every (fun t => inline_type (t_type t) = false -> n_sourcepos (t_data t) <> None /\ 1 <= last_line (t_data t)) t -> same_blocks P t t'.
Proof.
  intros HP. induction t as [d k IH] using tree_ind'. intros t' H Hl. apply tree_every_unfold in Hl as [Hl1 Hl2]. unfold t_type in Hl1. cbn [t_data] in Hl1.
  assert (Hd0 : forall d', inline_type (n_t d) = false -> drel dl dc Rl d d' -> exists sp sp', n_sourcepos d = Some sp /\ d' = set_n_sourcepos (Some sp') d /\ P sp sp').
  { intros d' Hi (sp & -> & Hp). destruct (Hl1 Hi) as [L1 L2]. unfold last_line in L2. destruct (n_sourcepos d) as [[[l c] [el ec]]|]; [|congruence]. destruct sp as [[[l' c'] [el' ec']]|]; cbn [posrel] in Hp; [|destruct Hp].
    destruct Hp as (E1 & E2 & [E|[E3 E4]]); [injection E as -> -> -> ->; lia|]. do 2 eexists. split; [reflexivity|]. split; [reflexivity|]. apply HP; assumption. }
  inversion H as [d1 d' k1 Ht Hd|d1 d' k1 k' Hi Hd Hk]; subst.
  - destruct (Hd0 d') as (sp & sp' & E1 & -> & HPs); [destruct Ht as [-> | ->]; reflexivity|exact Hd|]. eapply sb_text; eassumption.
  - destruct (Hd0 d' Hi Hd) as (sp & sp' & E1 & -> & HPs). eapply sb_block; [eassumption|eassumption|].
    clear - IH Hk Hl2. revert k' Hk. induction IH as [|x l Hx _ IHl]; intros k' Hk; inversion Hk; subst; inversion Hl2; subst; constructor; auto.
Qed.
Lemma doc_positions smart s t : Forall code_point s -> parse_doc smart s = Ok t ->
  tree_every (fun t => inline_type (t_type t) = false -> n_sourcepos (t_data t) <> None /\ 1 <= last_line (t_data t)) t.
Proof.
  intros Hs E. apply tree_every_subtrees. intros [d k] Hx Hi. destruct (parse_doc_facts smart s t Hs E) as [H _]. specialize (H _ Hx). destruct H as (_ & _ & _ & H).
  unfold t_type in Hi. cbn [t_data] in *. destruct (n_t d); try discriminate; destruct H as (_ & _ & H1 & H2 & H3 & _); (split; [exact H1|lia]).
Qed.
Lemma leading_blank smart s bs s' : Forall code_point s -> Forall code_point s' -> Forall blank_line bs -> text_lines s' = bs ++ text_lines s ->
  match parse_doc smart s with
  | Ok (T d k) => exists d' k', parse_doc smart s' = Ok (T d' k') /\ n_t d = document /\ n_t d' = document /\ Forall2 (same_blocks (lines_down (length bs))) k k'
  | Err e => parse_doc smart s' = Err e
  end.
Proof.
  intros Hs Hs' Hb El. pose proof (result_total (new_parser smart) s Hs) as Hf. pose proof (fun t => doc_positions smart s t Hs) as Hpos. pose proof (parse_doc_facts smart s) as Hty. pose proof (parse_doc_facts smart s') as Hty'.
  change (parse_doc smart s) with (result (parse (new_parser smart) s)) in *. rewrite (parse_finish (new_parser smart) s) in *.
  pose proof (input_lines_ne s) as Hne. assert (Hne' : input_lines s <> []) by (intros E; rewrite E in Hne; cbn in Hne; lia).
  destruct (blank_steps bs 0 smart _ Hb (reset_fresh smart)) as (q & Eq & (d0 & Q1 & Q2 & Q3 & Q4) & Q5 & Q6 & Q7). cbn [Nat.add] in Q5.
  assert (Es' : parse_doc smart s' = let* p1 := incorporate_lines (input_lines s) q in finish (length bs + length (input_lines s)) p1).
  { change (parse_doc smart s') with (result (parse (new_parser smart) s')). rewrite parse_finish, (input_lines_text s'), El, <- (input_lines_text s), Eq, app_length. reflexivity. }
  assert (Hsr : srel (length bs) 0 0 None [] any_Rl False no_pre [doc_frame] (p_stack q)).
  { rewrite Q1. constructor; [|left; auto]. split; [split; [left; reflexivity|split; [discriminate|reflexivity]]|]. split; [split; [left; left; exact Q2|split; [exact Q3|exact Q4]]|].
    split; [exists [], []; repeat split; constructor|]. split; [tauto|split; discriminate]. }
  pose proof (lines_sim (length bs) any_Rl False (no_hex _) same_smart no_pre no_pre_blank (input_lines s) (reset (new_parser smart)) q (fun _ => I) Hne' eq_refl Hsr Q5 Q6 I Q7) as H.
  destruct (incorporate_lines (input_lines s) (reset (new_parser smart))) as [p1|e] eqn:E1; cbn [bind] in *.
  - destruct H as (q1 & E2 & H). rewrite E2 in Es'. cbn [bind] in Es'.
    pose proof (finish_sim (length bs) 0 0 None [] any_Rl False (no_hex _) same_smart no_pre no_pre_blank no_pre no_pre_inlines (length (input_lines s)) p1 q1 ltac:(lia) (fun _ _ X => X) H ltac:(intros x t Ex Et; eapply (blocks_leaf _ s); eassumption)) as G. rewrite (Nat.add_comm (length (input_lines s))) in G.
    destruct (finish (length (input_lines s)) p1) as [t|e].
    + destruct G as (t' & E3 & d & k & d' & k' & -> & G1 & G2 & G3 & G4 & G5 & [[_ ->]|[X _]]); [|discriminate]. rewrite E3 in Es'. exists d', k'. split; [exact Es'|].
      pose proof (Hty _ Hs eq_refl) as (_ & Hdoc & _). split; [exact Hdoc|].
      split; [apply (Hty' _ Hs' Es')|]. specialize (Hpos _ eq_refl). apply tree_every_unfold in Hpos as [_ Hpos].
      apply no_pkrel in G2. clear - G2 Hpos. induction G2 as [|x y l l' Hx _ IH]; [constructor|]. inversion Hpos as [|a b P1 P2]; subst. constructor; [|apply IH, P2].
      eapply prel_blocks; [|exact Hx|exact P1]. intros. cbn [lines_down]. lia.
    + destruct e; cbn in G; try (rewrite Es'; exact G). congruence.
  - destruct e; cbn in H; try (rewrite Es', H; reflexivity). congruence.
Qed.

(** ** Quoting (C45) *)
Definition quote_Rl (a b : nat) : Prop := b = a + 2 \/ a = 0 /\ b = 0.
Definition quote_hex (x : False) : 0 = 0 /\ 2 = 0 /\ 1 = 0 /\ (forall a b, quote_Rl a b -> b = a) := match x with end.
Lemma quote_rest : forall ls p q, Forall (fun l => ~ In TAB l) ls -> R1 0 2 1 None [] quote_Rl False same_smart no_pre p q ->
  rrel (R1 0 2 1 None [] quote_Rl False same_smart no_pre) (incorporate_lines ls p) (incorporate_lines (map (app (u "> ")) ls) q).
Proof.
  induction ls as [|l ls IH]; intros p q Ht H; cbn [incorporate_lines map]; [apply rrel_ok, H|]. inversion Ht as [|x y T1 T2]; subst.
  pose proof (incorporate_quoted 0 2 1 None [] quote_Rl False quote_hex same_smart no_pre no_pre_blank l p q eq_refl eq_refl (fun n => or_introl eq_refl) T1 (r1_rl _ _ _ _ _ _ _ _ _ _ _ H)) as G.
  eapply rrel_bind; [exact G|]. intros p' q' H'. apply IH; assumption.
Qed.
Lemma quote_lines ls p q : Forall (fun l => ~ In TAB l) ls -> ls <> [] -> p_stack p = [doc_frame] -> p_stack q = [doc_frame] -> 
  p_line_number q = p_line_number p -> p_refmap q = p_refmap p -> quote_Rl (p_last_line_length p) (p_last_line_length q) -> p_smart q = p_smart p ->
  rrel (R1 0 2 1 None [] quote_Rl False same_smart no_pre) (incorporate_lines ls p) (incorporate_lines (map (app (u "> ")) ls) q).
Proof.
  intros Ht Hne Ep Eq Hn Hr Hl Hs. destruct ls as [|l ls]; [congruence|]. cbn [incorporate_lines map]. inversion Ht as [|x y T1 T2]; subst.
  pose proof (incorporate_quoted_first 0 2 1 None [] quote_Rl False quote_hex same_smart no_pre no_pre_blank l p q _ eq_refl eq_refl eq_refl eq_refl (fun n => or_introl eq_refl) T1 Ep Eq eq_refl ltac:(discriminate) Hn Hr Hl Hs) as G.
  eapply rrel_bind; [exact G|]. intros p' q' H'. apply quote_rest; assumption.
Qed.
Lemma quoted_doc smart s : Forall code_point s -> ~ In TAB s ->
  match parse_doc smart s with
  | Ok (T d k) => exists e b k', parse_doc smart (quote_text s) = Ok (T e [T b k']) /\ n_t d = document /\ n_t e = document /\ n_t b = block_quote /\
      Forall2 (same_blocks (columns_right 2)) k k'
  | Err e => parse_doc smart (quote_text s) = Err e
  end.
Proof.
  intros Hs Ht. pose proof (result_total (new_parser smart) s Hs) as Hf. pose proof (fun t => doc_positions smart s t Hs) as Hpos. pose proof (parse_doc_facts smart s) as Hty.
  change (parse_doc smart s) with (result (parse (new_parser smart) s)) in *. rewrite (parse_finish (new_parser smart) s) in *.
  assert (Es' : parse_doc smart (quote_text s) = let* p1 := incorporate_lines (map (app (u "> ")) (input_lines s)) (reset (new_parser smart)) in finish (length (input_lines s)) p1).
  { change (parse_doc smart (quote_text s)) with (result (parse (new_parser smart) (quote_text s))). rewrite parse_finish, (input_lines_text (quote_text s)), quote_text_lines, map_length, <- (input_lines_text s). reflexivity. }
  assert (Hne : input_lines s <> []) by (rewrite input_lines_text; apply text_lines_ne).
  assert (Htl : Forall (fun l => ~ In TAB l) (input_lines s)).
  { rewrite input_lines_text. apply Forall_forall. intros l Hl G. apply Ht. eapply text_lines_incl; eassumption. }
  pose proof (quote_lines (input_lines s) (reset (new_parser smart)) (reset (new_parser smart)) Htl Hne eq_refl eq_refl eq_refl eq_refl (or_intror (conj eq_refl eq_refl)) eq_refl) as H.
  destruct (incorporate_lines (input_lines s) (reset (new_parser smart))) as [p1|e] eqn:E1; cbn [bind] in *.
  - destruct H as (q1 & E2 & H). rewrite E2 in Es'. cbn [bind] in Es'.
    pose proof (finish_sim 0 2 1 None [] quote_Rl False quote_hex same_smart no_pre no_pre_blank no_pre no_pre_inlines (length (input_lines s)) p1 q1 ltac:(lia) (fun _ _ X => X) H ltac:(intros x t Ex Et; eapply (blocks_leaf _ s); eassumption)) as G. rewrite Nat.add_0_r in G.
    destruct (finish (length (input_lines s)) p1) as [t|e].
    + destruct G as (t' & E3 & d & k & d' & k' & -> & G1 & G2 & G3 & G4 & G5 & [[X _]|(_ & e & He & ->)]); [discriminate|]. rewrite E3 in Es'. exists e, d', k'. split; [exact Es'|].
      pose proof (Hty _ Hs eq_refl) as (_ & Hdoc & _). split; [exact Hdoc|]. split; [exact He|]. split; [exact (G5 eq_refl)|].
      specialize (Hpos _ eq_refl). apply tree_every_unfold in Hpos as [_ Hpos].
      apply no_pkrel in G2. clear - G2 Hpos. induction G2 as [|x y l l' Hx _ IH]; [constructor|]. inversion Hpos as [|a b P1 P2]; subst. constructor; [|apply IH, P2].
      eapply prel_blocks; [|exact Hx|exact P1]. intros. cbn [columns_right]. unfold quote_Rl in *. lia.
    + destruct e; cbn in G; try (rewrite Es'; exact G). congruence.
  - destruct e; cbn [rrel] in H; try (rewrite Es', H; reflexivity). congruence.
Qed.
