(** * The blocks of a text behind another one *)
From Verif Require Import Base Regex Common NormRef Node Inlines Blocks RegexFacts StrFacts StrProp Spec SpecTree SpecSame SpecLines SpecBreak SpecJoin AfterFacts InlineFacts BlockFacts BlockInv BlockRun LineFacts ParseFacts Sim SimFacts EmptyLine JoinLine JoinClose JoinStep JoinList JoinFacts TextFacts ListLine.
From Verif Require DocFacts FenceFacts BreakLine BreakForm.
From Coq Require Import ZifyBool ZifyNat ZifyN.

Lemma fnn_keeps p : let z := find_next_nonspace p in p_stack z = p_stack p /\ p_line z = p_line p /\ p_line_number z = p_line_number p /\ p_offset z = p_offset p /\ p_column z = p_column p /\ p_pct z = p_pct p /\ z = relk z p.
Proof. unfold find_next_nonspace. destruct (skip_spaces _ _ _). repeat split. Qed.
(** ** A line that is not indented *)
Lemma fnn_flush x c r : p_line x = c :: r -> p_offset x = 0 -> p_column x = 0 -> c <> SP -> c <> TAB -> c <> 10%N -> c <> 13%N ->
  let z := find_next_nonspace x in p_next_nonspace z = 0 /\ p_indent z = 0 /\ p_indented z = false /\ p_blank z = false.
Proof.
  intros El Eo Ec H1 H2 H3 H4. unfold find_next_nonspace, rest_offset. rewrite El, Eo, Ec. cbn [skipn skip_spaces].
  rewrite (proj2 (N.eqb_neq c SP) H1), (proj2 (N.eqb_neq c TAB) H2). cbn [peek nth_error]. split; [reflexivity|]. split; [reflexivity|]. split; [reflexivity|].
  cbn. rewrite (proj2 (N.eqb_neq c 10) H3), (proj2 (N.eqb_neq c 13) H4). reflexivity.
Qed.
Lemma no_marker_here x c r p : p_line x = c :: r -> p_next_nonspace x = 0 -> no_item (c :: r) -> p <> paragraph -> parse_list_marker p x = Ok (None, x).
Proof.
  intros El En [Hd Hm] Hp. unfold parse_list_marker. destruct (Nat.leb 4 _); [reflexivity|]. unfold rest_nonspace. rewrite El, En. cbn [skipn].
  destruct (list_marker (c :: r) _ _) as [[m data]|] eqn:E; [|reflexivity]. cbn zeta. revert E. unfold list_marker.
  destruct (re_search reBulletListMarker (c :: r)) as [b|] eqn:Eb.
  - intros E. apply Some_inj in E. injection E as <- <-. apply bullet_shape in Eb as (x0 & Eg & Hx & Ea). injection Ea as <- _. rewrite Eg. specialize (Hm Hx). destruct r as [|y r]; [destruct Hm|]. destruct Hm as [M1 M2].
    cbn [length Nat.add peek nth_error]. rewrite (proj2 (N.eqb_neq y TAB) M2), (proj2 (N.eqb_neq y SP) M1). reflexivity.
  - destruct (re_search reOrderedListMarker (c :: r)) as [o|] eqn:Eo; [|discriminate]. exfalso. apply ordered_marker in Eo as (ds & y & q & E & Hne & Hds & _). destruct ds as [|e ds]; [congruence|]. injection E as <- _. apply Forall_inv in Hds. congruence.
Qed.
(** ** Descending *)
Lemma descend_code x ch c r : n_t (f_data ch) = code_block -> n_is_fenced (f_data ch) = false -> p_line x = c :: r -> p_offset x = 0 -> p_column x = 0 -> c <> SP -> c <> TAB -> c <> 10%N -> c <> 13%N ->
  descend [ch] 1 x = Ok (Some 1, find_next_nonspace x).
Proof.
  intros Ht Hf El Eo Ec H1 H2 H3 H4. cbn [descend]. cbn zeta. destruct (fnn_flush x c r El Eo Ec H1 H2 H3 H4) as (F1 & F2 & F3 & F4). unfold continue_. rewrite Ht, Hf, F2, F4. reflexivity.
Qed.
Lemma descend_list x l rest c r : n_t (f_data l) = list_ -> p_line x = c :: r -> p_offset x = 0 -> p_column x = 0 -> c <> SP -> c <> TAB -> c <> 10%N -> c <> 13%N ->
  match rest with [] => True | it :: _ => n_t (f_data it) = item /\ exists ld, n_list_data (f_data it) = Some ld /\ 1 <= ld_padding ld end ->
  descend (l :: rest) 1 x = Ok (Some 2, find_next_nonspace x).
Proof.
  intros Ht El Eo Ec H1 H2 H3 H4 Hr. cbn [descend]. cbn zeta. destruct (fnn_flush x c r El Eo Ec H1 H2 H3 H4) as (F1 & F2 & F3 & F4). unfold continue_ at 1. rewrite Ht. cbn [bind].
  destruct rest as [|it rest]; [reflexivity|]. destruct Hr as (Hi & ld & Eld & Hld). cbn [descend]. cbn zeta. rewrite fnn_idem. unfold continue_. rewrite Hi, F4. unfold item_indent. rewrite Eld. cbn [bind]. rewrite F2.
  assert (E : Nat.leb (ld_marker_offset ld + ld_padding ld) 0 = false) by (apply Nat.leb_gt; lia). rewrite E. reflexivity.
Qed.
(** ** The document node *)
Lemma srel_bottom dl dc dd LD LK Rl ex Pre : forall st st', srel dl dc dd LD LK Rl ex Pre st st' -> exists u b, st = u ++ [b] /\ bdata (f_data b).
Proof. induction 1 as [b b' e Hb _|f f' st st' _ _ (u & b & -> & Hb)]; [exists [], b; split; [reflexivity|apply Hb]|]. exists (f :: u), b. split; [reflexivity|exact Hb]. Qed.
Lemma text_run smart s p1 : incorporate_lines (text_lines s) (reset (new_parser smart)) = Ok p1 ->
  p_smart p1 = smart /\ exists u b, p_stack p1 = u ++ [b] /\ n_sourcepos (f_data b) <> None /\ n_string_content (f_data b) = Some [].
Proof.
  intros E. pose proof (input_lines_ne s) as Hne. rewrite input_lines_text in Hne. assert (Hne' : text_lines s <> []) by (intros X; rewrite X in Hne; cbn in Hne; lia).
  pose proof (lines_sim 0 C02_Rl True C02_hex (fun x y => y = x /\ x = smart) no_pre no_pre_blank (text_lines s) (reset (new_parser smart)) (reset (new_parser smart)) (fun _ => eq_refl) Hne' eq_refl (srel_doc 0 0 C02_Rl True) eq_refl eq_refl eq_refl (conj eq_refl eq_refl)) as H.
  rewrite E in H. destruct H as (q & Eq & H). apply Ok_inj in Eq as <-. split; [apply (r_smart _ _ _ _ _ _ _ _ _ _ _ (r_0 _ _ _ _ _ _ _ _ _ _ _ H))|].
  destruct (srel_bottom _ _ _ _ _ _ _ _ _ _ (r_stack _ _ _ _ _ _ _ _ _ _ _ (r_0 _ _ _ _ _ _ _ _ _ _ _ H))) as (u & b & Eu & _ & Hb1 & Hb2). exists u, b. auto.
Qed.
Lemma infix_replace w s : ~ In 65533%N w -> infix w (replace_char 0 65533 s) -> infix w s.
Proof.
  intros Hw (p & q & E). unfold replace_char in E. apply map_eq_app in E as (s1 & s2 & -> & E1 & E2). apply map_eq_app in E2 as (s3 & s4 & -> & E2 & E3). exists s1, s4. f_equal. f_equal.
  rewrite <- E2. symmetry. etransitivity; [|apply map_id]. apply map_ext_in. intros c Hc. destruct (N.eqb_spec c 0) as [->|]; [|reflexivity]. exfalso. apply Hw. rewrite <- E2. apply in_map_iff. exists 0%N. split; [reflexivity|exact Hc].
Qed.

Lemma in_last {X} (l : list X) x : last_opt l = Some x -> exists l0, l = l0 ++ [x].
Proof. destruct l as [|y l _] using rev_ind; [discriminate|]. rewrite last_opt_app by discriminate. cbn [last_opt]. intros E. injection E as <-. exists l. reflexivity. Qed.
(** ** What is open at the end of a text *)
Section End.
  Variables (smart : bool) (a : str) (p1 p2 : parser) (d : ndata) (k : list tree).
  Hypothesis Ha : Forall code_point a.
  Hypothesis Hr : ~ infix [93; 58]%N a.
  Hypothesis E1 : incorporate_lines (text_lines a) (reset (new_parser smart)) = Ok p1.
  Hypothesis E2 : finalize_all (length (p_stack p1)) (length (text_lines a)) p1 = Ok p2.
  Hypothesis E3 : p_doc p2 = Some (T d k).
  Notation Qa := (doc_char a).
  Notation Aa := (fun w => infix w (replace_char 0 65533 a)).
  Lemma no_colon : ~ infix [93; 58]%N (replace_char 0 65533 a).
  Proof. intros X. apply Hr. eapply infix_replace; [|exact X]. cbn. intuition discriminate. Qed.
  Lemma a_between : between Qa Aa (length (text_lines a)) p1.
  Proof.
    assert (Hl : Forall (fun l => ok_str Qa Aa (replace_char 0 65533 l)) (text_lines a)).
    { rewrite <- input_lines_text. apply Forall_forall. intros l Hl. eapply ok_infix; [apply infix_map, input_lines_infix, Hl|apply ok_doc, Ha]. }
    pose proof (incorporate_lines_spec Qa (plain_doc_char a) (doc_char_code a) Aa (text_lines a) 0 (reset (new_parser smart)) Hl (reset_between Qa Aa (new_parser smart))) as H. rewrite E1 in H. exact H.
  Qed.
  Lemma a_num : p_line_number p1 = length (text_lines a).
  Proof. apply a_between. Qed.
  Lemma a_end : exists up b pc, p_stack p1 = up ++ [b] /\ f_type b = document /\ n_sourcepos (f_data b) <> None /\ n_string_content (f_data b) = Some [] /\
    fin_to 1 (length (p_stack p1)) (p_line_number p1) p1 = Ok pc /\ p_stack pc = [F (f_data b) k] /\ p_refmap pc = [] /\ p_smart pc = smart /\ p_line_number pc = length (text_lines a) /\
    match last_opt up with None => pc = p1 | Some ch => exists t, k = f_kids b ++ [t] /\ closing (length (text_lines a)) ch t end.
  Proof.
    destruct (text_run smart a p1 E1) as (Esm & up & b & Es & Hb1 & Hb2). pose proof a_between as (B1 & B2 & B3 & B4 & B5).
    assert (Eb : f_type b = document).
    { clear -B1 Es. rewrite Es in B1. revert B1. clear Es. induction up as [|f up IH]; cbn [app stack_ok]; [tauto|]. intros [_ H]. apply IH. destruct up; cbn [app] in *; tauto. }
    pose proof E2 as G. rewrite finalize_all_to in G; [|rewrite Es, app_length; cbn; lia|apply le_n]. rewrite <- a_num in G at 1.
    destruct (fin_to 1 _ _ p1) as [pc|] eqn:Ef; [|discriminate]. cbn [bind] in G. destruct (finalize_tip _ pc) as [r|] eqn:Er; [|discriminate]. cbn [bind] in G. apply Ok_inj in G as ->.
    destruct (fin_to_base 1 (p_line_number p1) [] eq_refl up b _ p1 pc Es Ef) as (ex & Epc & Hex).
    destruct (fin_doc _ _ _ _ _ Epc Eb Er) as (d' & Ed' & _ & Erm & Esm'). assert (Ek : k = f_kids b ++ ex) by congruence.
    pose proof (parse_blocks_refs Qa (plain_doc_char a) (doc_char_code a) Aa a (new_parser smart) (ok_doc a Ha)) as Hrf. unfold parse_blocks in Hrf. rewrite (input_lines_text a), E1 in Hrf. cbn [bind] in Hrf. rewrite E2 in Hrf.
    destruct Hrf as (t & _ & _ & _ & _ & _ & _ & Hrf). specialize (Hrf no_colon).
    pose proof (fin_to_held _ _ _ _ _ Ef) as [Hh _].
    exists up, b, pc. split; [exact Es|]. split; [exact Eb|]. split; [exact Hb1|]. split; [exact Hb2|]. split; [reflexivity|]. split; [rewrite Ek; exact Epc|]. split; [congruence|].
    split; [rewrite Hh; exact Esm|]. split; [rewrite Hh; exact a_num|]. destruct (last_opt up) as [ch|] eqn:El; [|tauto].
    destruct Hex as [[-> [Hg (c & Hc & Hi)]]|(t0 & -> & Hcl)].
    - exfalso. apply no_colon. rewrite Es in B1. destruct (in_last _ _ El) as (l0 & ->). clear -B1 Hc Hi. rewrite <- app_assoc in B1. revert B1. induction l0 as [|f l0 IH]; cbn [app stack_ok].
      + intros [[H1 _] _]. destruct H1 as (_ & _ & _ & _ & _ & _ & s & Es & [_ Hs] & _). rewrite Hc in Es. injection Es as <-. apply Hs; [|exact Hi]. split; [discriminate|]. unfold SP, LF. cbn. split; intuition discriminate.
      + intros [_ H]. apply IH. destruct l0; cbn [app] in *; tauto.
    - exists t0. split; [exact Ek|]. rewrite <- a_num. exact Hcl.
  Qed.
End End.

(** ** The second text *)
Lemma flush_replace l : flush_left l -> (forall c, In c l -> c <> 10%N /\ c <> 13%N) -> exists c r, replace_char 0 65533 l = c :: r /\ c <> SP /\ c <> TAB /\ c <> 10%N /\ c <> 13%N.
Proof.
  destruct l as [|c r]; [intros []|]. intros [H1 H2] H3. destruct (H3 c (or_introl eq_refl)) as [H4 H5]. unfold replace_char. cbn [map]. do 2 eexists. split; [reflexivity|].
  destruct (N.eqb_spec c 0); [repeat split; discriminate|auto].
Qed.
Lemma item_replace l : no_item l -> no_item (replace_char 0 65533 l).
Proof.
  destruct l as [|c r]; [intros _; exact I|]. intros [H1 H2]. unfold replace_char. cbn [map no_item]. destruct (N.eqb_spec c 0) as [->|Hc].
  - split; [vm_compute; reflexivity|]. cbn. intuition discriminate.
  - split; [exact H1|]. intros Hi. specialize (H2 Hi). destruct r as [|x r]; [exact H2|]. destruct H2 as [H2 H3]. cbn [map flush_left]. destruct (N.eqb_spec x 0); [split; discriminate|auto].
Qed.
Lemma w_line (p1 pc : parser) (ln : str) m : held p1 pc ->
  set_p_all_closed true (relk (set_p_matched m (set_p_all_closed false (find_next_nonspace (line_start ln p1)))) pc) = find_next_nonspace (set_p_matched m (set_p_all_closed true (line_start ln pc))).
Proof.
  intros [E1 E2]. set (v := set_p_matched m (set_p_all_closed true (line_start ln pc))). set (x0 := find_next_nonspace (line_start ln p1)).
  assert (Ev : v = rel (line_start ln p1) v) by (unfold v; rewrite E1; reflexivity). rewrite Ev, fnn_rel. fold x0. unfold v. rewrite E1. unfold x0, find_next_nonspace. destruct (skip_spaces _ _ _). unfold relk, rel, line_start. cbn. rewrite E2. reflexivity.
Qed.
Lemma leaf_alone Q A E u ch b : stack_ok Q A E (u ++ [ch; b]) -> match f_type ch with heading | thematic_break | code_block => True | _ => False end -> u = [].
Proof.
  destruct u as [|f u _] using rev_ind; [reflexivity|]. rewrite <- app_assoc. cbn [app]. intros H Ht. exfalso. revert H. induction u as [|g u IH]; cbn [app stack_ok].
  - intros [_ (H & _)]. destruct (f_type ch); try destruct Ht; discriminate.
  - intros [_ H]. apply IH. destruct u; cbn [app] in *; tauto.
Qed.
Lemma list_above Q A E u l b : stack_ok Q A E (u ++ [l; b]) -> f_type l = list_ ->
  match rev u with [] => True | it :: _ => n_t (f_data it) = item /\ exists ld, n_list_data (f_data it) = Some ld /\ 1 <= ld_padding ld end.
Proof.
  destruct u as [|f u _] using rev_ind; [intros; exact I|]. rewrite rev_app_distr. cbn [rev app]. rewrite <- app_assoc. cbn [app]. intros H Ht.
  assert (G : stack_ok Q A E [f; l; b]) by (revert H; clear; induction u as [|g u IH]; cbn [app]; [auto|]; intros [_ H]; apply IH; destruct u; cbn [app] in *; tauto).
  destruct G as [[Hf _] (G & _)]. fold (f_type f). assert (Ei : f_type f = item) by (rewrite Ht in G; destruct (f_type f); try discriminate; reflexivity). split; [exact Ei|].
  destruct Hf as (_ & _ & _ & Hk & _). unfold kind_ok in Hk. unfold f_type in Ei. rewrite Ei in Hk. destruct Hk as (ld & H1 & _ & H2). exists ld. auto.
Qed.
Lemma stack_bottom Q A E : forall st, stack_ok Q A E st -> exists up b, st = up ++ [b] /\ f_type b = document.
Proof.
  induction st as [|f st IH]; [intros []|]. destruct st as [|g st]; cbn [stack_ok]; [intros H; exists [], f; split; [reflexivity|tauto]|]. intros [_ (_ & _ & H)].
  destruct IH as (up & b & -> & Hb); [exact H|]. exists (f :: up), b. auto.
Qed.
Lemma incorporate_snoc ls l r p1 : incorporate_lines (ls ++ [l]) r = Ok p1 -> exists p0, incorporate_lines ls r = Ok p0 /\ incorporate_line l p0 = Ok p1.
Proof.
  rewrite incorporate_app. destruct (incorporate_lines ls r) as [p0|]; [|discriminate]. cbn [bind incorporate_lines]. destruct (incorporate_line l p0) as [p|] eqn:E; [|discriminate]. cbn [bind]. intros G. exists p0. split; [reflexivity|congruence].
Qed.
Lemma ends_empty smart a p1 : Forall code_point a -> incorporate_lines (text_lines a) (reset (new_parser smart)) = Ok p1 -> last_opt (text_lines a) = Some [] -> exists t, tip p1 = Ok t /\ f_type t <> paragraph.
Proof.
  intros Ha E1 El. destruct (in_last _ _ El) as (ls & Els). pose proof (reset_between (doc_char a) (fun w => infix w (replace_char 0 65533 a)) (new_parser smart)) as B. set (r := reset _) in *. clearbody r. rewrite Els in E1. destruct (incorporate_snoc _ _ _ _ E1) as (p0 & E0 & E). clear E1.
  assert (Hl : Forall (fun l => ok_str (doc_char a) (fun w => infix w (replace_char 0 65533 a)) (replace_char 0 65533 l)) ls).
  { apply Forall_forall. intros l Hl. eapply ok_infix; [apply infix_map, input_lines_infix|apply ok_doc, Ha]. rewrite input_lines_text, Els. apply in_or_app. left. exact Hl. }
  pose proof (incorporate_lines_spec (doc_char a) (plain_doc_char a) (doc_char_code a) (fun w => infix w (replace_char 0 65533 a)) ls 0 r Hl B) as H. rewrite E0 in H. clear E0. destruct H as (H & _).
  destruct (stack_bottom _ _ _ _ H) as (up & b & Eu & Eb). destruct b as [db kb]. exact (empty_tip p0 p1 up db kb Eu Eb E).
Qed.
Lemma fnn_smart p : p_smart (find_next_nonspace p) = p_smart p.
Proof. unfold find_next_nonspace. destruct (skip_spaces _ _ _). reflexivity. Qed.
(** the first line of the second text: on its own, and with everything of the first text closed *)
Lemma first_line_sim dl Rl ex (Rs : bool -> bool -> Prop) Pre (r x0 pc : parser) ln a : p_stack r = [doc_frame] -> p_line_number r = 0 -> srel dl 0 0 None [] Rl ex Pre [doc_frame] (p_stack pc) -> p_line x0 = ln -> p_line_number x0 = S dl -> p_offset x0 = 0 -> p_column x0 = 0 -> p_pct x0 = false ->
  p_refmap pc = p_refmap r -> Rl (p_last_line_length r) (p_last_line_length pc) -> Rs (p_smart r) (p_smart x0) ->
  R0 dl 0 0 None [] Rl ex Rs Pre (set_p_matched 1 (set_p_all_closed true (line_start ln r))) (set_p_all_closed true (relk (set_p_matched 2 (set_p_all_closed a x0)) pc)).
Proof.
  intros H1 H2 H3 H4 H5 H6 H7 H8 H9 H10 H11. constructor.
  - change (srel dl 0 0 None [] Rl ex Pre (p_stack r) (p_stack pc)). rewrite H1. exact H3.
  - exists []. split; [reflexivity|exact H4].
  - left. reflexivity.
  - change (p_line_number x0 = S (p_line_number r) + dl). rewrite H5, H2. reflexivity.
  - change (1 <= S (p_line_number r)). lia.
  - exact H6.
  - exact H7.
  - exact H8.
  - left. reflexivity.
  - reflexivity.
  - intros X. discriminate X.
  - exact H9.
  - exact H10.
  - exact H11.
Qed.
Lemma start_facts ln p1 pc : held p1 pc -> exists x0, find_next_nonspace (line_start ln p1) = x0 /\ p_line x0 = ln /\ p_line_number x0 = S (p_line_number p1) /\ p_offset x0 = 0 /\ p_column x0 = 0 /\ p_pct x0 = false /\
  p_smart x0 = p_smart p1 /\ x0 = relk x0 p1 /\ find_next_nonspace x0 = x0 /\
  forall m, set_p_all_closed true (relk (set_p_matched m (set_p_all_closed false x0)) pc) = find_next_nonspace (set_p_matched m (set_p_all_closed true (line_start ln pc))).
Proof.
  intros Hh. eexists. split; [reflexivity|]. destruct (fnn_keeps (line_start ln p1)) as (_ & K2 & K3 & K4 & K5 & K6 & K7). rewrite K2, K3, K4, K5, K6, fnn_smart. do 6 (split; [reflexivity|]).
  split; [exact K7|]. split; [apply fnn_idem|]. intros m. apply w_line, Hh.
Qed.
Lemma leaf_first p1 pc u ch b k l Q A E : stack_ok Q A E (p_stack p1) -> p_stack p1 = u ++ [ch; b] -> f_type b = document -> fin_to 1 (length (p_stack p1)) (p_line_number p1) p1 = Ok pc -> p_stack pc = [F (f_data b) k] ->
  match f_type ch with heading | thematic_break | code_block => True | _ => False end ->
  (forall x, p_line x = replace_char 0 65533 l -> p_offset x = 0 -> p_column x = 0 -> descend [ch] 1 x = Ok (Some 1, find_next_nonspace x)) ->
  incorporate_line l p1 = incorporate_line l pc.
Proof.
  intros B1 Es Eb Ef Epc Hty Hd. pose proof Es as Es0. rewrite Es in B1. assert (u = []) as -> by (eapply leaf_alone; eassumption). cbn [app] in Es.
  rewrite (incorporate_doc l pc (f_data b) k Epc Eb), incorporate_line_eq. cbn zeta. set (ln := replace_char 0 65533 l) in *. clearbody ln. change (p_stack (line_start ln p1)) with (p_stack p1). rewrite Es. cbn [rev app tl].
  rewrite (Hd (line_start ln p1) eq_refl eq_refl eq_refl). cbn [bind]. destruct (start_facts ln p1 pc (fin_to_held _ _ _ _ _ Ef)) as (x0 & -> & _ & X2 & _ & _ & _ & _ & X1 & X3 & Hw).
  apply (leaf_step p1 pc [ch] b ln Es Eb Ef x0 X1 X2 X3); [discriminate| |apply Hw].
  unfold tip. rewrite Es. exists ch. split; [reflexivity|]. intros X. rewrite X in Hty. destruct Hty.
Qed.
Lemma blank_first p1 pc u ch b k : p_stack p1 = u ++ [ch; b] -> f_type b = document -> fin_to 1 (length (p_stack p1)) (p_line_number p1) p1 = Ok pc -> p_stack pc = [F (f_data b) k] ->
  f_type ch = paragraph \/ f_type ch = block_quote -> incorporate_line [] p1 = incorporate_line [] pc.
Proof.
  intros Es Eb Ef Epc Hty. rewrite (incorporate_doc [] pc (f_data b) k Epc Eb), incorporate_line_eq. cbn zeta. change (replace_char 0 65533 []) with (@nil N). set (ln := @nil N).
  change (p_stack (line_start ln p1)) with (p_stack p1). rewrite Es, rev_app_distr. cbn [rev app tl]. destruct (fnn_eol (line_start ln p1) eq_refl) as (Y1 & Y2 & Y3 & Y4 & Y5 & Y6 & Y7 & _).
  assert (Hd : descend (ch :: rev u) 1 (line_start ln p1) = Ok (Some 1, find_next_nonspace (line_start ln p1))).
  { cbn [descend]. cbn zeta. set (z := find_next_nonspace _) in *. clearbody z. unfold continue_. unfold f_type in Hty. destruct Hty as [-> | ->].
    - rewrite Y6. reflexivity.
    - unfold peek. rewrite Y1, (proj2 (nth_error_None (p_line z) (length (p_line z))) (le_n _)). cbn [opt_is]. rewrite andb_false_r. reflexivity. }
  rewrite Hd. cbn [bind]. destruct (start_facts ln p1 pc (fin_to_held _ _ _ _ _ Ef)) as (x0 & Ex & _ & X2 & _ & _ & _ & _ & X1 & X3 & Hw). rewrite Ex in *.
  assert (Es' : p_stack p1 = (u ++ [ch]) ++ [b]) by (rewrite Es, <- app_assoc; reflexivity).
  apply (blank_step p1 pc (u ++ [ch]) b ln Es' Eb Ef x0 X1 X2 X3); [destruct u; discriminate|exact Y6|exact Y5|unfold rest_nonspace; rewrite Y1; apply skipn_all|apply Hw].
Qed.
Lemma list_first n (r : parser) p1 pc u ch b k l Q A E : stack_ok Q A E (p_stack p1) -> p_stack p1 = u ++ [ch; b] -> f_type b = document -> fin_to 1 (length (p_stack p1)) (p_line_number p1) p1 = Ok pc -> p_stack pc = [F (f_data b) k] ->
  f_type ch = list_ -> (exists t, tip p1 = Ok t /\ f_type t <> paragraph) -> flush_left l -> no_item l -> no_eol l ->
  p_stack r = [doc_frame] -> p_line_number r = 0 -> p_refmap pc = p_refmap r -> p_smart r = p_smart p1 -> p_line_number p1 = n ->
  srel n 0 0 None [] any_Rl False (noted k) [doc_frame] (p_stack pc) ->
  rrel (R1 n 0 0 None [] any_Rl False same_smart (noted k)) (incorporate_line l r) (incorporate_line l p1).
Proof.
  intros B1 Es Eb Ef Epc Ety Htip S2 S3 Heol R1 R2 R3 R4 Hn Hsr. destruct (flush_replace l S2 Heol) as (c & rs & Ec & C1 & C2 & C3 & C4). apply item_replace in S3. rewrite Ec in S3.
  pose proof B1 as B2. rewrite Es in B2. pose proof (list_above _ _ _ _ _ _ B2 Ety) as Habove.
  rewrite (incorporate_doc l r (f_data doc_frame) (f_kids doc_frame) R1 eq_refl), (incorporate_line_eq l p1). cbn zeta. set (ln := replace_char 0 65533 l) in *. clearbody ln. clear l S2 Heol B1 B2. change (p_stack (line_start ln p1)) with (p_stack p1). rewrite Es, rev_app_distr. cbn [rev app tl].
  rewrite (descend_list (line_start ln p1) ch (rev u) c rs Ety Ec eq_refl eq_refl C1 C2 C3 C4 Habove). cbn [bind].
  destruct (fnn_flush (line_start ln p1) c rs Ec eq_refl eq_refl C1 C2 C3 C4) as (F1 & F2 & F3 & F4).
  destruct (start_facts ln p1 pc (fin_to_held _ _ _ _ _ Ef)) as (x0 & Ex & K2 & X2 & K4 & K5 & K6 & K7 & X1 & X3 & _). rewrite Ex in *. clear Ex F2.
  assert (L1 : 2 <= length (p_stack p1)) by (rewrite Es, app_length; cbn; clear; lia). rewrite (fin_to_split 1 (p_line_number p1) (le_n 1) (length (p_stack p1)) p1 L1 (Nat.le_add_r _ _)) in Ef.
  destruct (fin_to 2 _ _ p1) as [q|] eqn:Eq; [|discriminate]. cbn [bind] in Ef.
  assert (X6 : p_next_nonspace x0 < length (p_line x0)) by (rewrite F1, K2, Ec; apply Nat.lt_0_succ).
  rewrite (list_rest p1 u ch b ln Es Ety x0 X1 X2 F3 F4 X6).
  set (x := set_p_matched 2 (set_p_all_closed (Nat.eqb 2 (length (p_stack x0))) x0)).
  assert (Xm : forall t0, t0 <> paragraph -> parse_list_marker t0 x = Ok (None, x)).
  { intros t0 Ht0. apply (no_marker_here x c rs); [change (p_line x0 = c :: rs); rewrite K2; exact Ec|exact F1|exact S3|exact Ht0]. }
  assert (H0 : R0 n 0 0 None [] any_Rl False same_smart (noted k) (set_p_matched 1 (set_p_all_closed true (line_start ln r))) (set_p_all_closed true (relk x pc))).
  { unfold x. apply first_line_sim; [exact R1|exact R2|exact Hsr|exact K2|rewrite X2, Hn; reflexivity|exact K4|exact K5|exact K6|exact R3|exact I|unfold same_smart; rewrite K7, R4; reflexivity]. }
  apply (list_step p1 pc q u ch b ln Es Ety Eb Eq Ef x0 X1 X2 X3 F3 F4 X6 Htip Xm n any_Rl False (no_hex _) same_smart k (noted k) Epc (noted_blank k) (fun _ => iff_refl _) _ H0); [|exact I].
  change (1 <= length (p_stack r)). rewrite R1. apply le_n.
Qed.
Lemma para_alone Q A E u ch b : stack_ok Q A E (u ++ [ch; b]) -> f_type ch = paragraph -> u = [].
Proof.
  destruct u as [|f u _] using rev_ind; [reflexivity|]. rewrite <- app_assoc. cbn [app]. intros H Ht. exfalso. revert H. induction u as [|g u IH]; cbn [app stack_ok].
  - intros [_ (H & _)]. rewrite Ht in H. discriminate.
  - intros [_ H]. apply IH. destruct u; cbn [app] in *; tauto.
Qed.
(** a line that interrupts a paragraph *)
Lemma para_closed p1 pc ch b x0 k : p_stack p1 = [ch; b] -> f_type ch = paragraph -> f_type b = document -> fin_to 1 2 (p_line_number p1) p1 = Ok pc -> p_stack pc = [F (f_data b) k] -> x0 = relk x0 p1 -> p_line_number x0 = S (p_line_number p1) ->
  let x := set_p_matched 2 (set_p_all_closed true x0) in closed_to x x (set_p_all_closed true (relk x pc)).
Proof.
  intros Es Ety Eb Ef Epc X1 X2 x. set (w := set_p_all_closed true (relk x pc)).
  assert (Exs : p_stack x = [ch; b]) by (change (p_stack x) with (p_stack x0); rewrite X1; exact Es). assert (Ews : p_stack w = [F (f_data b) k]) by exact Epc.
  assert (Efin : finalize_tip (p_line_number x - 1) x = Ok w).
  { change (p_line_number x) with (p_line_number x0). rewrite X2. replace (S (p_line_number p1) - 1) with (p_line_number p1) by (clear; lia).
    assert (E1 : finalize_tip (p_line_number p1) p1 = Ok pc).
    { cbn [fin_to] in Ef. rewrite Es in Ef. cbn [length Nat.leb] in Ef. destruct (finalize_tip (p_line_number p1) p1) as [q|] eqn:Eq; [|discriminate]. cbn [bind] in Ef. pose proof (fin_len _ p1 q ltac:(rewrite Es; cbn; clear; lia) Eq) as El. rewrite Es in El. cbn [length] in El.
      assert (El' : length (p_stack q) = 1) by (clear -El; lia). rewrite El' in Ef. cbn [Nat.leb] in Ef. exact Ef. }
    assert (Ex : x = relk x p1) by (unfold x; rewrite X1; reflexivity). rewrite Ex, fin_relk, E1. reflexivity. }
  constructor.
  - reflexivity.
  - reflexivity.
  - reflexivity.
  - intros tag off Ht. assert (Etag : ntype_eqb tag item = false) by (destruct tag; try reflexivity; congruence). unfold add_child. rewrite Exs, Ews. cbn [length]. f_equal.
    assert (Er : make_room 2 tag w = Ok w) by (cbn [make_room]; unfold tip; rewrite Ews; cbn [hd_error of_option bind]; unfold f_type; cbn [f_data]; unfold f_type in Eb; rewrite Eb; unfold can_contain; cbn [is_block_type bind]; rewrite Etag; reflexivity).
    rewrite Er. change (make_room 3 tag x) with (let* t := tip x in let* ok := can_contain (f_type t) tag in if ok then Ok x else let* p' := finalize_tip (p_line_number x - 1) x in make_room 2 tag p').
    unfold tip at 1. rewrite Exs. cbn [hd_error of_option bind]. rewrite Ety. unfold can_contain. cbn [is_block_type bind]. rewrite Efin. cbn [bind]. exact Er.
Qed.
Lemma para_first n (r : parser) p1 pc u ch b k l Q A E : stack_ok Q A E (p_stack p1) -> p_stack p1 = u ++ [ch; b] -> f_type b = document -> fin_to 1 (length (p_stack p1)) (p_line_number p1) p1 = Ok pc -> p_stack pc = [F (f_data b) k] ->
  f_type ch = paragraph -> interrupts l -> no_eol l ->
  p_stack r = [doc_frame] -> p_line_number r = 0 -> p_refmap pc = p_refmap r -> p_smart r = p_smart p1 -> p_line_number p1 = n ->
  srel n 0 0 None [] any_Rl False (noted k) [doc_frame] (p_stack pc) ->
  rrel (R1 n 0 0 None [] any_Rl False same_smart (noted k)) (incorporate_line l r) (incorporate_line l p1).
Proof.
  intros B1 Es Eb Ef Epc Ety Hb Heol R1 R2 R3 R4 Hn Hsr. rewrite Es in B1. assert (u = []) as -> by (eapply para_alone; eassumption). cbn [app] in Es. clear B1. rewrite Es in Ef. cbn [length] in Ef.
  destruct Hb as (i & x1 & El & Hi & Hb). apply BreakForm.break_replace in Hb. assert (Hx1 : no_eol (replace_char 0 65533 x1)) by (apply FenceFacts.replace_no_eol; intros c Hc; apply Heol; rewrite El; apply in_or_app; right; exact Hc).
  assert (Eln : replace_char 0 65533 l = repeat SP i ++ replace_char 0 65533 x1) by (rewrite El, FenceFacts.replace_app, FenceFacts.replace_repeat by discriminate; reflexivity). clear El. set (x2 := replace_char 0 65533 x1) in *. clearbody x2.
  destruct (BreakForm.break_strong x2 Hb) as (c & rs & Ec & Hc & Hs); [intros X; apply Hx1 in X; apply (proj1 X); reflexivity|].
  assert (Hcs : c <> SP /\ c <> TAB /\ c <> 10%N /\ c <> 13%N) by (repeat (destruct Hc as [<-|Hc]; [repeat split; discriminate|]); destruct Hc). destruct Hcs as (C1 & C2 & C3 & C4). clear Hc Hx1 Hb.
  rewrite (incorporate_doc l r (f_data doc_frame) (f_kids doc_frame) R1 eq_refl), (incorporate_line_eq l p1). cbn zeta. set (ln := replace_char 0 65533 l) in *. clearbody ln. clear l Heol. change (p_stack (line_start ln p1)) with (p_stack p1). rewrite Es. cbn [rev app tl].
  rewrite Ec in Eln. destruct (DocFacts.fnn_spec (line_start ln p1) i c rs Eln eq_refl eq_refl C1 C2 C3 C4) as (_ & F1 & _ & F2 & F3 & F4 & F5 & F6 & _).
  assert (Hd : descend [ch] 1 (line_start ln p1) = Ok (Some 2, find_next_nonspace (line_start ln p1))).
  { cbn [descend]. cbn zeta. set (z := find_next_nonspace _) in *. clearbody z. unfold continue_. unfold f_type in Ety. rewrite Ety, F4. reflexivity. }
  rewrite Hd. cbn [bind]. clear Hd. destruct (start_facts ln p1 pc (fin_to_held _ _ _ _ _ Ef)) as (x0 & Ex & K2 & X2 & K4 & K5 & K6 & K7 & X1 & X3 & _). rewrite Ex in *. clear Ex.
  pose proof (para_closed p1 pc ch b x0 k Es Ety Eb Ef Epc X1 X2) as Hcl. cbn zeta in Hcl.
  assert (Exs : p_stack x0 = [ch; b]) by (rewrite X1; exact Es).
  unfold line_rest. rewrite Exs. cbn [length Nat.eqb]. set (x := set_p_matched 2 (set_p_all_closed true x0)) in *. assert (Ebx : block_at 2 x = Ok ch) by (unfold block_at; change (p_stack x) with (p_stack x0); rewrite Exs; reflexivity). rewrite Ebx. cbn [bind]. rewrite Ety.
  change (accepts_lines paragraph) with (Ok (A:=bool) true). cbn [bind]. change (negb (ntype_eqb paragraph paragraph) && true)%bool with false. cbn iota.
  set (w := set_p_all_closed true (relk x pc)) in *.
  assert (H0 : R0 n 0 0 None [] any_Rl False same_smart (noted k) (set_p_matched 1 (set_p_all_closed true (line_start ln r))) w).
  { unfold w, x. apply first_line_sim; [exact R1|exact R2|exact Hsr|exact K2|rewrite X2, Hn; reflexivity|exact K4|exact K5|exact K6|exact R3|exact I|unfold same_smart; rewrite K7, R4; reflexivity]. }
  set (y := set_p_matched 1 (set_p_all_closed true (line_start ln r))) in *. assert (Hly : 1 <= length (p_stack y)) by (change (p_stack y) with (p_stack r); rewrite R1; apply le_n). clearbody y.
  pose proof (starts_loop_sim n 0 0 None [] any_Rl False (no_hex _) same_smart (noted k) (noted_blank k) (S (length ln)) (S (length ln)) 1 y w (le_n _) H0 (conj (le_n 1) Hly)) as Hss. change (1 + 0) with 1 in Hss.
  assert (Etx : tip x = Ok ch) by (unfold tip; change (p_stack x) with (p_stack x0); rewrite Exs; reflexivity). assert (Etw : tip w = Ok (F (f_data b) k)) by (unfold tip; change (p_stack w) with (p_stack pc); rewrite Epc; reflexivity).
  assert (Ebw : block_at 1 w = Ok (F (f_data b) k)) by (unfold block_at; change (p_stack w) with (p_stack pc); rewrite Epc; reflexivity).
  assert (Hfx : find_next_nonspace x = x) by (unfold x; rewrite fnn_flags, X3; reflexivity).
  assert (I1 : p_indented x = false) by (change (p_indented x) with (p_indented x0); rewrite F3; apply Nat.leb_gt; clear -Hi; lia). assert (I2 : p_indent x <= 3) by (change (p_indent x) with (p_indent x0); rewrite F2; exact Hi).
  assert (I3 : rest_nonspace x = x2) by (change (rest_nonspace x) with (rest_nonspace x0); rewrite F5, Ec; reflexivity). assert (I4 : peek (p_line x) (p_next_nonspace x) = Some c) by exact F6.
  pose proof (BreakLine.loop_par x w Hcl c x2 I1 I2 I3 I4 Hs ch (F (f_data b) k) Etx Ety Etw Eb (length ln) Hfx Ebx Ebw) as G.
  unfold line_tail. destruct (starts_loop _ 2 x) as [[k0 p]|e].
  - destruct G as (k1 & G). rewrite G in Hss. destruct (starts_loop _ 1 y) as [[n4 y4]|e]; [|destruct e; cbn in Hss |- *; try discriminate; exact I].
    destruct Hss as ([n5 w5] & E5 & Hss). apply Ok_inj in E5. injection E5 as <- <-. cbn [snd bind] in *. apply line_end_sim; [apply no_hex|apply noted_blank|exact Hss|exact I].
  - rewrite G in Hss. destruct (starts_loop _ 1 y) as [[n4 y4]|e']; [destruct Hss as (? & X & _); discriminate|]. cbn [bind]. destruct e'; cbn in Hss |- *; try exact I; congruence.
Qed.
Lemma lines_join n (r : parser) p1 pc u ch b k l ls Q A E : stack_ok Q A E (p_stack p1) -> p_stack p1 = u ++ [ch; b] -> f_type b = document -> fin_to 1 (length (p_stack p1)) (p_line_number p1) p1 = Ok pc -> p_stack pc = [F (f_data b) k] ->
  p_stack r = [doc_frame] -> p_line_number r = 0 -> p_refmap pc = p_refmap r -> p_smart r = p_smart p1 -> p_line_number p1 = n -> no_eol l ->
  srel n 0 0 None [] any_Rl False (noted k) [doc_frame] (p_stack pc) ->
  match f_type ch with
  | heading | thematic_break => True
  | code_block => n_is_fenced (f_data ch) = false /\ flush_left l
  | list_ => (exists t, tip p1 = Ok t /\ f_type t <> paragraph) /\ flush_left l /\ no_item l
  | paragraph => l = [] \/ interrupts l
  | block_quote => l = []
  | _ => False
  end ->
  rrel (R1 n 0 0 None [] any_Rl False same_smart (noted k)) (incorporate_lines (l :: ls) r) (incorporate_lines (l :: ls) p1).
Proof.
  intros B1 Es Eb Ef Epc R1 R2 R3 R4 Hn Heol Hsr Hsep. pose proof (fin_to_held _ _ _ _ _ Ef) as [Hh _].
  assert (Hone : incorporate_line l p1 = incorporate_line l pc -> rrel (Sim.R1 n 0 0 None [] any_Rl False same_smart (noted k)) (incorporate_lines (l :: ls) r) (incorporate_lines (l :: ls) p1)).
  { intros H1. assert (El : incorporate_lines (l :: ls) p1 = incorporate_lines (l :: ls) pc) by (cbn [incorporate_lines]; rewrite H1; reflexivity). rewrite El.
    apply (lines_sim n any_Rl False (no_hex _) same_smart (noted k) (noted_blank k) (l :: ls) r pc (fun _ => I)); [discriminate|exact R1|exact Hsr|rewrite Hh, R2; exact Hn|exact R3|exact I|unfold same_smart; rewrite R4, Hh; reflexivity]. }
  assert (Hleaf : match f_type ch with heading | thematic_break | code_block => True | _ => False end ->
    (forall x, p_line x = replace_char 0 65533 l -> p_offset x = 0 -> p_column x = 0 -> descend [ch] 1 x = Ok (Some 1, find_next_nonspace x)) ->
    rrel (Sim.R1 n 0 0 None [] any_Rl False same_smart (noted k)) (incorporate_lines (l :: ls) r) (incorporate_lines (l :: ls) p1)).
  { intros H1 H2. apply Hone. exact (leaf_first p1 pc u ch b k l Q A E B1 Es Eb Ef Epc H1 H2). }
  assert (Hblank : f_type ch = paragraph \/ f_type ch = block_quote -> l = [] -> rrel (Sim.R1 n 0 0 None [] any_Rl False same_smart (noted k)) (incorporate_lines (l :: ls) r) (incorporate_lines (l :: ls) p1)).
  { intros H1 H2. apply Hone. rewrite H2. exact (blank_first p1 pc u ch b k Es Eb Ef Epc H1). }
  assert (Hlines : rrel (Sim.R1 n 0 0 None [] any_Rl False same_smart (noted k)) (incorporate_line l r) (incorporate_line l p1) -> rrel (Sim.R1 n 0 0 None [] any_Rl False same_smart (noted k)) (incorporate_lines (l :: ls) r) (incorporate_lines (l :: ls) p1)).
  { intros H1. cbn [incorporate_lines]. eapply rrel_bind; [exact H1|].
    intros p q' Hpq. destruct ls as [|l2 ls]; [apply rrel_ok, Hpq|]. apply incorporate_lines_same; [apply no_hex|apply noted_blank|reflexivity|reflexivity|intros; exact I|discriminate|apply r1_rl, Hpq]. }
  destruct (f_type ch) eqn:Ety; try (exfalso; exact Hsep); try (apply Hblank; [auto|exact Hsep]).
  - destruct Hsep as (Htip & S2 & S3). apply Hlines. exact (list_first n r p1 pc u ch b k l Q A E B1 Es Eb Ef Epc Ety Htip S2 S3 Heol R1 R2 R3 R4 Hn Hsr).
  - destruct Hsep as [Hsep|Hsep]; [apply Hblank; auto|]. apply Hlines. exact (para_first n r p1 pc u ch b k l Q A E B1 Es Eb Ef Epc Ety Hsep Heol R1 R2 R3 R4 Hn Hsr).
  - apply Hleaf; [exact I|]. intros x _ _ _. cbn [descend]. cbn zeta. unfold continue_. unfold f_type in Ety. rewrite Ety. reflexivity.
  - apply Hleaf; [exact I|]. intros x _ _ _. cbn [descend]. cbn zeta. unfold continue_. unfold f_type in Ety. rewrite Ety. reflexivity.
  - destruct Hsep as (S1 & S2). destruct (flush_replace l S2 Heol) as (c & rs & Ec & C1 & C2 & C3 & C4). apply Hleaf; [exact I|]. intros x H1 H2 H3. rewrite Ec in H1. exact (descend_code x ch c rs Ety S1 H1 H2 H3 C1 C2 C3 C4).
Qed.
Theorem blocks_join smart a s p1 p2 d k : Forall code_point a -> ~ infix [93; 58]%N a ->
  incorporate_lines (text_lines a) (reset (new_parser smart)) = Ok p1 -> finalize_all (length (p_stack p1)) (length (text_lines a)) p1 = Ok p2 -> p_doc p2 = Some (T d k) -> separated k a s ->
  rrel (R1 (length (text_lines a)) 0 0 None [] any_Rl False same_smart (noted k)) (incorporate_lines (text_lines s) (reset (new_parser smart))) (incorporate_lines (text_lines s) p1).
Proof.
  intros Ha Hr E1 E2 E3 Hsep. pose proof (a_between smart a p1 Ha E1) as (B1 & _).
  destruct (a_end smart a p1 p2 d k Ha Hr E1 E2 E3) as (up & b & pc & Es & Eb & Hb1 & Hb2 & Ef & Epc & Hrm & Hsm & Hnum & Hch).
  pose proof (fin_to_held _ _ _ _ _ Ef) as [Hheld _]. pose proof (a_num smart a p1 Ha E1) as Hn1.
  pose proof (input_lines_ne s) as Hne0. rewrite input_lines_text in Hne0. assert (Hne : text_lines s <> []) by (intros X; rewrite X in Hne0; cbn in Hne0; clear -Hne0; lia). clear Hne0.
  pose proof (ends_empty smart a p1 Ha E1) as Htip. pose proof (text_lines_no_eol s) as Heol.
  assert (Hsr : srel (length (text_lines a)) 0 0 None [] any_Rl False (noted k) [doc_frame] (p_stack pc)).
  { rewrite Epc. constructor; [|left; auto]. split; [split; [left; reflexivity|split; [discriminate|reflexivity]]|]. split; [split; [left; left; exact Eb|split; [exact Hb1|exact Hb2]]|].
    split; [exists k, []; rewrite app_nil_r; split; [reflexivity|split; [left; reflexivity|constructor]]|]. split; [tauto|split; discriminate]. }
  assert (R1 : p_stack (reset (new_parser smart)) = [doc_frame]) by reflexivity. assert (R2 : p_line_number (reset (new_parser smart)) = 0) by reflexivity.
  assert (R3 : p_refmap pc = p_refmap (reset (new_parser smart))) by exact Hrm. assert (R4 : p_smart (reset (new_parser smart)) = p_smart p1) by (rewrite Hheld in Hsm; symmetry; exact Hsm).
  assert (R5 : p_smart pc = p_smart (reset (new_parser smart))) by exact Hsm.
  clear E1 Hrm Hsm E2 E3. set (r := reset (new_parser smart)) in *. clearbody r. unfold separated in Hsep. set (n := length (text_lines a)) in *.
  destruct (last_opt up) as [ch|] eqn:El.
  - destruct Hch as (t & Ek & Ht1 & Ht2 & Ht3). destruct (in_last _ _ El) as (u & Eu). rewrite Eu, <- app_assoc in Es. cbn [app] in Es. clear El Eu.
    rewrite Ek, last_opt_app in Hsep by discriminate. cbn [last_opt] in Hsep. destruct Hsep as [Hsep|Hsep]; [rewrite Ht2 in Hsep; apply Nat.lt_irrefl in Hsep; destruct Hsep|]. rewrite Ht1 in Hsep.
    destruct (text_lines s) as [|l ls] eqn:Etl; [congruence|]. cbn [hd] in Hsep. apply Forall_inv in Heol.
    apply (lines_join n r p1 pc u ch b k l ls _ _ _ B1 Es Eb Ef Epc R1 R2 R3 R4 Hn1 Heol Hsr). rewrite <- Ht3. destruct (f_type ch); try exact Hsep. split; [apply Htip|]; apply Hsep.
  - subst pc. apply (lines_sim n any_Rl False (no_hex _) same_smart (noted k) (noted_blank k) (text_lines s) r p1 (fun _ => I)); [exact Hne|exact R1|exact Hsr|rewrite R2; exact Hnum|exact R3|exact I|exact R5].
Qed.
