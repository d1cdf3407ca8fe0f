(** * Behind an empty line *)
From Verif Require Import Base Regex Common NormRef Node Inlines Blocks Html Main RegexFacts StrFacts StrProp Spec SpecTree SpecSame SpecLines SpecJoin InlineFacts BlockFacts BlockInv BlockRun LineFacts ParseFacts Sim SimFacts AfterFacts EmptyLine JoinLine JoinClose JoinStep JoinList JoinFacts JoinBlocks JoinDoc.
From Coq Require Import ZifyBool ZifyNat ZifyN.

(** ** Which blocks stay open *)
Definition stays (t : ntype) : Prop := t <> paragraph /\ t <> block_quote.
Lemma descend_stays : forall path k x n y, p_offset x = length (p_line x) -> p_pct x = false -> descend path k x = Ok (Some n, y) -> Forall (fun f => stays (f_type f)) (firstn (n - k) path) /\ p_line_number y = p_line_number x.
Proof.
  induction path as [|f path IH]; intros k x n y Ho Hp; cbn [descend]; [intros E; apply Ok_inj in E; injection E as <- <-; rewrite Nat.sub_diag; split; [constructor|reflexivity]|].
  cbn zeta. destruct (fnn_eol x Ho) as (X1 & X2 & X3 & X4 & X5 & X6 & X7 & X8). destruct (fnn_same x) as [X9 _].
  destruct (continue_eol (f_data f) (negb (is_nil (f_kids f)) || negb (is_nil path))) as (w & Hw). pose proof (Hw _ X1 X3 X4 X5 X6) as Hc. rewrite Hc. set (z := find_next_nonspace x) in *.
  destruct (ann_eol _ X1 X6) as [(A1 & A2 & A3) _].
  assert (Hf : forall z1, continue_ (f_data f) (negb (is_nil (f_kids f)) || negb (is_nil path)) z = Ok (CMatch, z1) -> stays (f_type f)).
  { intros z1 Zc. unfold continue_ in Zc. unfold f_type. split; intros Ef; rewrite Ef in Zc; cbn match in Zc.
    - rewrite X6 in Zc. apply Ok_inj in Zc. discriminate.
    - unfold z in Zc. revert Zc. fold z. unfold peek. rewrite X1, (proj2 (nth_error_None (p_line z) (length (p_line z))) (le_n _)). cbn [opt_is]. rewrite andb_false_r. discriminate. }
  assert (Hdone : forall z1, p_offset z1 = length (p_line z1) -> p_pct z1 = false -> continue_ (f_data f) (negb (is_nil (f_kids f)) || negb (is_nil path)) z = Ok (CMatch, z1) -> descend path (S k) z1 = Ok (Some n, y) -> p_line_number z1 = p_line_number x -> Forall (fun f => stays (f_type f)) (firstn (n - k) (f :: path)) /\ p_line_number y = p_line_number x).
  { intros z1 Z1 Z2 Z3 Z4 Z5. destruct (IH (S k) z1 n y Z1 Z2 Z4) as [I1 I2]. split; [|congruence]. destruct (n - k) as [|m] eqn:Em; [constructor|]. cbn [firstn]. constructor; [exact (Hf z1 Z3)|]. replace m with (n - S k) by (clear -Em; lia). exact I1. }
  assert (Hnum : p_line_number z = p_line_number x) by (destruct (fnn_keeps x) as (_ & _ & K & _); exact K).
  destruct w; cbn [way_of bind] in Hc |- *.
  - intros E. apply (Hdone z); [exact X3|congruence|exact Hc|exact E|exact Hnum].
  - intros E. apply (Hdone (advance_next_nonspace z)); [exact A1|exact A2|exact Hc|exact E|exact Hnum].
  - intros E. apply Ok_inj in E. injection E as <- <-. rewrite Nat.sub_diag. split; [constructor|exact Hnum].
  - discriminate.
Qed.
Definition lasts (k : list tree) : list nat := map (fun t => last_line (t_data t)) k.
Lemma lasts_mark k : lasts (mark_last_blank k) = lasts k.
Proof. destruct k as [|[d ks] k _] using rev_ind; [reflexivity|]. rewrite mark_last_blank_snoc. unfold lasts. rewrite !map_app. reflexivity. Qed.
Lemma on_tip_types g p q : (forall d, n_t (g d) = n_t d) -> on_tip g p = Ok q -> map f_type (p_stack q) = map f_type (p_stack p).
Proof.
  intros Hg. unfold on_tip. destruct (p_stack p) as [|f st] eqn:E; [discriminate|]. intros X. apply Ok_inj in X as <-. cbn [p_stack set_p_stack map]. f_equal. unfold f_type, set_f_data. cbn [f_data]. apply Hg.
Qed.
Lemma end_stack ln m p q b up st : p_offset p = length (p_line p) -> p_pct p = false -> p_blank p = true -> p_stack p = up ++ b :: st -> S (length st) = m -> p_matched p = m -> p_all_closed p = Nat.eqb m (length (p_stack p)) ->
  line_end ln p = Ok q -> map f_type (p_stack q) = map f_type (b :: st) /\
    (f_type b = document -> st = [] -> exists fr ex, p_stack q = [fr] /\ lasts (f_kids fr) = lasts (f_kids b ++ ex) /\ Forall (fun t => last_line (t_data t) = p_line_number p - 1) ex).
Proof.
  intros Ho Hp Hb Es Hm Em Ea. unfold line_end. destruct (tip p) as [t0|]; [|discriminate]. cbn [bind]. rewrite Hb. cbn [negb]. rewrite andb_false_r. cbn [andb].
  destruct (add_text p) as [p5|] eqn:E5; [|discriminate]. cbn [bind]. intros X. apply Ok_inj in X as <-. change (p_stack (set_p_last_line_length (length ln) p5)) with (p_stack p5). revert E5. unfold add_text.
  assert (Hc : forall r, close_unmatched_blocks p = Ok r -> exists ex, p_stack r = F (f_data b) (f_kids b ++ ex) :: st /\ rel p r = r /\ Forall (fun t => last_line (t_data t) = p_line_number p - 1) ex).
  { intros r. unfold close_unmatched_blocks. destruct (p_all_closed p).
    - intros X. apply Ok_inj in X as <-. symmetry in Ea. apply Nat.eqb_eq in Ea. rewrite Es, app_length in Ea. cbn [length] in Ea. destruct up; [|cbn in Ea; lia]. exists []. rewrite Es, app_nil_r. split; [destruct b; reflexivity|]. split; [apply rel_id|constructor].
    - rewrite close_loop_to, Em. destruct (fin_to _ _ _ p) as [r0|] eqn:Er; [|discriminate]. cbn [bind]. intros X. apply Ok_inj in X as <-.
      destruct (fin_to_base m _ st Hm up b _ p r0 Es Er) as (ex & E & Hex). exists ex. split; [exact E|]. apply fin_to_held in Er as [Er _]. split; [rewrite Er; reflexivity|].
      destruct (last_opt up); [|destruct Hex as [-> _]; constructor]. destruct Hex as [[-> _]|(t & -> & Hc)]; [constructor|]. constructor; [apply Hc|constructor]. }
  destruct (close_unmatched_blocks p) as [r|]; [|discriminate]. destruct (Hc r eq_refl) as (ex & Er & Hrel & Hex). clear Hc. cbn [bind]. unfold tip at 1. rewrite Er. cbn [hd_error of_option bind].
  match goal with |- bind ?fl _ = _ -> _ => destruct fl as [fl0|]; [|discriminate] end. cbn [bind f_data f_kids tl]. set (p2 := set_p_stack _ r).
  assert (E2 : map f_type (p_stack p2) = map f_type (b :: st)) by (unfold p2; cbn [p_stack set_p_stack]; rewrite map_map; reflexivity).
  assert (P2 : p_offset p2 = length (p_line p2) /\ p_pct p2 = false /\ p_blank p2 = true) by (unfold p2; rewrite <- Hrel; repeat split; assumption). destruct P2 as (P2 & P3 & P4).
  assert (E3 : st = [] -> exists fr, p_stack p2 = [fr] /\ lasts (f_kids fr) = lasts (f_kids b ++ ex)).
  { intros ->. unfold p2. cbn [p_stack set_p_stack map]. eexists. split; [reflexivity|]. unfold set_f_data. cbn [f_kids]. destruct (p_blank r); [apply lasts_mark|reflexivity]. }
  clearbody p2. unfold f_type at 1. cbn [f_data]. fold (f_type b). destruct (accepts_lines (f_type b)) as [acc|] eqn:Eacc; [|discriminate]. cbn [bind].
  destruct acc.
  - destruct (add_line p2) as [p3|] eqn:E4; [|discriminate]. cbn [bind]. revert E4. unfold add_line. destruct (tip p2) as [t2|]; [|discriminate]. cbn [bind]. destruct (of_option _ _) as [sc|]; [|discriminate]. cbn [bind]. rewrite P3. intros E4.
    assert (Er3 : rest_offset p3 = []).
    { revert E4. unfold on_tip. destruct (p_stack p2); [discriminate|]. intros X. apply Ok_inj in X as <-. unfold rest_offset. cbn [p_line p_offset set_p_stack]. rewrite P2. apply skipn_all. }
    pose proof (on_tip_types (set_n_string_content (Some (sc ++ [] ++ rest_offset p2 ++ [LF]))) p2 p3 (fun d => eq_refl) E4) as E5.
    assert (Hfin : map f_type (p_stack p3) = map f_type (b :: st) /\ (f_type b = document -> st = [] -> exists fr ex0, p_stack p3 = [fr] /\ lasts (f_kids fr) = lasts (f_kids b ++ ex0) /\ Forall (fun t => last_line (t_data t) = p_line_number p - 1) ex0)).
    { split; [congruence|]. intros X. rewrite X in Eacc. discriminate. }
    match goal with |- (if ?b then _ else _) = _ -> _ => destruct b end; [|intros X; apply Ok_inj in X as <-; exact Hfin]. destruct (of_option _ _) as [ty|]; [|discriminate]. cbn [bind]. rewrite Er3, html_close_empty. intros X. apply Ok_inj in X as <-. exact Hfin.
  - rewrite P4. cbn [negb]. rewrite andb_false_r. intros X. apply Ok_inj in X as <-. split; [exact E2|]. intros _ Hst. destruct (E3 Hst) as (fr & F1 & F2). exists fr, ex. auto.
Qed.
Lemma map_tl {X Y} (g : X -> Y) l : map g (tl l) = tl (map g l).
Proof. destruct l; reflexivity. Qed.
Lemma empty_stack p q up d k : p_stack p = up ++ [F d k] -> n_t d = document -> incorporate_line [] p = Ok q ->
  match tl (rev (p_stack q)) with
  | ch :: _ => stays (f_type ch)
  | [] => exists fr ex, p_stack q = [fr] /\ lasts (f_kids fr) = lasts (k ++ ex) /\ Forall (fun t => last_line (t_data t) = p_line_number p) ex
  end.
Proof.
  intros Es Ed. rewrite incorporate_line_eq. change (replace_char 0 65533 []) with (@nil N). cbn zeta. set (x := line_start [] p). change (p_stack x) with (p_stack p). rewrite Es, rev_app_distr. cbn [rev app tl].
  destruct (descend (rev up) 1 x) as [[m y]|] eqn:E; [|discriminate]. cbn [bind]. destruct (descend_empty (rev up) 1 x m y eq_refl eq_refl E) as (n & -> & Hn & Hs & Ho & Hp & Hb & _). destruct (descend_stays (rev up) 1 x n y eq_refl eq_refl E) as [Hst0 Hnum]. change (p_line_number x) with (S (p_line_number p)) in Hnum.
  change (p_stack x) with (p_stack p) in Hs. rewrite Es in Hs. rewrite rev_length in Hn. clear E.
  assert (Hsplit : exists u b st, up ++ [F d k] = u ++ b :: st /\ S (length st) = n /\ match tl (rev (b :: st)) with ch :: _ => stays (f_type ch) | [] => b = F d k /\ st = [] end).
  { destruct (Nat.eq_dec n 1) as [->|Hne]; [exists up, (F d k), []; split; [reflexivity|split; [reflexivity|cbn; auto]]|].
    rewrite <- (rev_involutive up). destruct (rev up) as [|ch ru] eqn:Eru; [apply (f_equal (@length _)) in Eru; rewrite rev_length in Eru; cbn in Eru; lia|].
    assert (Hlen : length (ch :: ru) = length up) by (rewrite <- Eru; apply rev_length).
    destruct (nth_error (ch :: ru) (n - 2)) as [b|] eqn:Eb; [|apply nth_error_None in Eb; lia]. apply nth_error_split in Eb as (l1 & l2 & El & Hl).
    exists (rev l2), b, (rev l1 ++ [F d k]). rewrite El, rev_app_distr. cbn [rev]. rewrite <- !app_assoc. split; [reflexivity|]. split; [rewrite app_length, rev_length; cbn [length]; lia|].
    rewrite rev_app_distr, rev_involutive. cbn [rev app tl]. destruct (n - 1) as [|n1] eqn:En; [lia|]. cbn [firstn] in Hst0. apply Forall_inv in Hst0. destruct l1 as [|c1 l1]; cbn [app] in *; injection El as <- _; exact Hst0. }
  destruct Hsplit as (u & b & st & Eu & Hst & Hbt). rewrite Eu in Hs. unfold line_rest. set (p3 := set_p_matched n _).
  assert (Eb : block_at n p3 = Ok b).
  { unfold block_at, p3. cbn [p_stack set_p_matched set_p_all_closed]. rewrite Hs, app_length. cbn [length]. rewrite nth_error_app2 by lia. replace (_ - _ - _) with 0 by lia. reflexivity. }
  assert (Hgo : forall z, p_offset z = length (p_line z) -> p_pct z = false -> p_blank z = true -> p_stack z = u ++ b :: st -> p_matched z = n -> p_all_closed z = Nat.eqb n (length (p_stack z)) -> p_line_number z = S (p_line_number p) -> line_end [] z = Ok q ->
    match tl (rev (p_stack q)) with ch :: _ => stays (f_type ch) | [] => exists fr ex, p_stack q = [fr] /\ lasts (f_kids fr) = lasts (k ++ ex) /\ Forall (fun t => last_line (t_data t) = p_line_number p) ex end).
  { intros z Z1 Z2 Z3 Z4 Z5 Z6 Z7 Z8. destruct (end_stack [] n z q b u st Z1 Z2 Z3 Z4 Hst Z5 Z6 Z8) as (G1 & G2).
    assert (G3 : map f_type (tl (rev (p_stack q))) = map f_type (tl (rev (b :: st)))). { rewrite !map_tl, !map_rev, G1. reflexivity. }
    destruct (tl (rev (b :: st))) as [|ch r].
    - destruct Hbt as [-> ->]. destruct (tl (rev (p_stack q))); [|discriminate]. destruct (G2 Ed eq_refl) as (fr & ex & F1 & F2 & F3). exists fr, ex. split; [exact F1|]. split; [exact F2|]. rewrite Z7, Nat.sub_succ, Nat.sub_0_r in F3. exact F3.
    - destruct (tl (rev (p_stack q))) as [|ch' r']; [discriminate|]. cbn [map] in G3. injection G3 as G3 _. rewrite G3. exact Hbt. }
  rewrite Eb. cbn [bind]. destruct (accepts_lines (f_type b)) as [acc|] eqn:Eacc; [|discriminate]. cbn [bind]. destruct (negb _ && acc) eqn:Ela.
  - apply (Hgo p3); try assumption; try reflexivity. apply Hb. destruct up; [|left; intros X; apply (f_equal (@length _)) in X; rewrite rev_length in X; discriminate].
    exfalso. destruct u as [|? [|? ?]]; cbn [app] in Eu; try discriminate. injection Eu as <- _. unfold f_type in Eacc. cbn [f_data] in Eacc. rewrite Ed in Eacc. apply Ok_inj in Eacc as <-. rewrite andb_false_r in Ela. discriminate.
  - unfold line_tail. cbn [starts_loop]. destruct (fnn_eol p3 Ho) as (X1 & X2 & X3 & X4 & X5 & X6 & X7 & X8). assert (Rx : rest_nonspace (find_next_nonspace p3) = []) by (unfold rest_nonspace; rewrite X1; apply skipn_all). rewrite Rx, X5. change (re_test reMaybeSpecial []) with false. cbn [negb andb bind].
    destruct (ann_eol _ X1 X6) as [(A1 & A2 & A3) Ae]. assert (Ek : kept (advance_next_nonspace (find_next_nonspace p3)) p3) by (apply er_kept; congruence). destruct Ek as (K1 & K2 & K3 & K4 & _).
    apply (Hgo (advance_next_nonspace (find_next_nonspace p3))); try assumption.
    + rewrite <- K1. exact Hs.
    + rewrite <- K4. reflexivity.
    + rewrite <- K1, <- K3. reflexivity.
    + rewrite <- K2. exact Hnum.
Qed.

(** ** A blank line between two texts *)
Lemma kid_last Q A ty l E k : Forall (kid_ok Q A ty l E) k -> Forall (fun n => n <= E) (lasts k).
Proof. intros H. apply Forall_map. eapply Forall_impl; [|exact H]. intros t Ht. apply Ht. Qed.
Theorem blank_separates smart a b da ka : Forall code_point a -> ~ infix [93; 58]%N a -> parse_doc smart a = Ok (T da ka) -> last_opt (text_lines a) = Some [] ->
  match last_opt ka with Some t => t_type t <> html_block /\ n_is_fenced (t_data t) = false | None => True end ->
  flush_left (hd [] (text_lines b)) -> no_item (hd [] (text_lines b)) -> separated ka a b.
Proof.
  intros Ha Hr Ea Hlast Hty Hb1 Hb2. destruct (doc_blocks smart a da ka Ha Ea) as (_ & Hhold).
  destruct (run_facts smart a da ka Ha Hr Ea) as (p1 & p2 & d & k & s & s1 & E1 & E2 & E3 & _ & _ & E4 & _). apply process_data in E4. apply (separated_data ka k); [symmetry; exact E4|].
  assert (Hk : forall t, last_opt k = Some t -> may_hold document (t_type t) = true /\ t_type t <> html_block /\ n_is_fenced (t_data t) = false).
  { intros t Et. pose proof (f_equal last_opt E4) as E5. rewrite !last_opt_map, Et in E5. destruct (last_opt ka) as [t'|] eqn:E6; [|discriminate]. injection E5 as E5. unfold t_type in *. rewrite <- E5. split; [|exact Hty].
    destruct (in_last _ _ E6) as (l & ->). apply Forall_app in Hhold as [_ Hhold]. apply Forall_inv in Hhold. exact Hhold. }
  destruct (a_end smart a p1 p2 d k Ha Hr E1 E2 E3) as (up & fb & pc & Es & Eb & _ & _ & _ & Epc & _ & _ & _ & Hch).
  unfold separated. destruct (last_opt k) as [t|] eqn:Ek; [|exact I]. destruct (Hk t eq_refl) as (H1 & H2 & H3). clear Hk Hhold Hty Ea E2 E3 E4.
  assert (Hold : stays (t_type t) -> match t_type t with
      | heading | thematic_break => True
      | code_block => n_is_fenced (t_data t) = false /\ flush_left (hd [] (text_lines b))
      | paragraph => hd [] (text_lines b) = [] \/ SpecBreak.interrupts (hd [] (text_lines b))
      | block_quote => hd [] (text_lines b) = []
      | list_ => last_opt (text_lines a) = Some [] /\ flush_left (hd [] (text_lines b)) /\ no_item (hd [] (text_lines b))
      | _ => False end).
  { intros [S1 S2]. destruct (t_type t); try discriminate H1; try congruence; auto. }
  destruct (in_last _ _ Hlast) as (ls & Els). pose proof (reset_between (doc_char a) (fun w => infix w (replace_char 0 65533 a)) (new_parser smart)) as B. set (r := reset _) in *. clearbody r.
  rewrite Els in E1. destruct (incorporate_snoc _ _ _ _ E1) as (p0 & E0 & E). clear E1.
  assert (Hl : Forall (fun l => ok_str (doc_char a) (fun w => infix w (replace_char 0 65533 a)) (replace_char 0 65533 l)) ls).
  { apply Forall_forall. intros l Hl. eapply ok_infix; [apply infix_map, input_lines_infix|apply ok_doc, Ha]. rewrite input_lines_text, Els. apply in_or_app. left. exact Hl. }
  pose proof (incorporate_lines_spec (doc_char a) (plain_doc_char a) (doc_char_code a) (fun w => infix w (replace_char 0 65533 a)) ls 0 r Hl B) as H. rewrite E0 in H. clear E0. destruct H as (B1 & _ & _ & _ & B2).
  destruct (stack_bottom _ _ _ _ B1) as (u0 & [d0 k0] & Eu & Ed0). pose proof (empty_stack p0 p1 u0 d0 k0 Eu Ed0 E) as G. rewrite Es, rev_app_distr in G. cbn [rev app tl] in G.
  destruct (last_opt up) as [ch|] eqn:Eup.
  - right. apply Hold. destruct Hch as (t' & Ek' & Ht & _). rewrite Ek', last_opt_app in Ek by discriminate. cbn [last_opt] in Ek. injection Ek as ->. rewrite Ht. destruct (in_last _ _ Eup) as (u & ->). rewrite rev_app_distr in G. cbn [rev app] in G. exact G.
  - left. assert (up = []) as -> by (destruct up as [|x up _] using rev_ind; [reflexivity|]; rewrite last_opt_app in Eup by discriminate; discriminate). cbn [rev] in G.
    destruct G as (fr & ex & F1 & F2 & F3). cbn [app] in *. injection F1 as <-. subst pc. rewrite Es in Epc. injection Epc as Epc. assert (Efk : f_kids fb = k) by (rewrite Epc; reflexivity). rewrite Efk in F2.
    assert (Hlk : Forall (fun n => n <= length ls) (lasts k)).
    { rewrite F2. unfold lasts. rewrite map_app. apply Forall_app. rewrite Eu in B1. split.
      - clear -B1. change (0 + length ls) with (length ls) in B1. revert B1. induction u0 as [|f u0 IH]; cbn [app stack_ok]; [intros [[_ H] _]; exact (kid_last _ _ _ _ _ _ H)|]. intros [_ H]. apply IH. destruct u0; cbn [app] in *; tauto.
      - apply Forall_map. eapply Forall_impl; [|exact F3]. intros x ->. rewrite B2. apply le_n. }
    destruct (in_last _ _ Ek) as (l & El). rewrite El in Hlk. unfold lasts in Hlk. rewrite map_app in Hlk. apply Forall_app in Hlk as [_ Hlk]. apply Forall_inv in Hlk. rewrite Els, app_length. cbn [length]. clear -Hlk. lia.
Qed.
Lemma without_infix w s : without w s -> ~ infix w s.
Proof. intros H (p & q & E). exact (H p q E). Qed.
Theorem blank_between smart o a b da ka A : ho_sourcepos o = false -> Forall code_point a -> Forall code_point b -> without (u "]:") (a ++ b) -> parse_doc smart a = Ok (T da ka) -> last_opt a = Some LF -> last_opt (text_lines a) = Some [] ->
  match last_opt ka with Some t => t_type t <> html_block /\ n_is_fenced (t_data t) = false | None => True end ->
  flush_left (hd [] (text_lines b)) -> no_item (hd [] (text_lines b)) ->
  md_to_html smart o a = Ok A -> md_to_html smart o (a ++ b) = let* B := md_to_html smart o b in Ok (A ++ B).
Proof.
  intros Ho Ha Hb Hr0 Ea Hlf Hl Ht Hf Hi EA. pose proof (without_infix _ _ Hr0) as Hr. apply (join_html smart o a b da ka A); try assumption. apply (blank_separates smart a b da ka); try assumption. intros X. apply Hr, infix_app_l, X.
Qed.
Theorem joined_html smart o a b da ka A : ho_sourcepos o = false -> Forall code_point a -> Forall code_point b -> last_opt a = Some LF -> without (u "]:") (a ++ b) -> parse_doc smart a = Ok (T da ka) -> separated ka a b ->
  md_to_html smart o a = Ok A -> md_to_html smart o (a ++ b) = let* B := md_to_html smart o b in Ok (A ++ B).
Proof. intros Ho Ha Hb Hlf Hr. exact (join_html smart o a b da ka A Ho Ha Hb Hlf (without_infix _ _ Hr)). Qed.
Theorem joined_doc smart a b da ka : Forall code_point a -> Forall code_point b -> last_opt a = Some LF -> without (u "]:") (a ++ b) -> parse_doc smart a = Ok (T da ka) -> separated ka a b ->
  match parse_doc smart b with
  | Ok (T db kb) => exists d k1 k2, parse_doc smart (a ++ b) = Ok (T d (k1 ++ k2)) /\ same_but_last_note ka k1 /\ Forall2 (same_blocks (lines_down (length (text_lines a)))) kb k2
  | Err e => parse_doc smart (a ++ b) = Err e
  end.
Proof. intros Ha Hb Hlf Hr. exact (join_doc smart a b da ka Ha Hb Hlf (without_infix _ _ Hr)). Qed.

(** ** For examples *)
Fixpoint beginsb (w s : str) : bool :=
  match w, s with
  | [], _ => true
  | a :: w', b :: s' => N.eqb a b && beginsb w' s'
  | _, [] => false
  end.
Fixpoint infixb (w s : str) : bool := beginsb w s || match s with [] => false | _ :: r => infixb w r end.
Lemma beginsb_app : forall w q, beginsb w (w ++ q) = true.
Proof. induction w as [|a w IH]; intros q; [reflexivity|]. cbn [app beginsb]. rewrite N.eqb_refl. apply IH. Qed.
Lemma infixb_not w s : infixb w s = false -> without w s.
Proof.
  intros E p q ->. revert E. induction p as [|a p IH]; cbn [app infixb].
  - destruct (w ++ q) eqn:Ew; cbn [infixb]; rewrite <- Ew, beginsb_app; discriminate.
  - intros E. apply orb_false_iff in E as [_ E]. exact (IH E).
Qed.
