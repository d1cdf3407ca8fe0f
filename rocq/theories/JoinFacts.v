(** * What is open at the end of a text, and the line behind it *)
From Verif Require Import Base Regex Common NormRef Node Inlines Blocks RegexFacts StrFacts StrProp Spec SpecTree SpecSame InlineFacts BlockFacts BlockInv BlockRun LineFacts ParseFacts Sim SimFacts EmptyLine JoinLine JoinClose JoinStep JoinList.
From Coq Require Import ZifyBool ZifyNat ZifyN.

(** ** No paragraph is open behind an empty line *)
Lemma descend_empty : forall path k x m y, p_offset x = length (p_line x) -> p_pct x = false -> descend path k x = Ok (m, y) ->
  exists n, m = Some n /\ k <= n <= k + length path /\ p_stack y = p_stack x /\ p_offset y = length (p_line y) /\ p_pct y = false /\ (path <> [] \/ p_blank x = true -> p_blank y = true) /\
    (k < n -> exists f, nth_error path (n - S k) = Some f /\ f_type f <> paragraph).
Proof.
  induction path as [|f path IH]; intros k x m y Ho Hp; cbn [descend].
  - intros E. apply Ok_inj in E. injection E as <- <-. exists k. split; [reflexivity|]. split; [cbn; lia|]. repeat (split; [assumption || reflexivity|]). split; [intros [X|X]; [congruence|exact X]|lia].
  - cbn zeta. destruct (fnn_eol x Ho) as (X1 & X2 & X3 & X4 & X5 & X6 & X7 & X8). destruct (fnn_same x) as [X9 _].
    destruct (continue_eol (f_data f) (negb (is_nil (f_kids f)) || negb (is_nil path))) as (w & Hw). pose proof (Hw _ X1 X3 X4 X5 X6) as Hc. rewrite Hc. set (z := find_next_nonspace x) in *.
    destruct (ann_eol _ X1 X6) as [(A1 & A2 & A3) _].
    assert (Hdone : forall z1, p_stack z1 = p_stack x -> p_offset z1 = length (p_line z1) -> p_pct z1 = false -> p_blank z1 = true -> continue_ (f_data f) (negb (is_nil (f_kids f)) || negb (is_nil path)) z = Ok (CMatch, z1) -> descend path (S k) z1 = Ok (m, y) ->
      exists n, m = Some n /\ k <= n <= k + length (f :: path) /\ p_stack y = p_stack x /\ p_offset y = length (p_line y) /\ p_pct y = false /\ (f :: path <> [] \/ p_blank x = true -> p_blank y = true) /\ (k < n -> exists f0, nth_error (f :: path) (n - S k) = Some f0 /\ f_type f0 <> paragraph)).
    { intros z1 Z1 Z2 Z3 Z4 Zc Zd. destruct (IH (S k) z1 m y Z2 Z3 Zd) as (n & -> & Hn & Hs & Hy & Hpc & Hb & Hl). exists n. split; [reflexivity|]. split; [cbn [length]; lia|]. split; [congruence|]. split; [exact Hy|]. split; [exact Hpc|]. split; [intros _; apply Hb; right; exact Z4|]. intros _.
      destruct (Nat.eq_dec n (S k)) as [->|Hne].
      - rewrite Nat.sub_diag. exists f. split; [reflexivity|]. intros Ef. unfold f_type in Ef. unfold continue_ in Zc. rewrite Ef, X6 in Zc. apply Ok_inj in Zc. discriminate.
      - destruct (Hl ltac:(lia)) as (f0 & E0 & H0). exists f0. split; [|exact H0]. replace (n - S k) with (S (n - S (S k))) by lia. exact E0. }
    destruct w; cbn [way_of bind] in Hc |- *.
    + apply Hdone; [exact X9|exact X3|congruence|exact X6|exact Hc].
    + apply Hdone; [exact X9|exact A1|exact A2|exact A3|exact Hc].
    + intros E. apply Ok_inj in E. injection E as <- <-. exists k. split; [reflexivity|]. split; [lia|]. split; [exact X9|]. split; [exact X3|]. split; [congruence|]. split; [intros _; exact X6|lia].
    + discriminate.
Qed.
Lemma html_close_empty ty : Nat.leb 1 ty && Nat.leb ty 5 && re_test (reHtmlBlockClose ty) [] = false.
Proof. do 6 (destruct ty as [|ty]; [vm_compute; reflexivity|]). cbn [Nat.leb]. rewrite andb_false_r. reflexivity. Qed.
Lemma on_tip_type g p q t : (forall d, n_t (g d) = n_t d) -> tip p = Ok t -> on_tip g p = Ok q -> exists t', tip q = Ok t' /\ f_type t' = f_type t.
Proof.
  intros Hg. unfold tip, on_tip. destruct (p_stack p) as [|f st] eqn:E; [discriminate|]. cbn [hd_error of_option]. intros X. apply Ok_inj in X as <-. intros X. apply Ok_inj in X as <-.
  cbn [p_stack set_p_stack hd_error of_option]. eexists. split; [reflexivity|]. unfold f_type, set_f_data. cbn [f_data]. apply Hg.
Qed.
Lemma end_empty ln m p q b up st : p_offset p = length (p_line p) -> p_pct p = false -> p_blank p = true -> p_stack p = up ++ b :: st -> S (length st) = m -> p_matched p = m -> p_all_closed p = Nat.eqb m (length (p_stack p)) -> f_type b <> paragraph ->
  line_end ln p = Ok q -> exists t, tip q = Ok t /\ f_type t <> paragraph.
Proof.
  intros Ho Hp Hb Es Hm Em Ea Ht. unfold line_end. destruct (tip p) as [t0|]; [|discriminate]. cbn [bind]. rewrite Hb. cbn [negb]. rewrite andb_false_r. cbn [andb].
  destruct (add_text p) as [p5|] eqn:E5; [|discriminate]. cbn [bind]. intros X. apply Ok_inj in X as <-. change (tip (set_p_last_line_length (length ln) p5)) with (tip p5). revert E5. unfold add_text.
  assert (Hc : forall r, close_unmatched_blocks p = Ok r -> exists k, p_stack r = F (f_data b) k :: st /\ rel p r = r).
  { intros r. unfold close_unmatched_blocks. destruct (p_all_closed p).
    - intros X. apply Ok_inj in X as <-. symmetry in Ea. apply Nat.eqb_eq in Ea. rewrite Es, app_length in Ea. cbn [length] in Ea. destruct up; [|cbn in Ea; lia]. exists (f_kids b). rewrite Es. split; [destruct b; reflexivity|apply rel_id].
    - rewrite close_loop_to, Em. destruct (fin_to _ _ _ p) as [r0|] eqn:Er; [|discriminate]. cbn [bind]. intros X. apply Ok_inj in X as <-.
      destruct (fin_to_base m _ st Hm up b _ p r0 Es Er) as (ex & E & _). exists (f_kids b ++ ex). split; [exact E|]. apply fin_to_held in Er as [Er _]. rewrite Er. reflexivity. }
  destruct (close_unmatched_blocks p) as [r|]; [|discriminate]. destruct (Hc r eq_refl) as (k & Er & Hrel). clear Hc. cbn [bind]. unfold tip at 1. rewrite Er. cbn [hd_error of_option bind].
  match goal with |- bind ?fl _ = _ -> _ => destruct fl as [fl0|]; [|discriminate] end. cbn [bind f_data f_kids tl]. set (p2 := set_p_stack _ r).
  assert (E2 : exists t, tip p2 = Ok t /\ f_type t = f_type b) by (unfold tip, p2; cbn [p_stack set_p_stack map hd_error of_option]; eexists; split; [reflexivity|reflexivity]). destruct E2 as (t2 & E2 & E2').
  assert (P2 : p_offset p2 = length (p_line p2) /\ p_pct p2 = false /\ p_blank p2 = true) by (unfold p2; rewrite <- Hrel; repeat split; assumption). destruct P2 as (P2 & P3 & P4). clearbody p2.
  unfold f_type at 1. cbn [f_data]. fold (f_type b). destruct (accepts_lines _) as [acc|]; [|discriminate]. cbn [bind].
  destruct acc.
  - destruct (add_line p2) as [p3|] eqn:E3; [|discriminate]. cbn [bind]. revert E3. unfold add_line. rewrite E2. cbn [bind]. destruct (of_option _ _) as [sc|]; [|discriminate]. cbn [bind]. rewrite P3. intros E3.
    assert (Er3 : rest_offset p3 = []).
    { revert E3. unfold on_tip. destruct (p_stack p2); [discriminate|]. intros X. apply Ok_inj in X as <-. unfold rest_offset. cbn [p_line p_offset set_p_stack]. rewrite P2. apply skipn_all. }
    destruct (on_tip_type (set_n_string_content (Some (sc ++ [] ++ rest_offset p2 ++ [LF]))) p2 p3 t2 (fun d => eq_refl) E2 E3) as (t3 & E4 & E5).
    assert (Hfin : exists t, tip p3 = Ok t /\ f_type t <> paragraph) by (exists t3; split; [exact E4|congruence]).
    match goal with |- (if ?b then _ else _) = _ -> _ => destruct b end; [|intros X; apply Ok_inj in X as <-; exact Hfin]. destruct (of_option _ _) as [ty|]; [|discriminate]. cbn [bind]. rewrite Er3, html_close_empty. intros X. apply Ok_inj in X as <-. exact Hfin.
  - rewrite P4. cbn [negb]. rewrite andb_false_r. intros X. apply Ok_inj in X as <-. exists t2. split; [exact E2|congruence].
Qed.
Lemma empty_tip p q up d k : p_stack p = up ++ [F d k] -> n_t d = document -> incorporate_line [] p = Ok q -> exists t, tip q = Ok t /\ f_type t <> paragraph.
Proof.
  intros Es Ed. rewrite incorporate_line_eq. change (replace_char 0 65533 []) with (@nil N). cbn zeta. set (x := line_start [] p). change (p_stack x) with (p_stack p). rewrite Es, rev_app_distr. cbn [rev app tl].
  destruct (descend (rev up) 1 x) as [[m y]|] eqn:E; [|discriminate]. cbn [bind]. destruct (descend_empty (rev up) 1 x m y eq_refl eq_refl E) as (n & -> & Hn & Hs & Ho & Hp & Hb & Hpar). change (p_stack x) with (p_stack p) in Hs. rewrite Es in Hs. rewrite rev_length in Hn. clear E.
  assert (Hsplit : exists u b st, up ++ [F d k] = u ++ b :: st /\ S (length st) = n /\ f_type b <> paragraph).
  { destruct (Nat.eq_dec n 1) as [->|Hne]; [exists up, (F d k), []; split; [reflexivity|split; [reflexivity|unfold f_type; cbn [f_data]; congruence]]|].
    destruct (Hpar ltac:(lia)) as (b & Eb & Hbt). apply nth_error_split in Eb as (l1 & l2 & El & Hl). assert (Eu : up = rev l2 ++ b :: rev l1) by (rewrite <- (rev_involutive up), El, rev_app_distr; cbn [rev]; rewrite <- app_assoc; reflexivity).
    exists (rev l2), b, (rev l1 ++ [F d k]). split; [rewrite Eu, <- app_assoc; reflexivity|]. split; [rewrite app_length, rev_length; cbn [length]; lia|exact Hbt]. }
  destruct Hsplit as (u & b & st & Eu & Hst & Hbt). rewrite Eu in Hs. unfold line_rest. set (p3 := set_p_matched n _). 
  assert (Eb : block_at n p3 = Ok b).
  { unfold block_at, p3. cbn [p_stack set_p_matched set_p_all_closed]. rewrite Hs, app_length. cbn [length]. rewrite nth_error_app2 by lia. replace (_ - _ - _) with 0 by lia. reflexivity. }
  rewrite Eb. cbn [bind]. destruct (accepts_lines (f_type b)) as [acc|] eqn:Eacc; [|discriminate]. cbn [bind]. destruct (negb _ && acc) eqn:Ela.
  - apply (end_empty [] n p3 q b u st); try assumption; try reflexivity. apply Hb. destruct up; [|left; intros X; apply (f_equal (@length _)) in X; rewrite rev_length in X; discriminate].
    exfalso. destruct u as [|? [|? ?]]; cbn [app] in Eu; try discriminate. injection Eu as <- _. unfold f_type in Eacc. cbn [f_data] in Eacc. rewrite Ed in Eacc. apply Ok_inj in Eacc as <-. rewrite andb_false_r in Ela. discriminate.
  - unfold line_tail. cbn [starts_loop]. destruct (fnn_eol p3 Ho) as (X1 & X2 & X3 & X4 & X5 & X6 & X7 & X8). assert (Rx : rest_nonspace (find_next_nonspace p3) = []) by (unfold rest_nonspace; rewrite X1; apply skipn_all). rewrite Rx, X5. change (re_test reMaybeSpecial []) with false. cbn [negb andb bind].
    destruct (ann_eol _ X1 X6) as [(A1 & A2 & A3) Ae]. assert (Ek : kept (advance_next_nonspace (find_next_nonspace p3)) p3) by (apply er_kept; congruence). destruct Ek as (K1 & _ & K3 & K4 & _).
    apply (end_empty [] n _ q b u st); try assumption.
    + rewrite <- K1. exact Hs.
    + rewrite <- K4. reflexivity.
    + rewrite <- K1, <- K3. reflexivity.
Qed.
