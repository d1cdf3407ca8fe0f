(** * A blank line inside an item: how many spaces it has does not matter *)
From Verif Require Import Base Regex Common NormRef Node Inlines Blocks RegexFacts Spec SpecTree SpecSame BlockFacts BlockRun LineFacts ParseFacts Sim SimFacts.
From Coq Require Import ZifyBool ZifyNat ZifyN.

Definition rmap {A B} (f : A -> B) (r : res A) : res B := match r with Ok x => Ok (f x) | Err e => Err e end.
(** everything but the place in the line, and back *)
Definition er (x : parser) : parser :=
  P (p_stack x) (p_doc x) [] (p_line_number x) 0 0 0 0 0 false true false (p_all_closed x) (p_matched x) (p_refmap x) (p_last_line_length x) (p_ip x) (p_smart x).
Definition rel (x z : parser) : parser :=
  P (p_stack z) (p_doc z) (p_line x) (p_line_number z) (p_offset x) (p_column x) (p_next_nonspace x) (p_next_nonspace_column x) (p_indent x) (p_indented x) (p_blank x) (p_pct x) (p_all_closed z) (p_matched z) (p_refmap z) (p_last_line_length z) (p_ip z) (p_smart z).
Definition eol (x : parser) : Prop := p_offset x = length (p_line x) /\ p_pct x = false /\ p_blank x = true.
Definition Q (x y : parser) : Prop := er x = er y /\ eol x /\ eol y.
Lemma rel_er x : rel x (er x) = x.
Proof. destruct x; reflexivity. Qed.
Lemma er_rel x z : er (rel x z) = er z.
Proof. reflexivity. Qed.
Lemma rel_rel x z w : rel (rel x z) w = rel x w.
Proof. reflexivity. Qed.
Lemma er_er x : er (er x) = er x.
Proof. reflexivity. Qed.
Lemma attach_rel x t z : attach t (rel x z) = rel x (attach t z).
Proof. unfold attach. change (p_stack (rel x z)) with (p_stack z). destruct (p_stack z); reflexivity. Qed.
Lemma fin_tip_rel ln x z : finalize_tip ln (rel x z) = rmap (rel x) (finalize_tip ln z).
Proof.
  unfold finalize_tip. change (p_stack (rel x z)) with (p_stack z). destruct (p_stack z) as [|f st]; [reflexivity|]. cbn zeta.
  destruct (of_option TypeError _) as [[sp0 y]|]; [|reflexivity]. cbn [bind]. change (p_last_line_length (rel x z)) with (p_last_line_length z). set (d := set_n_sourcepos _ _).
  change (set_p_stack st (rel x z)) with (rel x (set_p_stack st z)). set (z0 := set_p_stack st z). clearbody z0 d.
  destruct (n_t d); try reflexivity; try (cbn [rmap]; f_equal; apply attach_rel).
  - destruct (finalize_list _ _). cbn [rmap]. f_equal; apply attach_rel.
  - unfold finalize_paragraph, strip_refs. destruct (of_option TypeError _) as [c|]; [|reflexivity]. cbn [bind]. change (p_ip (rel x z0)) with (p_ip z0). change (p_refmap (rel x z0)) with (p_refmap z0).
    destruct (ref_loop _ _ _ _ _) as [[[[c1 fo] s1] rm]|]; [|reflexivity]. cbn [bind rmap]. destruct (_ && _); [reflexivity|]. f_equal. rewrite <- attach_rel. reflexivity.
  - destruct (finalize_code d); [|reflexivity]. cbn [bind rmap]. f_equal. apply attach_rel.
  - destruct (finalize_html d); [|reflexivity]. cbn [bind rmap]. f_equal. apply attach_rel.
Qed.
Lemma close_loop_rel x : forall f z, close_loop f (rel x z) = rmap (rel x) (close_loop f z).
Proof.
  induction f as [|f IH]; intros z; cbn [close_loop]; change (p_stack (rel x z)) with (p_stack z); change (p_matched (rel x z)) with (p_matched z); change (p_line_number (rel x z)) with (p_line_number z).
  - destruct (Nat.leb _ _); reflexivity.
  - destruct (Nat.leb _ _); [reflexivity|]. rewrite fin_tip_rel. destruct (finalize_tip _ z) as [w|]; [|reflexivity]. cbn [rmap bind]. apply IH.
Qed.
Lemma close_rel x z : close_unmatched_blocks (rel x z) = rmap (rel x) (close_unmatched_blocks z).
Proof.
  unfold close_unmatched_blocks. change (p_all_closed (rel x z)) with (p_all_closed z). destruct (p_all_closed z); [reflexivity|]. change (p_stack (rel x z)) with (p_stack z). rewrite close_loop_rel.
  destruct (close_loop _ z); reflexivity.
Qed.
Lemma close_er x : close_unmatched_blocks x = rmap (rel x) (close_unmatched_blocks (er x)).
Proof. rewrite <- close_rel, rel_er. reflexivity. Qed.
Lemma close_blank x z : close_unmatched_blocks (er x) = Ok z -> z = rel (er x) z.
Proof. intros E. pose proof (close_er (er x)) as H. rewrite er_er, E in H. apply Ok_inj in H. exact H. Qed.
Lemma add_line_eol x z : eol x -> z = rel (er x) z -> add_line (rel x z) = rmap (rel x) (add_line z).
Proof.
  intros (H1 & H2 & H3) E. assert (P1 : p_pct z = false) by (rewrite E; reflexivity). assert (P2 : rest_offset z = []) by (rewrite E; reflexivity).
  assert (P3 : rest_offset (rel x z) = []) by (unfold rest_offset; change (p_line (rel x z)) with (p_line x); change (p_offset (rel x z)) with (p_offset x); rewrite H1; apply skipn_all).
  unfold add_line, tip, on_tip. change (p_stack (rel x z)) with (p_stack z). destruct (p_stack z) as [|f st] eqn:Es; [reflexivity|]. cbn [hd_error of_option bind].
  destruct (of_option TypeError _) as [sc|]; [|reflexivity]. cbn [bind]. change (p_pct (rel x z)) with (p_pct x). rewrite H2, P1, P2, P3.
  change (p_stack (rel x z)) with (p_stack z). rewrite Es. reflexivity.
Qed.
Lemma add_text_eol x : eol x -> add_text x = rmap (rel x) (add_text (er x)).
Proof.
  intros Hx. unfold add_text. rewrite close_er. destruct (close_unmatched_blocks (er x)) as [z|] eqn:E; [|reflexivity]. cbn [rmap bind]. apply close_blank in E.
  unfold tip. change (p_stack (rel x z)) with (p_stack z). destruct (p_stack z) as [|c st] eqn:Es; [reflexivity|]. cbn [hd_error of_option bind].
  assert (B1 : p_blank (rel x z) = true) by apply Hx. assert (B2 : p_blank z = true) by (rewrite E; reflexivity). rewrite B1, B2. cbv zeta iota. cbn [andb].
  set (kids := mark_last_blank (f_kids c)). destruct (match n_sourcepos (f_data c) with Some _ => _ | None => _ end) as [fl|]; [|reflexivity]. cbn [bind tl].
  change (p_line_number (rel x z)) with (p_line_number z). set (llb := negb _). set (st' := map _ _). clearbody llb.
  change (set_p_stack st' (rel x z)) with (rel x (set_p_stack st' z)).
  assert (E' : set_p_stack st' z = rel (er x) (set_p_stack st' z)) by (rewrite E at 1; reflexivity). set (z2 := set_p_stack st' z) in *. assert (B3 : p_blank z2 = true) by exact B2. clearbody z2.
  destruct (accepts_lines (f_type c)) as [acc|]; [|reflexivity]. cbn [bind]. destruct acc.
  - rewrite (add_line_eol x z2 Hx E').
    assert (E3 : forall z3, add_line z2 = Ok z3 -> z3 = rel (er x) z3).
    { intros z3 X. assert (Hr : eol (er x)) by (split; [reflexivity|split; reflexivity]). rewrite E' in X. rewrite (add_line_eol (er x) z2 Hr) in X by (rewrite er_er; exact E').
      destruct (add_line z2) as [w|]; [|discriminate]. cbn [rmap] in X. apply Ok_inj in X as <-. reflexivity. }
    destruct (add_line z2) as [z3|]; [|reflexivity]. cbn [rmap bind]. specialize (E3 z3 eq_refl). destruct (ntype_eqb _ html_block); [|reflexivity].
    destruct (of_option AttributeError _) as [ty|]; [|reflexivity]. cbn [bind].
    assert (R1 : rest_offset (rel x z3) = []) by (unfold rest_offset; change (p_line (rel x z3)) with (p_line x); change (p_offset (rel x z3)) with (p_offset x); rewrite (proj1 Hx); apply skipn_all).
    assert (R2 : rest_offset z3 = []) by (rewrite E3; reflexivity). rewrite R1, R2. destruct (Nat.leb 1 ty && Nat.leb ty 5 && re_test (reHtmlBlockClose ty) [])%bool; [|reflexivity]. change (p_line_number (rel x z3)) with (p_line_number z3). apply fin_tip_rel.
  - change (p_blank (rel x z2)) with (p_blank x). rewrite (proj2 (proj2 Hx)), B3. rewrite !andb_false_r. reflexivity.
Qed.
Lemma line_end_eol ln x : eol x -> line_end ln x = rmap (fun z => set_p_last_line_length (length ln) (rel x z)) (let* _ := tip (er x) in add_text (er x)).
Proof.
  intros Hx. unfold line_end. change (tip (er x)) with (tip x). destruct (tip x) as [t|]; [|reflexivity]. cbn [bind]. rewrite (proj2 (proj2 Hx)). cbn [negb]. rewrite andb_false_r. cbn [andb].
  rewrite (add_text_eol x Hx). destruct (add_text (er x)); reflexivity.
Qed.
Lemma fnn_eol x : p_offset x = length (p_line x) -> let z := find_next_nonspace x in
  p_next_nonspace z = length (p_line z) /\ p_line z = p_line x /\ p_offset z = length (p_line z) /\ p_indent z = 0 /\ p_indented z = false /\ p_blank z = true /\ p_pct z = p_pct x /\ er z = er x.
Proof.
  intros H. unfold find_next_nonspace, rest_offset. rewrite H, skipn_all. cbn [skip_spaces]. cbn zeta. cbn [p_next_nonspace p_line p_offset p_indent p_indented p_blank p_pct set_p_indented set_p_indent set_p_next_nonspace_column set_p_next_nonspace set_p_blank].
  assert (E : peek (p_line x) (length (p_line x)) = None) by (apply nth_error_None; lia). rewrite E, Nat.sub_diag. repeat split; auto.
Qed.
Lemma ann_eol z : p_next_nonspace z = length (p_line z) -> p_blank z = true -> eol (advance_next_nonspace z) /\ er (advance_next_nonspace z) = er z.
Proof. intros H Hb. split; [split; [exact H|split; [reflexivity|exact Hb]]|reflexivity]. Qed.
(** what a block makes of the end of a line *)
Inductive eol_way := WStay | WAdvance | WFail | WErr (e : exn).
Definition way_of (w : eol_way) (z : parser) : res (cont * parser) :=
  match w with WStay => Ok (CMatch, z) | WAdvance => Ok (CMatch, advance_next_nonspace z) | WFail => Ok (CFail, z) | WErr e => Err e end.
Lemma continue_eol d hc : exists w, forall z, p_next_nonspace z = length (p_line z) -> p_offset z = length (p_line z) -> p_indent z = 0 -> p_indented z = false -> p_blank z = true -> continue_ d hc z = way_of w z.
Proof.
  assert (Hp : forall z, p_next_nonspace z = length (p_line z) -> peek (p_line z) (p_next_nonspace z) = None) by (intros z ->; apply nth_error_None; lia).
  assert (Hf : forall i z, p_offset z = length (p_line z) -> skip_fence_offset i z = z).
  { intros [|i] z Hz; [reflexivity|]. cbn [skip_fence_offset]. assert (E : peek (p_line z) (p_offset z) = None) by (rewrite Hz; apply nth_error_None; lia). rewrite E. reflexivity. }
  unfold continue_. destruct (n_t d).
  all: try (exists (WErr KeyError); reflexivity).
  - exists WStay. reflexivity.
  - exists WFail. intros z H1 H2 H3 H4 H5. rewrite (Hp z H1). cbn [opt_is]. rewrite andb_false_r. reflexivity.
  - exists WStay. reflexivity.
  - exists (if hc then WAdvance else WFail). intros z H1 H2 H3 H4 H5. rewrite H5. destruct hc; reflexivity.
  - exists WFail. intros z H1 H2 H3 H4 H5. rewrite H5. reflexivity.
  - exists WFail. reflexivity.
  - exists WFail. reflexivity.
  - destruct (n_is_fenced d).
    + exists (match n_fence_offset d with Some _ => WStay | None => WErr TypeError end). intros z H1 H2 H3 H4 H5. cbv zeta. rewrite H1. rewrite (proj2 (Nat.leb_gt (length (p_line z) + 1) (length (p_line z)))) by lia. rewrite andb_false_r. cbn [andb].
      destruct (n_fence_offset d) as [i|]; [|reflexivity]. cbn [of_option bind]. rewrite (Hf i z H2). reflexivity.
    + exists WAdvance. intros z H1 H2 H3 H4 H5. rewrite H3, H5. reflexivity.
  - destruct (of_option AttributeError _) as [ty|e]; [|exists (WErr e); reflexivity]. cbn [bind]. exists (if (Nat.eqb ty 6 || Nat.eqb ty 7)%bool then WFail else WStay).
    intros z H1 H2 H3 H4 H5. rewrite H5. cbn [andb]. destruct (_ || _); reflexivity.
Qed.
Lemma descend_eol : forall path k x y, Q x y ->
  match descend path k x with
  | Ok (Some m, x') => exists y', descend path k y = Ok (Some m, y') /\ Q x' y'
  | Ok (None, _) => False
  | Err e => descend path k y = Err e
  end.
Proof.
  induction path as [|f path IH]; intros k x y (E & Hx & Hy); cbn [descend]; [exists y; split; [reflexivity|split; auto]|]. cbn zeta.
  destruct (fnn_eol x (proj1 Hx)) as (X1 & X2 & X3 & X4 & X5 & X6 & X7 & X8), (fnn_eol y (proj1 Hy)) as (Y1 & Y2 & Y3 & Y4 & Y5 & Y6 & Y7 & Y8).
  destruct (continue_eol (f_data f) (negb (is_nil (f_kids f)) || negb (is_nil path))) as (w & Hw).
  rewrite (Hw _ X1 X3 X4 X5 X6), (Hw _ Y1 Y3 Y4 Y5 Y6). destruct Hx as (_ & Px & _), Hy as (_ & Py & _).
  assert (Ex : eol (find_next_nonspace x)) by (split; [exact X3|split; [congruence|exact X6]]). assert (Ey : eol (find_next_nonspace y)) by (split; [exact Y3|split; [congruence|exact Y6]]).
  assert (Ee : er (find_next_nonspace x) = er (find_next_nonspace y)) by congruence.
  destruct (ann_eol _ X1 X6) as [Ax Bx], (ann_eol _ Y1 Y6) as [Ay By].
  destruct w; cbn [way_of bind].
  - apply IH. split; auto.
  - apply IH. split; [congruence|auto].
  - eexists. split; [reflexivity|]. split; auto.
  - reflexivity.
Qed.
(** what is kept from line to line *)
Definition kept (x y : parser) : Prop :=
  p_stack y = p_stack x /\ p_line_number y = p_line_number x /\ p_all_closed y = p_all_closed x /\ p_matched y = p_matched x /\ p_refmap y = p_refmap x /\ p_smart y = p_smart x.
Lemma er_kept x y : er x = er y -> kept x y.
Proof. unfold er, kept. intros E. injection E; intros. repeat split; congruence. Qed.
Lemma end_eol ln ln' x y : Q x y -> match line_end ln x with Ok a => exists b, line_end ln' y = Ok b /\ kept a b /\ p_last_line_length b = length ln' | Err e => line_end ln' y = Err e end.
Proof.
  intros (E & Hx & Hy). rewrite (line_end_eol ln x Hx), (line_end_eol ln' y Hy), <- E. destruct (let* _ := tip (er x) in add_text (er x)) as [z|]; [|reflexivity]. cbn [rmap].
  eexists. split; [reflexivity|]. repeat split.
Qed.
Lemma rest_eol f f' ln ln' m x y : Q x y -> match line_rest (S f) ln (Some m, x) with Ok a => exists b, line_rest (S f') ln' (Some m, y) = Ok b /\ kept a b /\ p_last_line_length b = length ln' | Err e => line_rest (S f') ln' (Some m, y) = Err e end.
Proof.
  intros (E & Hx & Hy). pose proof (er_kept _ _ E) as (K1 & K2 & K3 & K4 & K5 & K6). unfold line_rest. rewrite K1.
  set (b := Nat.eqb m (length (p_stack x))). set (x3 := set_p_matched m (set_p_all_closed b x)). set (y3 := set_p_matched m (set_p_all_closed b y)).
  assert (H : Q x3 y3). { split; [|split; assumption]. unfold er in *. injection E; intros. unfold x3, y3. cbn. congruence. }
  assert (Eb : block_at m y3 = block_at m x3) by (unfold block_at, x3, y3; cbn [p_stack set_p_matched set_p_all_closed]; rewrite K1; reflexivity). rewrite Eb. clearbody x3 y3. clear E Hx Hy.
  destruct (block_at m x3) as [c|]; [|reflexivity]. cbn [bind]. destruct (accepts_lines _) as [acc|]; [|reflexivity]. cbn [bind]. destruct (_ && _); [apply end_eol, H|].
  destruct H as (E & Hx & Hy). unfold line_tail. cbn [starts_loop].
  destruct (fnn_eol x3 (proj1 Hx)) as (X1 & X2 & X3 & X4 & X5 & X6 & X7 & X8), (fnn_eol y3 (proj1 Hy)) as (Y1 & Y2 & Y3 & Y4 & Y5 & Y6 & Y7 & Y8).
  assert (Rx : rest_nonspace (find_next_nonspace x3) = []) by (unfold rest_nonspace; rewrite X1; apply skipn_all). assert (Ry : rest_nonspace (find_next_nonspace y3) = []) by (unfold rest_nonspace; rewrite Y1; apply skipn_all).
  rewrite Rx, Ry, X5, Y5. change (re_test reMaybeSpecial []) with false. cbn [negb andb bind]. destruct (ann_eol _ X1 X6) as [Ax Bx], (ann_eol _ Y1 Y6) as [Ay By].
  apply end_eol. split; [congruence|auto].
Qed.
Lemma spaces_step x l d : p_line x = l -> p_offset x = 0 -> p_pct x = false -> (forall c, In c l -> c = SP) -> n_t d = item -> 
  exists z, continue_ d true (find_next_nonspace x) = Ok (CMatch, z) /\ er z = er x /\ eol z.
Proof.
  intros El Eo Ep Hl Hd. assert (Hb : blank_line l) by (intros c Hc; left; apply Hl, Hc).
  destruct (blank_skip (rest_offset x) (p_offset x) (p_column x)) as (c & Ec). { unfold rest_offset. rewrite Eo, El. exact Hb. }
  assert (En : p_offset x + length (rest_offset x) = length l) by (unfold rest_offset; rewrite Eo, El; reflexivity). rewrite En in Ec.
  assert (Epk : peek (p_line x) (length l) = None) by (rewrite El; apply nth_error_None; lia).
  unfold continue_. rewrite Hd. unfold find_next_nonspace. rewrite Ec, Epk. cbn [p_blank set_p_indented set_p_indent set_p_next_nonspace_column set_p_next_nonspace set_p_blank].
  eexists. split; [reflexivity|]. split; [reflexivity|]. split; [|split; reflexivity]. unfold advance_next_nonspace. cbn [p_offset p_line set_p_pct set_p_column set_p_offset p_next_nonspace set_p_indented set_p_indent set_p_next_nonspace_column set_p_next_nonspace set_p_blank]. rewrite El. reflexivity.
Qed.
Lemma incorporate_spaces q up b l0 kl d n j : p_stack q = up ++ [b; F l0 kl; F d []] -> n_t l0 = list_ -> n_t (f_data b) = item -> f_kids b <> [] ->
  match incorporate_line (repeat SP n) q with
  | Ok a => exists r, incorporate_line (repeat SP j) q = Ok r /\ kept a r /\ p_last_line_length r = j
  | Err e => incorporate_line (repeat SP j) q = Err e
  end.
Proof.
  intros Es L1 Bt Hk. rewrite !incorporate_line_eq. cbn zeta.
  assert (Er : forall k, replace_char 0 65533 (repeat SP k) = repeat SP k) by (induction k as [|k IH]; [reflexivity|]; cbn [repeat]; unfold replace_char in *; cbn [map]; rewrite IH; reflexivity).
  rewrite !Er. change (p_stack (line_start (repeat SP n) q)) with (p_stack q). change (p_stack (line_start (repeat SP j) q)) with (p_stack q). rewrite Es, rev_app_distr. cbn [rev app tl].
  assert (H : forall k, exists z, descend (F l0 kl :: b :: rev up) 1 (line_start (repeat SP k) q) = descend (rev up) 3 z /\ er z = er (line_start [] q) /\ eol z).
  { intros k. cbn [descend]. cbn zeta. unfold continue_ at 1. cbn [f_data]. rewrite L1. cbn [bind]. set (x := line_start (repeat SP k) q).
    assert (X : p_line (find_next_nonspace x) = repeat SP k /\ p_offset (find_next_nonspace x) = 0 /\ p_pct (find_next_nonspace x) = false /\ er (find_next_nonspace x) = er (line_start [] q)).
    { unfold find_next_nonspace. destruct (skip_spaces _ _ _). repeat split. }
    destruct X as (X1 & X2 & X3 & X4). destruct (spaces_step _ _ (f_data b) X1 X2 X3 (fun c Hc => repeat_spec _ _ _ Hc) Bt) as (z & Ez & Z1 & Z2).
    assert (Ehk : (negb (is_nil (f_kids b)) || negb (is_nil (rev up)))%bool = true) by (destruct (f_kids b); [congruence|reflexivity]). rewrite Ehk, Ez. cbn [bind].
    exists z. split; [reflexivity|]. split; [congruence|exact Z2]. }
  destruct (H n) as (zn & -> & N1 & N2), (H j) as (zj & -> & J1 & J2). clear H.
  pose proof (descend_eol (rev up) 3 zn zj (conj (eq_trans N1 (eq_sym J1)) (conj N2 J2))) as D.
  destruct (descend (rev up) 3 zn) as [[[m|] x']|e]; [|destruct D|rewrite D; reflexivity]. destruct D as (y' & -> & HQ). cbn [bind].
  pose proof (rest_eol (length (repeat SP n)) (length (repeat SP j)) (repeat SP n) (repeat SP j) m x' y' HQ) as R. rewrite (repeat_length SP j) in R. rewrite (repeat_length SP j). exact R.
Qed.
