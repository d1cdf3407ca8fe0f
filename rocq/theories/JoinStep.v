(** * The first line behind a text *)
From Verif Require Import Base Regex Common NormRef Node Inlines Blocks RegexFacts StrFacts StrProp Spec SpecTree SpecSame InlineFacts BlockFacts BlockInv BlockRun LineFacts ParseFacts Sim SimFacts EmptyLine JoinLine JoinClose.
From Coq Require Import ZifyBool ZifyNat ZifyN.

Lemma fnn_idem p : find_next_nonspace (find_next_nonspace p) = find_next_nonspace p.
Proof.
  unfold find_next_nonspace at 2 3. destruct (skip_spaces (rest_offset p) (p_offset p) (p_column p)) as [i c] eqn:E. set (q := set_p_indented _ _). unfold find_next_nonspace.
  change (rest_offset q) with (rest_offset p). change (p_offset q) with (p_offset p). change (p_column q) with (p_column p). rewrite E. change (p_line q) with (p_line p). reflexivity.
Qed.
Lemma starts_fnn f n p : starts_loop (S f) n (find_next_nonspace p) = starts_loop (S f) n p.
Proof. cbn [starts_loop]. rewrite fnn_idem. reflexivity. Qed.
Lemma fnn_same p : p_stack (find_next_nonspace p) = p_stack p /\ p_line_number (find_next_nonspace p) = p_line_number p.
Proof. unfold find_next_nonspace. destruct (skip_spaces _ _ _). split; reflexivity. Qed.
(** the rest of a line at which nothing starts *)
Lemma end_same x w ln : closes x w w -> line_end ln (advance_next_nonspace x) = line_end ln (advance_next_nonspace w).
Proof.
  intros H. assert (Ax : advance_next_nonspace x = rel (advance_next_nonspace x) x) by (rewrite <- ann_rel, rel_id; reflexivity).
  assert (Aw : advance_next_nonspace w = rel (advance_next_nonspace x) w) by (rewrite <- ann_rel, (c_rel _ _ _ H); reflexivity).
  unfold line_end. destruct (c_tip _ _ _ H) as (t & Et & Ht), (c_tipw _ _ _ H) as (t' & Et' & Ht'). change (tip (advance_next_nonspace x)) with (tip x). change (tip (advance_next_nonspace w)) with (tip w). rewrite Et, Et'. cbn [bind].
  rewrite !not_par by assumption. rewrite !andb_false_r. unfold add_text. rewrite Ax, Aw, (at_close _ _ _ H), (at_closew _ _ _ H). reflexivity.
Qed.

Lemma rel_relk a z c : rel a (set_p_all_closed c (relk a z)) = set_p_all_closed c (relk a z).
Proof. reflexivity. Qed.
Lemma fnn_flags m a q : find_next_nonspace (set_p_matched m (set_p_all_closed a q)) = set_p_matched m (set_p_all_closed a (find_next_nonspace q)).
Proof.
  unfold find_next_nonspace. change (rest_offset (set_p_matched m (set_p_all_closed a q))) with (rest_offset q). change (p_offset (set_p_matched m (set_p_all_closed a q))) with (p_offset q). change (p_column (set_p_matched m (set_p_all_closed a q))) with (p_column q).
  destruct (skip_spaces _ _ _). reflexivity.
Qed.
Lemma tip_some p : p_stack p <> [] -> exists t, tip p = Ok t.
Proof. unfold tip. destruct (p_stack p) as [|t st]; [congruence|]. intros _. exists t. reflexivity. Qed.
Section Step.
  Variables (p1 pc : parser) (up : list frame) (b : frame) (ln : str).
  Hypothesis Es : p_stack p1 = up ++ [b].
  Hypothesis Eb : f_type b = document.
  Hypothesis Efin : fin_to 1 (length (p_stack p1)) (p_line_number p1) p1 = Ok pc.
  Variable x0 : parser.
  Hypothesis X1 : x0 = relk x0 p1.
  Hypothesis X2 : p_line_number x0 = S (p_line_number p1).
  Hypothesis X3 : find_next_nonspace x0 = x0.
  Lemma pc_stack : exists k, p_stack pc = [F (f_data b) k].
  Proof. destruct (fin_to_base 1 (p_line_number p1) [] eq_refl up b _ p1 pc Es Efin) as (ex & E & _). exists (f_kids b ++ ex). exact E. Qed.
  Lemma pc_held : held p1 pc.
  Proof. eapply fin_to_held; exact Efin. Qed.
  Let x m a := set_p_matched m (set_p_all_closed a x0).
  Lemma x_stack m a : p_stack (x m a) = up ++ [b] /\ p_line_number (x m a) - 1 = p_line_number p1 /\ tip (x m a) = tip p1.
  Proof.
    unfold tip. change (p_stack (x m a)) with (p_stack x0). change (p_line_number (x m a)) with (p_line_number x0). rewrite X2. assert (E1 : p_stack x0 = p_stack p1) by (rewrite X1; reflexivity). rewrite E1, Es. split; [reflexivity|]. split; [lia|reflexivity].
  Qed.
  Lemma x_relk m a : x m a = relk (x m a) p1.
  Proof. unfold x. rewrite X1. reflexivity. Qed.
  Lemma x_block m a : block_at 1 (x m a) = Ok b.
  Proof. unfold block_at. rewrite (proj1 (x_stack m a)), app_length. cbn [length]. rewrite nth_error_app2 by lia. replace (_ - _) with 0 by lia. reflexivity. Qed.
  Lemma w_tip m : exists t, tip (set_p_all_closed true (relk (x m false) pc)) = Ok t /\ f_type t = document.
  Proof. destruct pc_stack as (k & E). unfold tip. change (p_stack (set_p_all_closed true (relk (x m false) pc))) with (p_stack pc). rewrite E. cbn. eexists. split; [reflexivity|exact Eb]. Qed.
  Lemma x_close m q : m < length (up ++ [b]) -> fin_to m (length (p_stack p1)) (p_line_number p1) p1 = Ok q -> close_unmatched_blocks (x m false) = Ok (set_p_all_closed true (relk (x m false) q)).
  Proof.
    intros Hm Eq. unfold close_unmatched_blocks. cbn [p_all_closed set_p_all_closed set_p_matched x]. rewrite close_loop_to. destruct (x_stack m false) as (E1 & E2 & _). rewrite E2, E1, <- Es. change (p_matched (x m false)) with m.
    assert (E3 : fin_to m (length (p_stack p1)) (p_line_number p1) (relk (x m false) p1) = Ok (relk (x m false) q)) by (rewrite fin_to_relk, Eq; reflexivity).
    rewrite <- (x_relk m false) in E3.
    rewrite E3. reflexivity.
  Qed.
  Lemma rel_w m : rel (x m false) (set_p_all_closed true (relk (x m false) pc)) = set_p_all_closed true (relk (x m false) pc).
  Proof. apply rel_relk. Qed.
  Lemma leaf_closes : up <> [] -> (exists t, tip p1 = Ok t /\ f_type t <> paragraph) -> closes (x 1 false) (set_p_all_closed true (relk (x 1 false) pc)) (set_p_all_closed true (relk (x 1 false) pc)).
  Proof.
    intros Hu Ht. constructor; [constructor| | |].
    - apply x_close; [rewrite app_length; destruct up; [congruence|cbn; lia]|exact Efin].
    - reflexivity.
    - apply rel_w.
    - reflexivity.
    - rewrite (proj2 (proj2 (x_stack 1 false))). exact Ht.
    - destruct (w_tip 1) as (t & E & E'). exists t. split; [exact E|]. rewrite E'. discriminate.
    - left. reflexivity.
  Qed.
  Lemma x_fnn m a : find_next_nonspace (x m a) = x m a.
  Proof. unfold x. rewrite fnn_flags, X3. reflexivity. Qed.
  Lemma leaf_step y : up <> [] -> (exists t, tip p1 = Ok t /\ f_type t <> paragraph) -> set_p_all_closed true (relk (x 1 false) pc) = find_next_nonspace y ->
    line_rest (S (length ln)) ln (Some 1, x0) = line_tail (S (length ln)) ln 1 y.
  Proof.
    intros Hu Ht Ew. unfold line_rest. assert (El : Nat.eqb 1 (length (p_stack x0)) = false).
    { apply Nat.eqb_neq. pose proof (proj1 (x_stack 1 false)) as E. change (p_stack (x 1 false)) with (p_stack x0) in E. rewrite E, app_length. destruct up; [congruence|cbn; lia]. }
    rewrite El. fold (x 1 false). rewrite x_block. cbn [bind]. rewrite Eb. change (accepts_lines document) with (Ok (A:=bool) false). cbn [bind]. rewrite andb_false_r.
    pose proof (leaf_closes Hu Ht) as H. set (w := set_p_all_closed true (relk (x 1 false) pc)) in *.
    unfold line_tail. rewrite <- (starts_fnn _ _ y), <- Ew.
    destruct pc_stack as (k & Ek). assert (Ewb : block_at 1 w = Ok (F (f_data b) k)) by (unfold block_at; change (p_stack w) with (p_stack pc); rewrite Ek; reflexivity).
    destruct (loop_same _ _ _ H (length ln) 1 1 b _ (x_fnn 1 false) (x_block 1 false) Ewb ltac:(rewrite Eb; discriminate) (or_introl eq_refl)) as [[-> ->]|G].
    - cbn [bind]. apply end_same, H.
    - destruct (starts_loop _ 1 (x 1 false)) as [[k0 p]|e]; [destruct G as (k1 & ->)|rewrite G]; reflexivity.
  Qed.
  (** an empty line *)
  Lemma blank_step y : up <> [] -> p_blank x0 = true -> p_indented x0 = false -> rest_nonspace x0 = [] -> set_p_all_closed true (relk (x 1 false) pc) = find_next_nonspace y ->
    line_rest (S (length ln)) ln (Some 1, x0) = line_tail (S (length ln)) ln 1 y.
  Proof.
    intros Hu Hbl Hin Hre Ew. unfold line_rest. assert (El : Nat.eqb 1 (length (p_stack x0)) = false).
    { apply Nat.eqb_neq. pose proof (proj1 (x_stack 1 false)) as E. change (p_stack (x 1 false)) with (p_stack x0) in E. rewrite E, app_length. destruct up; [congruence|cbn; lia]. }
    rewrite El. fold (x 1 false). rewrite x_block. cbn [bind]. rewrite Eb. change (accepts_lines document) with (Ok (A:=bool) false). cbn [bind]. rewrite andb_false_r.
    assert (Hc : close_unmatched_blocks (x 1 false) = Ok (set_p_all_closed true (relk (x 1 false) pc))) by (apply x_close; [rewrite app_length; destruct up; [congruence|cbn; lia]|exact Efin]).
    set (w := set_p_all_closed true (relk (x 1 false) pc)) in *. unfold line_tail. rewrite <- (starts_fnn _ _ y), <- Ew. cbn [starts_loop]. cbn zeta. rewrite x_fnn, Ew, fnn_idem, <- Ew.
    change (p_indented (x 1 false)) with (p_indented x0). change (rest_nonspace (x 1 false)) with (rest_nonspace x0). change (p_indented w) with (p_indented x0). change (rest_nonspace w) with (rest_nonspace x0). rewrite Hin, Hre.
    change (negb false && negb (re_test reMaybeSpecial [])) with true. cbn [bind].
    assert (Hx : close_unmatched_blocks (advance_next_nonspace (x 1 false)) = Ok (advance_next_nonspace w)).
    { assert (Ax : advance_next_nonspace (x 1 false) = rel (advance_next_nonspace (x 1 false)) (x 1 false)) by (rewrite <- ann_rel, rel_id; reflexivity).
      assert (Aw : advance_next_nonspace w = rel (advance_next_nonspace (x 1 false)) w) by (rewrite <- ann_rel, rel_w; reflexivity).
      rewrite Ax, Aw, close_rel, Hc. reflexivity. }
    assert (Hw : close_unmatched_blocks (advance_next_nonspace w) = Ok (advance_next_nonspace w)) by reflexivity.
    unfold line_end. destruct (tip_some (advance_next_nonspace (x 1 false))) as (t & ->); [change (p_stack (x 1 false) <> []); rewrite (proj1 (x_stack 1 false)); destruct up; discriminate|].
    destruct pc_stack as (k & Ek). destruct (tip_some (advance_next_nonspace w)) as (t' & ->); [change (p_stack pc <> []); rewrite Ek; discriminate|]. cbn [bind].
    change (p_blank (advance_next_nonspace (x 1 false))) with (p_blank x0). change (p_blank (advance_next_nonspace w)) with (p_blank x0). rewrite Hbl. cbn [negb]. rewrite !andb_false_r. cbn [andb]. unfold add_text. rewrite Hx, Hw. reflexivity.
  Qed.
End Step.
