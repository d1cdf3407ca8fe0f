(** * Offsets and columns: C39 *)
From Verif Require Import Base Regex Common NormRef Node Inlines Blocks Spec SpecLines StrFacts BlockFacts DocFacts.
From Coq Require Import ZifyBool ZifyNat ZifyN.

Lemma width_from_app : forall a col b, width_from col (a ++ b) = width_from (width_from col a) b.
Proof. induction a as [|c a IH]; intros col b; [reflexivity|]. cbn [app width_from]. apply IH. Qed.
Lemma width_app a b : width (a ++ b) = width_from (width a) b.
Proof. apply width_from_app. Qed.
Lemma next_stop col : 4 * (col / 4 + 1) = col + (4 - col mod 4).
Proof. pose proof (Nat.div_mod col 4). lia. Qed.
Lemma firstn_S {A} : forall n (l : list A) c, nth_error l n = Some c -> firstn (S n) l = firstn n l ++ [c].
Proof. induction n as [|n IH]; intros [|x l] c H; try discriminate; cbn [nth_error] in H; [injection H as ->; reflexivity|]. cbn [firstn app]. f_equal. apply IH. exact H. Qed.

(** The parser stands at the column that the text before it fills, or inside a tab *)
Definition at_col (p : parser) : Prop := at_column (p_line p) (p_offset p) (p_column p) (p_pct p).

Lemma tab_stop line off : nth_error line off = Some TAB -> width (firstn (S off) line) = width (firstn off line) + (4 - width (firstn off line) mod 4).
Proof. intros H. rewrite (firstn_S _ _ _ H), width_app. cbn [width_from]. change (N.eqb TAB 9) with true. cbv iota. apply next_stop. Qed.
(** from inside a tab, the tab stop is the same *)
Lemma same_stop w col : w < col < w + (4 - w mod 4) -> col + (4 - col mod 4) = w + (4 - w mod 4).
Proof. intros H. pose proof (Nat.div_mod w 4). pose proof (Nat.div_mod col 4). pose proof (Nat.mod_upper_bound w 4). pose proof (Nat.mod_upper_bound col 4).
  assert (col / 4 = w / 4) by nia. lia. Qed.
Lemma to_stop p c : at_col p -> nth_error (p_line p) (p_offset p) = Some c -> c = TAB ->
  p_column p + (4 - p_column p mod 4) = width (firstn (S (p_offset p)) (p_line p)) /\ width (firstn (p_offset p) (p_line p)) <= p_column p.
Proof.
  intros (Hl & H) E ->. rewrite (tab_stop _ _ E) in *. destruct (p_pct p); [|rewrite <- H; split; reflexivity].
  destruct H as [_ H]. split; [apply same_stop; exact H|lia].
Qed.
Lemma nth_lt {A} (l : list A) n c : nth_error l n = Some c -> S n <= length l.
Proof. intros E. apply nth_error_Some. congruence. Qed.

(** ** Advancing by columns *)
Lemma advance_loop_columns : forall f n p, n <= f -> at_col p ->
  let p' := advance_loop f n true p in at_col p' /\ p_line p' = p_line p /\
  (p_column p' = p_column p + n \/ (p_offset p' = length (p_line p) /\ p_column p <= p_column p' < p_column p + n)).
Proof.
  induction f as [|f IH]; intros n p Hn Hp; cbn [advance_loop].
  - split; [exact Hp|]. split; [reflexivity|]. left. lia.
  - destruct n as [|n]; [split; [exact Hp|]; split; [reflexivity|]; left; lia|]. unfold peek.
    destruct (nth_error (p_line p) (p_offset p)) as [c|] eqn:E.
    + destruct (N.eqb_spec c TAB) as [Ec|Ec].
      * destruct (to_stop p c Hp E Ec) as [Es Ew]. subst c. set (m := 4 - p_column p mod 4) in *. set (pc := Nat.ltb (S n) m).
        assert (Hm : 1 <= m) by (unfold m; pose proof (Nat.mod_upper_bound (p_column p) 4); lia).
        set (q := set_p_offset _ _). assert (Hq : at_col q).
        { unfold at_col, q. cbn [p_line p_offset p_column p_pct set_p_offset set_p_column set_p_pct]. assert (L : pc = true /\ S n < m \/ pc = false /\ m <= S n) by (unfold pc; destruct (Nat.ltb_spec (S n) m); auto). destruct L as [[-> L]|[-> L]].
          - split; [destruct Hp; assumption|]. split; [exact E|]. lia.
          - split; [eapply nth_lt; exact E|]. rewrite <- Es. lia. }
        assert (Q1 : p_column q = p_column p + Nat.min (S n) m) by reflexivity. assert (Q2 : p_line q = p_line p) by reflexivity. clearbody q.
        destruct (IH (S n - Nat.min (S n) m) q ltac:(lia) Hq) as (A & B & C). split; [exact A|]. split; [congruence|]. rewrite Q1, Q2 in C. lia.
      * set (q := set_p_column _ _). assert (Hq : at_col q).
        { unfold at_col, q. cbn [p_line p_offset p_column p_pct set_p_offset set_p_column set_p_pct]. split; [eapply nth_lt; exact E|]. destruct Hp as (_ & H).
          destruct (p_pct p); [destruct H as [H _]; congruence|]. rewrite (firstn_S _ _ _ E), width_app, <- H. cbn [width_from]. rewrite (proj2 (N.eqb_neq c 9) Ec). lia. }
        assert (Q1 : p_column q = S (p_column p)) by reflexivity. assert (Q2 : p_line q = p_line p) by reflexivity. clearbody q.
        destruct (IH n q ltac:(lia) Hq) as (A & B & C). split; [exact A|]. split; [congruence|]. rewrite Q1, Q2 in C. lia.
    + split; [exact Hp|]. split; [reflexivity|]. right. apply nth_error_None in E. destruct Hp as [Hp _]. lia.
Qed.
(** ** Advancing by characters *)
Lemma advance_loop_chars : forall f n p, n <= f -> at_col p ->
  let p' := advance_loop f n false p in at_col p' /\ p_line p' = p_line p /\ p_offset p' = Nat.min (p_offset p + n) (length (p_line p)) /\
  (0 < n -> p_offset p < length (p_line p) -> p_pct p' = false).
Proof.
  induction f as [|f IH]; intros n p Hn Hp; cbn [advance_loop].
  - split; [exact Hp|]. split; [reflexivity|]. split; [destruct Hp; lia|lia].
  - destruct n as [|n]; [split; [exact Hp|]; split; [reflexivity|]; split; [destruct Hp; lia|lia]|]. unfold peek.
    destruct (nth_error (p_line p) (p_offset p)) as [c|] eqn:E.
    + pose proof (nth_lt _ _ _ E) as HL.
      assert (X : forall q, at_col q -> p_line q = p_line p -> p_offset q = S (p_offset p) -> p_pct q = false ->
        at_col (advance_loop f n false q) /\ p_line (advance_loop f n false q) = p_line p /\ p_offset (advance_loop f n false q) = Nat.min (p_offset p + S n) (length (p_line p)) /\
        (0 < S n -> p_offset p < length (p_line p) -> p_pct (advance_loop f n false q) = false)).
      { intros q H1 H2 H3 H4. destruct (IH n q ltac:(lia) H1) as (A & B & C & D). rewrite H2, H3 in *. split; [exact A|]. split; [exact B|]. split; [lia|]. intros _ _.
        destruct n as [|n]; [destruct f; exact H4|]. destruct (Nat.ltb_spec (S (p_offset p)) (length (p_line p))); [apply D; lia|].
        destruct f as [|f]; [exact H4|]. cbn [advance_loop]. unfold peek. rewrite H2, H3, (proj2 (nth_error_None _ _)) by lia. exact H4. }
      destruct (N.eqb_spec c TAB) as [Ec|Ec]; apply X; try reflexivity; unfold at_col; cbn [p_line p_offset p_column p_pct set_p_offset set_p_column set_p_pct]; (split; [lia|]).
      * destruct (to_stop p c Hp E Ec) as [Es Ew]. exact Es.
      * destruct Hp as (_ & H). destruct (p_pct p); [destruct H as [H _]; congruence|]. rewrite (firstn_S _ _ _ E), width_app, <- H. cbn [width_from]. rewrite (proj2 (N.eqb_neq c 9) Ec). lia.
    + apply nth_error_None in E. split; [exact Hp|]. split; [reflexivity|]. split; [destruct Hp; lia|lia].
Qed.

(** ** Looking for the next character that is no blank *)
Lemma skip_spaces_width : forall s i col, exists w q, s = w ++ q /\ blanks w /\ (forall c q', q = c :: q' -> c <> SP /\ c <> TAB) /\ skip_spaces s i col = (i + length w, width_from col w).
Proof.
  induction s as [|c s IH]; intros i col; cbn [skip_spaces].
  - exists [], []. split; [reflexivity|]. split; [constructor|]. split; [discriminate|]. cbn [length width_from]. f_equal. lia.
  - destruct (N.eqb_spec c SP) as [->|H1]; [|destruct (N.eqb_spec c TAB) as [->|H2]].
    + destruct (IH (S i) (S col)) as (w & q & -> & W1 & W2 & ->). exists (SP :: w), q. split; [reflexivity|]. split; [constructor; [left; reflexivity|exact W1]|]. split; [exact W2|]. cbn [length width_from]. change (N.eqb SP 9) with false. cbv iota. rewrite Nat.add_1_r. f_equal. lia.
    + destruct (IH (S i) (col + (4 - col mod 4))) as (w & q & -> & W1 & W2 & ->). exists (TAB :: w), q. split; [reflexivity|]. split; [constructor; [right; reflexivity|exact W1]|]. split; [exact W2|]. cbn [length width_from]. change (N.eqb TAB 9) with true. cbv iota. rewrite next_stop. f_equal. lia.
    + exists [], (c :: s). split; [reflexivity|]. split; [constructor|]. split; [intros x q' E; injection E as <- <-; split; assumption|]. cbn [length width_from]. f_equal. lia.
Qed.
Lemma firstn_add {A} : forall n (l : list A) m, firstn (n + m) l = firstn n l ++ firstn m (skipn n l).
Proof. induction n as [|n IH]; intros l m; [reflexivity|]. destruct l as [|x l]; [cbn [Nat.add firstn skipn app]; destruct m; reflexivity|]. cbn [Nat.add firstn skipn app]. f_equal. apply IH. Qed.
Lemma find_next_nonspace_column p : at_col p -> let p' := find_next_nonspace p in
  p_offset p' = p_offset p /\ p_column p' = p_column p /\ p_pct p' = p_pct p /\ p_line p' = p_line p /\
  (exists w, firstn (p_next_nonspace p') (p_line p) = firstn (p_offset p) (p_line p) ++ w /\ blanks w) /\
  (forall c, nth_error (p_line p) (p_next_nonspace p') = Some c -> c <> SP /\ c <> TAB) /\
  p_next_nonspace_column p' = width (firstn (p_next_nonspace p') (p_line p)) /\ p_indent p' = p_next_nonspace_column p' - p_column p /\
  p_offset p <= p_next_nonspace p' <= length (p_line p) /\ p_column p <= p_next_nonspace_column p'.
Proof.
  intros Hp p'. unfold p', find_next_nonspace. destruct (skip_spaces_width (rest_offset p) (p_offset p) (p_column p)) as (w & q & E & W1 & W2 & ->).
  cbn [p_line p_offset p_column p_pct p_next_nonspace p_next_nonspace_column p_indent set_p_indented set_p_indent set_p_next_nonspace_column set_p_next_nonspace set_p_blank].
  unfold rest_offset in E. assert (Ef : firstn (p_offset p + length w) (p_line p) = firstn (p_offset p) (p_line p) ++ w).
  { rewrite firstn_add, E. f_equal. rewrite firstn_app, firstn_all, Nat.sub_diag. apply app_nil_r. }
  assert (HL : p_offset p + length w <= length (p_line p)). { assert (Hl : length (skipn (p_offset p) (p_line p)) = length w + length q) by (rewrite E; apply app_length). rewrite skipn_length in Hl. destruct Hp. lia. }
  assert (Hmono : forall w col, col <= width_from col w).
  { clear. induction w as [|c w IH]; intros col; cbn [width_from]; [lia|]. destruct (N.eqb c 9); (etransitivity; [|apply IH]); [rewrite next_stop|]; lia. }
  repeat split; auto.
  - exists w. split; [exact Ef|exact W1].
  - rewrite <- nth_error_skipn, E, nth_error_app2, Nat.sub_diag in H by lia. destruct q as [|x q]; [discriminate|]. injection H as <-. destruct (W2 _ _ eq_refl). assumption.
  - rewrite <- nth_error_skipn, E, nth_error_app2, Nat.sub_diag in H by lia. destruct q as [|x q]; [discriminate|]. injection H as <-. destruct (W2 _ _ eq_refl). assumption.
  - rewrite Ef, width_app. destruct Hp as (Hl & Hp). destruct (p_pct p); [|rewrite <- Hp; reflexivity]. destruct Hp as [Ht Hp].
    destruct w as [|x w].
    + rewrite <- (Nat.add_0_r (p_offset p)), <- nth_error_skipn, E in Ht. destruct q as [|c q]; [discriminate|]. injection Ht as ->. destruct (W2 _ _ eq_refl). congruence.
    + rewrite <- (Nat.add_0_r (p_offset p)), <- nth_error_skipn, E in Ht. injection Ht as ->. cbn [width_from]. change (N.eqb TAB 9) with true. cbv iota. f_equal.
      rewrite !next_stop. assert (Et : nth_error (p_line p) (p_offset p) = Some TAB) by (rewrite <- (Nat.add_0_r (p_offset p)), <- nth_error_skipn, E; reflexivity).
      rewrite (tab_stop _ _ Et) in Hp. apply same_stop. exact Hp.
  - lia.
Qed.
Lemma advance_next_nonspace_column p : p_next_nonspace p <= length (p_line p) -> p_next_nonspace_column p = width (firstn (p_next_nonspace p) (p_line p)) -> at_col (advance_next_nonspace p).
Proof. intros H1 H2. unfold at_col, at_column. cbn [advance_next_nonspace p_line p_offset p_column p_pct set_p_offset set_p_column set_p_pct]. auto. Qed.
Lemma indentation p : at_col p -> let p' := find_next_nonspace p in
  (exists w, firstn (p_next_nonspace p') (p_line p) = firstn (p_offset p) (p_line p) ++ w /\ blanks w) /\
  (forall c, nth_error (p_line p) (p_next_nonspace p') = Some c -> c <> 32%N /\ c <> 9%N) /\
  p_next_nonspace_column p' = width (firstn (p_next_nonspace p') (p_line p)) /\ p_indent p' = width (firstn (p_next_nonspace p') (p_line p)) - p_column p.
Proof. intros H. destruct (find_next_nonspace_column p H) as (_ & _ & _ & _ & H1 & H2 & H3 & H4 & _). split; [exact H1|]. split; [exact H2|]. split; [exact H3|]. rewrite H4, H3. reflexivity. Qed.
