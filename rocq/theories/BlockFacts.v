(** * Facts about the steps of the block parser *)
From Verif Require Import Base Regex Common NormRef Node Inlines Blocks RegexFacts RegexLang StrFacts Spec SpecTree TreeFacts CommonFacts StrProp.
From Coq Require Import ZifyBool ZifyNat ZifyN.

(** ** Moving in the line *)
Definition mv (off col : nat) (pct : bool) (x : parser) : parser :=
  P (p_stack x) (p_doc x) (p_line x) (p_line_number x) off col (p_next_nonspace x) (p_next_nonspace_column x) (p_indent x) (p_indented x) (p_blank x) pct (p_all_closed x) (p_matched x) (p_refmap x) (p_last_line_length x) (p_ip x) (p_smart x).
Lemma mv_id p : p = mv (p_offset p) (p_column p) (p_pct p) p.
Proof. destruct p; reflexivity. Qed.
Lemma mv_mv a b c a' b' c' p : mv a b c (mv a' b' c' p) = mv a b c p.
Proof. reflexivity. Qed.
Lemma peek_some_lt l i c : peek l i = Some c -> i < length l.
Proof. unfold peek. intros H. apply nth_error_Some. congruence. Qed.
Lemma advance_loop_mv : forall f count cols p, exists off col pct,
  advance_loop f count cols p = mv off col pct p /\ p_offset p <= off /\ (p_offset p <= length (p_line p) -> off <= length (p_line p)).
Proof.
  induction f as [|f IH]; intros count cols p; cbn [advance_loop].
  { exists (p_offset p), (p_column p), (p_pct p). split; [apply mv_id|lia]. }
  assert (Hid : exists off col pct, p = mv off col pct p /\ p_offset p <= off /\ (p_offset p <= length (p_line p) -> off <= length (p_line p))).
  { exists (p_offset p), (p_column p), (p_pct p). split; [apply mv_id|lia]. }
  destruct count as [|count]; [exact Hid|]. destruct (peek (p_line p) (p_offset p)) as [c|] eqn:E; [|exact Hid]. apply peek_some_lt in E.
  assert (Hrec : forall k off0 col0 pct0, p_offset p <= off0 <= S (p_offset p) ->
     exists off col pct, advance_loop f k cols (mv off0 col0 pct0 p) = mv off col pct p /\ p_offset p <= off /\ (p_offset p <= length (p_line p) -> off <= length (p_line p))).
  { intros k off0 col0 pct0 H0. destruct (IH k cols (mv off0 col0 pct0 p)) as (off & col & pct & -> & H1 & H2). exists off, col, pct. cbn in H1, H2.
    split; [reflexivity|]. lia. }
  destruct (N.eqb c TAB); [destruct cols|].
  - apply (Hrec _ (if Nat.ltb (S count) (4 - p_column p mod 4) then p_offset p else S (p_offset p)) (p_column p + Nat.min (S count) (4 - p_column p mod 4)) (Nat.ltb (S count) (4 - p_column p mod 4))).
    destruct (Nat.ltb _ _); lia.
  - apply (Hrec _ (S (p_offset p)) (p_column p + (4 - p_column p mod 4)) false). lia.
  - apply (Hrec _ (S (p_offset p)) (S (p_column p)) false). lia.
Qed.
Lemma advance_offset_mv count cols p : exists off col pct,
  advance_offset count cols p = mv off col pct p /\ p_offset p <= off /\ (p_offset p <= length (p_line p) -> off <= length (p_line p)).
Proof. apply advance_loop_mv. Qed.
Lemma advance_next_nonspace_mv p : advance_next_nonspace p = mv (p_next_nonspace p) (p_next_nonspace_column p) false p.
Proof. reflexivity. Qed.

(** over characters that are no tabs the offset moves by the count *)
Lemma skipn_cons {A} n (l : list A) x r : skipn n l = x :: r -> nth_error l n = Some x /\ skipn (S n) l = r.
Proof.
  revert l. induction n as [|n IH]; intros l H; cbn in H.
  - subst l. split; reflexivity.
  - destruct l as [|y l]; [discriminate|]. apply IH in H as [H1 H2]. split; [exact H1|exact H2].
Qed.
Lemma advance_nontab : forall g cols p r, skipn (p_offset p) (p_line p) = g ++ r -> ~ In TAB g -> g <> [] ->
  advance_offset (length g) cols p = mv (p_offset p + length g) (p_column p + length g) false p.
Proof.
  unfold advance_offset.
  assert (H : forall g cols p r, skipn (p_offset p) (p_line p) = g ++ r -> ~ In TAB g ->
    advance_loop (length g) (length g) cols p = mv (p_offset p + length g) (p_column p + length g) (match g with [] => p_pct p | _ => false end) p).
  { induction g as [|c g IH]; intros cols p r H Ht; cbn [length advance_loop].
    - rewrite !Nat.add_0_r. apply mv_id.
    - cbn [app] in H. apply skipn_cons in H as [H1 H2]. unfold peek. rewrite H1.
      destruct (N.eqb_spec c TAB) as [->|_]; [exfalso; apply Ht; left; reflexivity|].
      rewrite (IH cols (set_p_column (S (p_column p)) (set_p_offset (S (p_offset p)) (set_p_pct false p))) r); [|exact H2|intros G; apply Ht; right; exact G].
      unfold mv. cbn. destruct g; f_equal; lia. }
  intros g cols p r H1 H2 H3. rewrite (H g cols p r H1 H2). destruct g; [congruence|reflexivity].
Qed.
Lemma advance_to_end_mv p : exists off col pct, advance_to_end p = mv off col pct p /\ length (p_line p) <= off.
Proof.
  unfold advance_to_end, advance_offset. remember (length (p_line p) - p_offset p) as k eqn:Ek. revert p Ek.
  induction k as [|k IH]; intros p Ek; cbn [advance_loop].
  - exists (p_offset p), (p_column p), (p_pct p). split; [apply mv_id|lia].
  - unfold peek. destruct (nth_error (p_line p) (p_offset p)) as [c|] eqn:E.
    + assert (Hrec : forall col0 pct0, exists off col pct, advance_loop k k false (mv (S (p_offset p)) col0 pct0 p) = mv off col pct p /\ length (p_line p) <= off).
      { intros col0 pct0. destruct (IH (mv (S (p_offset p)) col0 pct0 p)) as (off & col & pct & -> & H); [cbn; lia|]. exists off, col, pct. split; [reflexivity|exact H]. }
      destruct (N.eqb c TAB); [apply (Hrec (p_column p + (4 - p_column p mod 4)) false)|apply (Hrec (S (p_column p)) false)].
    + apply nth_error_None in E. lia.
Qed.
Lemma skip_fence_offset_mv : forall i p, exists off col pct,
  skip_fence_offset i p = mv off col pct p /\ p_offset p <= off /\ (p_offset p <= length (p_line p) -> off <= length (p_line p)).
Proof.
  induction i as [|i IH]; intros p; cbn [skip_fence_offset].
  { exists (p_offset p), (p_column p), (p_pct p). split; [apply mv_id|lia]. }
  destruct (is_space_or_tab _).
  - destruct (advance_offset_mv 1 true p) as (o1 & c1 & t1 & E1 & H1 & H2). rewrite E1.
    destruct (IH (mv o1 c1 t1 p)) as (off & col & pct & -> & H3 & H4). exists off, col, pct. cbn in H3, H4. split; [reflexivity|]. lia.
  - exists (p_offset p), (p_column p), (p_pct p). split; [apply mv_id|lia].
Qed.
Lemma advance_one_col p : peek (p_line p) (p_offset p) <> None ->
  exists off pct, advance_offset 1 true p = mv off (S (p_column p)) pct p /\ p_offset p <= off <= S (p_offset p).
Proof.
  intros H. unfold advance_offset. cbn [advance_loop]. destruct (peek (p_line p) (p_offset p)) as [c|] eqn:E; [|congruence].
  destruct (N.eqb c TAB).
  - set (t := 4 - p_column p mod 4). assert (1 <= t) by (unfold t; pose proof (Nat.mod_upper_bound (p_column p) 4); lia).
    replace (Nat.min 1 t) with 1 by lia.
    exists (if Nat.ltb 1 t then p_offset p else S (p_offset p)), (Nat.ltb 1 t). split; [|destruct (Nat.ltb 1 t); lia].
    unfold mv. cbn. rewrite Nat.add_1_r. reflexivity.
  - exists (S (p_offset p)), false. split; [reflexivity|lia].
Qed.

(** ** Finding the next non-space *)
Definition blank_char (c : N) : bool := N.eqb c SP || N.eqb c TAB.
Lemma skip_spaces_spec : forall s i cols, exists cols', skip_spaces s i cols = (i + length (take_while blank_char s), cols') /\ cols <= cols'.
Proof.
  induction s as [|c s IH]; intros i cols; cbn [skip_spaces take_while]; [exists cols; split; [rewrite Nat.add_0_r; reflexivity|lia]|].
  unfold blank_char at 1. destruct (N.eqb c SP); cbn [orb].
  - destruct (IH (S i) (S cols)) as (cols' & -> & H). exists cols'. cbn [length]. split; [f_equal; lia|lia].
  - destruct (N.eqb c TAB).
    + destruct (IH (S i) (cols + (4 - cols mod 4))) as (cols' & -> & H). exists cols'. cbn [length]. split; [f_equal; lia|lia].
    + exists cols. split; [rewrite Nat.add_0_r; reflexivity|lia].
Qed.
(** everything but the fields set by [find_next_nonspace] is kept *)
Definition sp (nn nnc ind : nat) (idd bl : bool) (x : parser) : parser :=
  P (p_stack x) (p_doc x) (p_line x) (p_line_number x) (p_offset x) (p_column x) nn nnc ind idd bl (p_pct x) (p_all_closed x) (p_matched x) (p_refmap x) (p_last_line_length x) (p_ip x) (p_smart x).
Lemma find_next_nonspace_sp p : exists nnc ind idd bl,
  find_next_nonspace p = sp (p_offset p + length (take_while blank_char (rest_offset p))) nnc ind idd bl p.
Proof.
  unfold find_next_nonspace. destruct (skip_spaces_spec (rest_offset p) (p_offset p) (p_column p)) as (cols & -> & _).
  do 4 eexists. reflexivity.
Qed.
Lemma skipn_skipn {A} a b (l : list A) : skipn a (skipn b l) = skipn (a + b) l.
Proof. revert l. induction b as [|b IH]; intros l; [rewrite Nat.add_0_r; reflexivity|]. rewrite Nat.add_succ_r. destruct l as [|x l]; [rewrite !skipn_nil; reflexivity|]. exact (IH l). Qed.
(** a visible character: not one the block parser takes for white space *)
Definition visible (c : N) : Prop := c <> SP /\ c <> TAB /\ c <> LF /\ c <> 13%N.
Definition visible_start (s : str) : Prop := exists c r, s = c :: r /\ visible c.
(** a line that is not blank has one *)
Definition sees (p : parser) : Prop :=
  p_blank p = false -> visible_start (skipn (p_next_nonspace p) (p_line p)).
Lemma find_next_nonspace_sees p : sees (find_next_nonspace p).
Proof.
  unfold sees, find_next_nonspace. destruct (skip_spaces_spec (rest_offset p) (p_offset p) (p_column p)) as (cols & -> & _).
  cbn [p_blank p_next_nonspace p_line set_p_indented set_p_indent set_p_next_nonspace_column set_p_next_nonspace set_p_blank].
  unfold peek. destruct (nth_error _ _) as [c|] eqn:E; [|discriminate]. intros H. apply orb_false_elim in H as [H1 H2].
  exists c. assert (G : exists r, skipn (p_offset p + length (take_while blank_char (rest_offset p))) (p_line p) = c :: r).
  { revert E. generalize (p_line p), (p_offset p + length (take_while blank_char (rest_offset p))). intros l i. revert l. induction i as [|i IH]; intros [|y l]; cbn; try discriminate.
    - intros H. apply Some_inj in H as ->. eauto.
    - apply IH. }
  destruct G as [r G]. exists r. split; [exact G|].
  assert (Hd : drop_while blank_char (rest_offset p) = c :: r).
  { unfold rest_offset in *. rewrite Nat.add_comm, <- skipn_skipn in G. set (l := skipn (p_offset p) (p_line p)) in *. clearbody l. clear -G. revert G. induction l as [|x l IH]; [discriminate|]. cbn [take_while drop_while]. destruct (blank_char x); cbn [length skipn]; auto. }
  apply drop_while_head in Hd. unfold blank_char in Hd. apply orb_false_elim in Hd as [H3 H4]. apply N.eqb_neq in H1, H2, H3, H4. unfold visible, SP, TAB, LF in *. auto.
Qed.
Lemma take_while_length {A} (f : A -> bool) l : length (take_while f l) <= length l.
Proof. induction l as [|x l IH]; cbn; [lia|]. destruct (f x); cbn; lia. Qed.
Lemma nonspace_le p : p_offset p <= length (p_line p) ->
  p_offset p + length (take_while blank_char (rest_offset p)) <= length (p_line p).
Proof. intros H. pose proof (take_while_length blank_char (rest_offset p)) as G. unfold rest_offset in *. rewrite skipn_length in G. lia. Qed.

(** ** Patterns *)
Lemma space_35 : is_space 35 = false. Proof. reflexivity. Qed.
Lemma drop_while_all {A} (f : A -> bool) a b : forallb f a = true -> drop_while f (a ++ b) = drop_while f b.
Proof. induction a as [|x a IH]; cbn; [reflexivity|]. intros H. apply andb_prop in H as [-> H]. auto. Qed.
Lemma strip_hashes n b : 1 <= n -> forallb is_space b = true -> strip (repeat 35%N n ++ b) = repeat 35%N n.
Proof.
  intros Hn Hb. unfold strip, strip_left, strip_right. destruct n as [|n]; [lia|]. cbn [repeat app drop_while]. rewrite space_35.
  change (35%N :: repeat 35%N n ++ b) with (repeat 35%N (S n) ++ b). rewrite rev_app_distr, drop_while_all.
  - assert (E : rev (repeat 35%N (S n)) = repeat 35%N (S n)).
    { clear. induction (S n) as [|k IH]; [reflexivity|]. cbn [repeat rev]. rewrite IH. clear. induction k as [|k IH]; [reflexivity|]. cbn [repeat app]. rewrite IH. reflexivity. }
    rewrite E. cbn [repeat drop_while]. rewrite space_35. change (35%N :: repeat 35%N n) with (repeat 35%N (S n)). exact E.
  - rewrite forallb_forall in *. intros x Hx. apply Hb, in_rev. exact Hx.
Qed.
Lemma Forall_repeat (c : N) g : Forall (fun x => x = c) g -> g = repeat c (length g).
Proof. induction 1 as [|x g -> _ IH]; [reflexivity|]. cbn. congruence. Qed.
Lemma atx_marker_shape s m : re_search reATXHeadingMarker s = Some m ->
  exists n b, 1 <= n <= 6 /\ rm_group m = repeat 35%N n ++ b /\ forallb blank_char b = true /\ rm_before m = [].
Proof.
  intros H. apply re_search_L in H as [E HL]; [|vm_compute; reflexivity].
  assert (HL' : L (RSeq RBol (RSeq (RRep true 1 (Some 6) (RChr (CS false false [CRange 35 35]))) (RAlt (RRep true 1 None (RChr (CS false false [CRange 32 32; CRange 9 9]))) REol))) (prev_of None (rm_before m)) (rm_group m) (rm_after m)) by exact HL.
  clear HL. destruct HL' as (g0 & g1 & -> & [-> Hp] & (g2 & g3 & -> & H1 & H2)).
  apply L_rep_chr in H1 as (H1 & H1' & H1'').
  assert (E2 : Forall (fun x => x = 35%N) g2) by (eapply Forall_cmatch; [|exact H1'']; intros c Hc; cm_unfold_in Hc; lia).
  apply Forall_repeat in E2. exists (length g2), g3. cbn [app]. rewrite <- E2. split; [cbn in H1'; lia|]. split; [reflexivity|]. split.
  - destruct H2 as [H2|[-> _]]; [|reflexivity]. apply L_rep_chr in H2 as (_ & _ & H2). apply forallb_forall. intros c Hc.
    rewrite Forall_forall in H2. apply H2 in Hc. cm_unfold_in Hc. unfold blank_char, SP, TAB. lia.
  - destruct (rm_before m) as [|x l]; [reflexivity|]. exfalso. destruct (prev_of_cons None x l) as [y Hy]. congruence.
Qed.
Lemma blank_is_space b : forallb blank_char b = true -> forallb is_space b = true.
Proof.
  intros H. rewrite forallb_forall in *. intros c Hc. apply H in Hc. unfold blank_char, SP, TAB in Hc.
  assert (E : c = 32%N \/ c = 9%N) by lia. destruct E as [->| ->]; reflexivity.
Qed.
Lemma atx_level s m : re_search reATXHeadingMarker s = Some m -> 1 <= length (strip (rm_group m)) <= 6.
Proof.
  intros H. apply atx_marker_shape in H as (n & b & Hn & -> & Hb & _). rewrite strip_hashes; [rewrite repeat_length; lia|lia|apply blank_is_space, Hb].
Qed.
Lemma search_nonempty r s m : good r = true -> nullable r = false -> re_search r s = Some m -> rm_group m <> [].
Proof. intros Hg Hn H. apply re_search_L in H as [_ H]; [|exact Hg]. eapply L_nonempty; eassumption. Qed.
Lemma hd_error_nonempty {A} (l : list A) : l <> [] -> exists x, hd_error l = Some x.
Proof. destruct l as [|x l]; [congruence|]. exists x. reflexivity. Qed.

Lemma bullet_shape s m : re_search reBulletListMarker s = Some m ->
  exists c, rm_group m = [c] /\ In c [42; 43; 45]%N /\ s = c :: rm_after m.
Proof.
  intros H. assert (H' : re_search (RSeq RBol (RChr (CS false false [CRange 42 42; CRange 43 43; CRange 45 45]))) s = Some m) by exact H. clear H.
  rewrite re_search_bol, match_at_chr in H'. destruct s as [|c s]; [discriminate|]. destruct (cmatch _ c) eqn:E; [|discriminate].
  apply Some_inj in H' as <-. exists c. cbn [rm_group rm_after]. split; [reflexivity|]. split; [|reflexivity]. cm_unfold_in E. cbn. lia.
Qed.
Lemma digit_value_le c d : digit_value c = Some d -> (d <= 9)%N.
Proof.
  unfold digit_value. destruct (find _ nd_starts) as [a|] eqn:E; [|discriminate]. intros H. apply Some_inj in H as <-.
  apply find_some in E as [_ E]. unfold in_range in E. lia.
Qed.
Lemma int_of_digits_bound : forall s, (int_of_digits s < 10 ^ N.of_nat (length s))%N.
Proof.
  assert (G : forall s acc k, (acc < 10 ^ N.of_nat k)%N ->
    (fold_left (fun acc c => acc * 10 + match digit_value c with Some d => d | None => 0 end) s acc < 10 ^ N.of_nat (k + length s))%N).
  { induction s as [|c s IH]; intros acc k Hk; cbn [fold_left length].
    - rewrite Nat.add_0_r. exact Hk.
    - replace (k + S (length s)) with (S k + length s) by lia. apply IH. rewrite Nat2N.inj_succ, N.pow_succ_r'.
      assert (Hd : (match digit_value c with Some d => d | None => 0 end <= 9)%N) by (destruct (digit_value c) eqn:E; [apply digit_value_le in E; exact E|lia]).
      lia. }
  intros s. apply (G s 0%N 0). cbn. lia.
Qed.
Lemma ordered_shape s m : re_search reOrderedListMarker s = Some m ->
  exists ds d, rm_group m = ds ++ [d] /\ s = ds ++ d :: rm_after m /\ 1 <= length ds <= 9 /\ Forall (fun c => is_decimal c = true) ds /\
    In d [46; 41]%N /\ rm_cap m 1 = Some ds /\ rm_cap m 2 = Some [d].
Proof.
  intros H. set (dig := CS false false [CDigit]). set (del := CS false false [CRange 46 46; CRange 41 41]).
  assert (H' : re_search (RSeq RBol (RSeq (RGrp 1 (RRep true 1 (Some 9) (RChr dig))) (RGrp 2 (RChr del)))) s = Some m) by exact H. clear H.
  rewrite re_search_bol in H'. destruct (match_at _ None s) as [[[g a] caps]|] eqn:E; [|discriminate]. apply Some_inj in H' as <-. cbn [rm_group rm_after].
  apply match_at_spec in E as (Es & st & Hst & Ha & Hc & Hea).
  assert (Hin : In st (results (RSeq (RGrp 1 (RRep true 1 (Some 9) (RChr dig))) (RGrp 2 (RChr del))) (MS None s []))).
  { destruct (results _ _); [discriminate|]. injection Hst as ->. left. reflexivity. }
  cbn [results] in Hin. change (flat_map (fun st' => upto_res (results (RChr dig)) true (Nat.min (9 - 1) (length (ms_rest st'))) st') (times_res (results (RChr dig)) 1 (MS None s []))) with (results (RRep true 1 (Some 9) (RChr dig)) (MS None s [])) in Hin.
  apply in_flat_map in Hin as (x & Hx & Hin). apply in_map_iff in Hx as (y & <- & Hy). cbn [ms_prev ms_rest ms_caps] in Hin.
  apply in_map_iff in Hin as (z & <- & Hz). cbn [ms_rest ms_caps] in *.
  assert (Hcap : ms_caps y = []).
  { clear -Hy. assert (Ht : forall n st x, In x (times_res (results (RChr dig)) n st) -> ms_caps x = ms_caps st).
    { induction n as [|n IH]; cbn [times_res]; intros st x Hx; [destruct Hx as [<-|[]]; reflexivity|].
      apply in_flat_map in Hx as (w & Hw & Hx). apply IH in Hx. rewrite Hx. cbn [results] in Hw. destruct (ms_rest st); [destruct Hw|]. destruct (cmatch dig n0); [|destruct Hw]. destruct Hw as [<-|[]]. reflexivity. }
    assert (Hu : forall n st x, In x (upto_res (results (RChr dig)) true n st) -> ms_caps x = ms_caps st).
    { induction n as [|n IH]; cbn [upto_res]; intros st x Hx; [destruct Hx as [<-|[]]; reflexivity|].
      apply in_app_or in Hx as [Hx|[<-|[]]]; [|reflexivity]. apply in_flat_map in Hx as (w & Hw & Hx). destruct (shorter w st); [|destruct Hx]. apply IH in Hx. rewrite Hx.
      cbn [results] in Hw. destruct (ms_rest st); [destruct Hw|]. destruct (cmatch dig n0); [|destruct Hw]. destruct Hw as [<-|[]]. reflexivity. }
    cbn [results] in Hy. apply in_flat_map in Hy as (w & Hw & Hy). apply Hu in Hy. apply Ht in Hw. rewrite Hy, Hw. reflexivity. }
  apply (proj1 (results_L (RRep true 1 (Some 9) (RChr dig)) eq_refl)) in Hy as (ds & [R1 _] & H1). cbn [ms_rest ms_prev] in R1, H1. apply L_rep_chr in H1 as (H1 & H1' & H1'').
  destruct (ms_rest y) as [|c r] eqn:Ey; [destruct Hz|]. destruct (cmatch del c) eqn:Ec; [|destruct Hz]. destruct Hz as [<-|[]]. cbn [ms_rest ms_caps] in *. subst a.
  assert (Eg : g = ds ++ [c]). { rewrite Es in R1. change (c :: r) with ([c] ++ r) in R1. rewrite app_assoc in R1. apply app_inv_tail in R1. exact R1. }
  exists ds, c. split; [exact Eg|]. split; [exact R1|]. split; [cbn in H1'; lia|]. split.
  { eapply Forall_cmatch; [|exact H1'']. intros x Hx. unfold dig in Hx. cm_unfold_in Hx. rewrite orb_false_r in Hx. exact Hx. }
  split; [unfold del in Ec; cm_unfold_in Ec; cbn; lia|]. subst caps. rewrite Hcap. unfold rm_cap. cbn [rm_caps find fst snd Nat.eqb].
  split.
  - rewrite R1. do 2 f_equal. apply firstn_sub.
  - do 2 f_equal. change (c :: r) with ([c] ++ r). apply firstn_sub.
Qed.

(** ** Parts and joins *)
Definition amp (s : str) : Prop := infix [38; 35]%N s.
(** words: no space and no line feed in them *)
Definition word (w : str) : Prop := w <> [] /\ ~ In SP w /\ ~ In LF w.
Lemma word_amp : word [38; 35]%N.
Proof. split; [discriminate|]. unfold SP, LF. cbn. split; intuition discriminate. Qed.
Lemma word_app w x y : w <> [] -> infix w (x ++ y) -> infix w x \/ infix w y \/ exists a b, last_opt x = Some a /\ hd_error y = Some b /\ In a w /\ In b w.
Proof.
  intros Hw (p & q & E). rewrite app_assoc in E. destruct (app_eq_app _ _ _ _ E) as (l & [[E1 E2]|[E1 E2]]).
  - left. exists p, l. rewrite app_assoc. exact E1.
  - destruct (app_eq_app _ _ _ _ E1) as (l2 & [[E3 E4]|[E3 E4]]).
    + subst p. right. left. rewrite E2. exists l2, q. rewrite E4, app_assoc. reflexivity.
    + destruct l2 as [|a l2 _] using rev_ind.
      * rewrite app_nil_r in E3. cbn [app] in E4. subst. right. left. exists [], q. reflexivity.
      * destruct l as [|b l]; [left; exists p, []; rewrite app_nil_r in *; rewrite E3, E4; rewrite ?app_nil_r; reflexivity|].
        right. right. exists a, b. rewrite E3, E2. split; [rewrite app_assoc, last_opt_app; reflexivity|]. split; [reflexivity|].
        rewrite E4. split; apply in_or_app; [left; apply in_or_app; right|right]; left; reflexivity.
Qed.
Lemma word_nil w : w <> [] -> ~ infix w [].
Proof. intros Hw (p & q & E). symmetry in E. apply app_eq_nil in E as [_ E]. apply app_eq_nil in E as [E _]. congruence. Qed.
Lemma word_in w s : (exists a, In a w /\ ~ In a s) -> ~ infix w s.
Proof. intros (a & H1 & H2) H. apply H2. eapply infix_In; eassumption. Qed.
Lemma word_one w a : w <> [] -> ~ In a w -> ~ infix w [a].
Proof. intros Hw Ha. apply word_in. destruct w as [|x w]; [congruence|]. exists x. split; [left; reflexivity|]. intros [<-|[]]. apply Ha. left. reflexivity. Qed.
Lemma word_spaces w n : w <> [] -> ~ In SP w -> ~ infix w (repeat SP n).
Proof. intros Hw Ha. apply word_in. destruct w as [|x w]; [congruence|]. exists x. split; [left; reflexivity|]. intros H. apply repeat_spec in H as ->. apply Ha. left. reflexivity. Qed.
Lemma repeat_last {A} (c : A) n : last_opt (repeat c n) = match n with 0 => None | _ => Some c end.
Proof. induction n as [|n IH]; [reflexivity|]. cbn [repeat]. rewrite last_opt_cons, IH. destruct n; reflexivity. Qed.
Lemma word_line w sc n rest : word w -> (sc = [] \/ last_opt sc = Some LF) -> infix w (sc ++ repeat SP n ++ rest ++ [LF]) -> infix w sc \/ infix w rest.
Proof.
  intros (W1 & W2 & W3) Hsc H. apply word_app in H as [H|[H|(a & b & H1 & H2 & H3 & H4)]]; [left; exact H| | |exact W1].
  - right. apply word_app in H as [H|[H|(a & b & H1 & H2 & H3 & H4)]]; [| | |exact W1].
    + destruct (word_spaces _ _ W1 W2 H).
    + apply word_app in H as [H|[H|(a & b & _ & H2 & _ & H4)]]; [exact H|destruct (word_one _ _ W1 W3 H)|injection H2 as <-; contradiction|exact W1].
    + rewrite repeat_last in H1. destruct n; [discriminate|]. injection H1 as <-. contradiction.
  - destruct Hsc as [->|E]; [discriminate|]. rewrite E in H1. injection H1 as <-. contradiction.
Qed.
Lemma amp_replace s : amp (replace_char 0 65533 s) -> amp s.
Proof.
  unfold replace_char. intros (p & q & E). apply map_eq_app in E as (p' & s1 & -> & _ & E). destruct s1 as [|a [|b s1]]; try discriminate.
  cbn [map app] in E. injection E as Ea Eb _. exists p', s1.
  destruct (N.eqb a 0); [discriminate|]. destruct (N.eqb b 0); [discriminate|]. subst. reflexivity.
Qed.

(** removing something at the end of the line *)
Fixpoint ends_eol (r : regex) : bool :=
  match r with
  | RSeq _ b => ends_eol b
  | RAlt a b => ends_eol a && ends_eol b
  | REol => true
  | _ => false
  end.
Lemma ends_eol_L r : ends_eol r = true -> forall p g q, L r p g q -> q = [] \/ q = [LF].
Proof.
  induction r as [|cs|a IHa b IHb|a IHa b IHb|g mn mx a IHa|n a IHa| | | |neg a IHa]; cbn [ends_eol]; intros He p g0 q; try discriminate; cbn [L].
  - intros (g1 & g2 & _ & _ & H). eapply IHb; eassumption.
  - apply andb_prop in He as [H1 H2]. intros [H|H]; eauto.
  - intros [_ H]. exact H.
Qed.
Lemma sub_nil r : forall n prev, sub_loop n r (fun _ => []) prev [] = [].
Proof.
  induction n as [|n IH]; intros prev; cbn [sub_loop]; [reflexivity|].
  destruct (match_at r prev []) as [[[g a] caps]|] eqn:E; [|reflexivity]. cbn [app].
  apply match_at_spec in E as (E & _). symmetry in E. apply app_eq_nil in E as [-> ->]. reflexivity.
Qed.
Lemma sub_one r : forall n prev, sub_loop n r (fun _ => []) prev [LF] = [] \/ sub_loop n r (fun _ => []) prev [LF] = [LF].
Proof.
  intros [|n] prev; cbn [sub_loop]; [auto|].
  destruct (match_at r prev [LF]) as [[[g a] caps]|] eqn:E; [|rewrite sub_nil; auto]. cbn [app].
  destruct g as [|c g]; cbn [is_nil]; [rewrite sub_nil; auto|].
  apply match_at_spec in E as (E & _). injection E as _ E. symmetry in E. apply app_eq_nil in E as [-> ->]. rewrite sub_nil. auto.
Qed.
Lemma sub_eol r : good r = true -> ends_eol r = true -> forall n prev s, exists x post, s = x ++ post /\
  (sub_loop n r (fun _ => []) prev s = x \/ sub_loop n r (fun _ => []) prev s = x ++ [LF]).
Proof.
  intros Hg He. induction n as [|n IH]; intros prev s; cbn [sub_loop]; [exists [], s; auto|].
  assert (Hnone : exists x post, s = x ++ post /\
     (match s with [] => [] | c :: s' => c :: sub_loop n r (fun _ => []) (Some c) s' end = x
      \/ match s with [] => [] | c :: s' => c :: sub_loop n r (fun _ => []) (Some c) s' end = x ++ [LF])).
  { destruct s as [|c s]; [exists [], []; auto|]. destruct (IH (Some c) s) as (x & post & -> & H). exists (c :: x), post. split; [reflexivity|].
    destruct H as [->| ->]; auto. }
  destruct (match_at r prev s) as [[[g a] caps]|] eqn:E; [|exact Hnone].
  cbn [app]. destruct g as [|c g]; cbn [is_nil]; [exact Hnone|].
  apply match_at_L in E as [-> E]; [|exact Hg]. apply (ends_eol_L r He) in E. exists [], ((c :: g) ++ a). split; [reflexivity|].
  destruct E as [->| ->]; [rewrite sub_nil; auto|]. cbn [app]. apply sub_one.
Qed.
Lemma word_sub_eol w r s : word w -> good r = true -> ends_eol r = true -> infix w (re_sub r (fun _ => []) s) -> infix w s.
Proof.
  intros (W1 & W2 & W3) Hg He H. destruct (sub_eol r Hg He (S (length s)) None s) as (x & post & E & Hx). unfold re_sub in H. rewrite E.
  assert (G : infix w x).
  { destruct Hx as [Hx|Hx]; rewrite Hx in H; [exact H|]. apply word_app in H as [H|[H|(a & b & _ & H & _ & H4)]]; [exact H|destruct (word_one _ _ W1 W3 H)|injection H as <-; contradiction|exact W1]. }
  eapply infix_trans; [exact G|apply infix_app_l].
Qed.
Lemma word_atx w s : word w -> infix w (atx_content s) -> infix w s.
Proof.
  intros Hw H. unfold atx_content in H. apply word_sub_eol in H; [|exact Hw|vm_compute; reflexivity|vm_compute; reflexivity].
  apply word_sub_eol in H; [exact H|exact Hw|vm_compute; reflexivity|vm_compute; reflexivity].
Qed.
