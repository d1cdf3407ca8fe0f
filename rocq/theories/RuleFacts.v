(** * The patterns of block starts: rules, headings, fences *)
From Verif Require Import Base Regex Common NormRef Node Inlines Blocks Main RegexFacts StrFacts Spec SpecTree SpecLines StrProp DocFacts.
From Verif Require RegexLang TextFacts.
From Coq Require Import ZifyBool ZifyNat ZifyN.

Definition cs1 (c : N) : cset := CS false false [CRange c c].
Definition blank_cs : cset := CS false false [CRange 32 32; CRange 9 9].
Lemma cs1_spec c x : cmatch (cs1 c) x = N.eqb x c.
Proof. unfold cs1. cm_unfold. lia. Qed.
Lemma blank_cs_spec x : cmatch blank_cs x = true <-> x = 32%N \/ x = 9%N.
Proof. unfold blank_cs. cm_unfold. lia. Qed.
Lemma run_repeat c g : Forall (fun x => cmatch (cs1 c) x = true) g <-> g = repeat c (length g).
Proof.
  split; [|intros ->; apply Forall_forall; intros x H; apply repeat_spec in H as ->; rewrite cs1_spec; apply N.eqb_refl].
  induction 1 as [|x g H _ IH]; [reflexivity|]. rewrite cs1_spec in H. apply N.eqb_eq in H as ->. cbn [length repeat]. f_equal. exact IH.
Qed.
Lemma blanks_cs g : Forall (fun x => cmatch blank_cs x = true) g <-> blanks g.
Proof. unfold blanks. rewrite !Forall_forall. split; intros H x Hx; apply blank_cs_spec; apply H; exact Hx. Qed.
Lemma L_run gr mn c p g q : RegexLang.L (RRep gr mn None (RChr (cs1 c))) p g q <-> mn <= length g /\ g = repeat c (length g).
Proof. rewrite RegexLang.L_rep_chr, run_repeat. intuition. Qed.
Lemma L_blanks gr mn p g q : RegexLang.L (RRep gr mn None (RChr blank_cs)) p g q <-> mn <= length g /\ blanks g.
Proof. rewrite RegexLang.L_rep_chr, blanks_cs. intuition. Qed.
Lemma prev_of_none p : prev_of None p = None -> p = [].
Proof. destruct p as [|c p]; [reflexivity|]. destruct (prev_of_cons None c p) as [x ->]. discriminate. Qed.
Lemma no_lf_end (l q g : str) : ~ In 10%N l -> l = g ++ q -> q = [] \/ q = [LF] -> q = [].
Proof. intros H -> [E|E]; [exact E|]. subst q. exfalso. apply H. apply in_or_app. right. left. reflexivity. Qed.
Lemma no_eol_lf l : no_eol l -> ~ In 10%N l.
Proof. intros H Hin. destruct (H _ Hin) as [X _]. congruence. Qed.
(** an anchored pattern that ends with the end of the line *)
Lemma test_line r l : RegexLang.good r = true -> (re_test (RSeq RBol r) l = true <-> exists g q, l = g ++ q /\ RegexLang.L r None g q).
Proof.
  intros Hg. rewrite RegexLang.re_test_L by exact Hg. split.
  - intros (p & g & q & -> & H). cbn [RegexLang.L] in H. destruct H as (g1 & g2 & -> & [-> Hp] & H). apply prev_of_none in Hp as ->. exists g2, q. split; [reflexivity|exact H].
  - intros (g & q & -> & H). exists [], g, q. split; [reflexivity|]. exists [], g. split; [reflexivity|]. split; [split; reflexivity|exact H].
Qed.

(** ** Thematic breaks: C37 *)
Definition rule_unit (c : N) : regex := RSeq (RChr (cs1 c)) (RRep true 0 None (RChr blank_cs)).
Lemma reThematicBreak_shape : reThematicBreak =
  RSeq RBol (RSeq (RAlt (RRep true 3 None (rule_unit 42)) (RAlt (RRep true 3 None (rule_unit 95)) (RRep true 3 None (rule_unit 45)))) (RSeq (RRep true 0 None (RChr blank_cs)) REol)).
Proof. vm_compute. reflexivity. Qed.
Definition rule_chars (c : N) (l : str) : Prop := Forall (fun x => x = c \/ x = 32%N \/ x = 9%N) l.
Lemma count_app c a b : count_char c (a ++ b) = count_char c a + count_char c b.
Proof. unfold count_char. rewrite filter_app, app_length. reflexivity. Qed.
Lemma count_blanks c w : c <> 32%N -> c <> 9%N -> blanks w -> count_char c w = 0.
Proof. intros H1 H2. induction 1 as [|x w H _ IH]; [reflexivity|]. unfold count_char in *. cbn [filter]. rewrite (proj2 (N.eqb_neq c x)) by (destruct H; congruence). exact IH. Qed.
Lemma rule_units c : c <> 32%N -> c <> 9%N -> forall n p g q,
  RegexLang.Lrep (RegexLang.L (rule_unit c)) n p g q <-> rule_chars c g /\ count_char c g = n /\ match g with [] => True | x :: _ => x = c end.
Proof.
  intros H1 H2. induction n as [|n IH]; intros p g q; cbn [RegexLang.Lrep].
  - split; [intros ->; split; [constructor|split; reflexivity || exact I]|]. intros (A & B & C). destruct g as [|x g]; [reflexivity|]. subst x. unfold count_char in B. cbn [filter] in B. rewrite N.eqb_refl in B. discriminate.
  - split.
    + intros (g1 & g2 & -> & HL & H). apply IH in H as (A & B & C). cbn [RegexLang.L rule_unit] in HL. destruct HL as (h1 & w & -> & (x & -> & Hx) & HL). rewrite cs1_spec in Hx. apply N.eqb_eq in Hx as ->.
      apply (L_blanks true 0) in HL as [_ HL]. split; [|split; [|reflexivity]].
      * constructor; [left; reflexivity|]. apply Forall_app. split; [|exact A]. revert HL. apply Forall_impl. intros y Hy. right. exact Hy.
      * change (([c] ++ w) ++ g2) with ([c] ++ w ++ g2). rewrite !count_app, (count_blanks c w H1 H2 HL), B. unfold count_char. cbn [filter]. rewrite N.eqb_refl. reflexivity.
    + intros (A & B & C). destruct g as [|x g]; [discriminate B|]. subst x. inversion A as [|? ? _ A']. subst.
      set (w := take_while (cmatch blank_cs) g). set (g2 := drop_while (cmatch blank_cs) g). assert (E : g = w ++ g2) by (symmetry; apply take_drop_while).
      assert (Hw : blanks w) by (apply blanks_cs; apply Forall_forall; apply forallb_forall; apply take_while_all).
      exists (c :: w), g2. split; [cbn [app]; f_equal; exact E|]. split.
      * exists [c], w. split; [reflexivity|]. split; [exists c; split; [reflexivity|rewrite cs1_spec; apply N.eqb_refl]|]. apply (L_blanks true 0). split; [lia|exact Hw].
      * apply IH. rewrite E in A', B. apply Forall_app in A' as [_ A2]. split; [exact A2|]. split.
        -- change (c :: w ++ g2) with ([c] ++ w ++ g2) in B. rewrite !count_app, (count_blanks c w H1 H2 Hw) in B. unfold count_char in B at 1. cbn [filter] in B. rewrite N.eqb_refl in B. cbn [length] in B. lia.
        -- destruct g2 as [|y g2'] eqn:Eg; [exact I|]. apply drop_while_head in Eg. apply Forall_inv in A2 as Hy. destruct Hy as [Hy|Hy]; [exact Hy|]. apply blank_cs_spec in Hy. congruence.
Qed.
Theorem thematic_iff l : ~ In 10%N l -> re_test reThematicBreak l = true <-> rule_line l.
Proof.
  intros Hl. rewrite reThematicBreak_shape, test_line by reflexivity. cbn [RegexLang.L].
  assert (X : forall c p g1 g2 q, (c = 42 \/ c = 95 \/ c = 45)%N -> RegexLang.L (RRep true 3 None (rule_unit c)) p g1 (g2 ++ q) -> blanks g2 -> l = g1 ++ g2 -> rule_line l).
  { intros c p g1 g2 q Hc (n & Hn & _ & H) Hb E. assert (H1 : c <> 32%N) by lia. assert (H2 : c <> 9%N) by lia. apply (rule_units c H1 H2) in H as (A & B & C). exists c. split; [cbn; destruct Hc as [->|[->| ->]]; tauto|].
    rewrite E. split; [|split].
    - destruct g1 as [|x g1]; [unfold count_char in B; cbn in B; lia|]. subst x. reflexivity.
    - rewrite count_app, B. lia.
    - apply Forall_app. split; [exact A|]. revert Hb. apply Forall_impl. intros y Hy. right. exact Hy. }
  split.
  - intros (g & q & E & (g1 & g2 & -> & Ha & (w & g3 & -> & Hw & -> & Hq))). apply (no_lf_end l q _ Hl E) in Hq as ->. rewrite !app_nil_r in E. apply (L_blanks true 0) in Hw as [_ Hw]. rewrite app_nil_r in Ha.
    destruct Ha as [Ha|[Ha|Ha]]; (eapply X; [| |exact Hw|exact E]; [|exact Ha]); lia.
  - intros (c & Hc & Hh & Hn & Hf). exists l, []. split; [rewrite app_nil_r; reflexivity|]. exists l, []. split; [rewrite app_nil_r; reflexivity|]. split; [|exists [], []; split; [reflexivity|]; split; [apply (L_blanks true 0); split; [cbn; lia|constructor]|split; [reflexivity|left; reflexivity]]].
    assert (Hc' : (c = 42 \/ c = 95 \/ c = 45)%N) by (cbn in Hc; intuition). assert (H1 : c <> 32%N) by lia. assert (H2 : c <> 9%N) by lia.
    assert (Y : forall p q, RegexLang.L (RRep true 3 None (rule_unit c)) p l q).
    { intros p q. exists (count_char c l). split; [exact Hn|]. split; [exact I|]. apply (rule_units c H1 H2). split; [exact Hf|]. split; [reflexivity|]. destruct l; [exact I|]. injection Hh as ->. reflexivity. }
    destruct Hc' as [->|[->| ->]]; [left; apply Y|right; left; apply Y|right; right; apply Y].
Qed.

(** ** Substitution at the end of a string *)
Lemma sub_loop_tail r f : RegexLang.nullable r = false -> RegexLang.good r = true -> forall a prev fu g caps, length (a ++ g) < fu ->
  (forall p x q, a = p ++ x :: q -> match_at r (prev_of prev p) (x :: q ++ g) = None) -> g <> [] -> match_at r (prev_of prev a) g = Some (g, [], caps) ->
  sub_loop fu r f prev (a ++ g) = a ++ f (RM [] g [] caps).
Proof.
  intros Hn Hg. induction a as [|c a IH]; intros prev fu g caps Hf H Hne Hm; (destruct fu as [|fu]; [lia|]); cbn [app sub_loop].
  - change (prev_of prev []) with prev in Hm. rewrite Hm. destruct g as [|x g]; [congruence|]. cbn [is_nil]. destruct fu as [|fu]; [cbn [app length] in Hf; lia|]. cbn [sub_loop].
    assert (E : match_at r (last_opt (x :: g)) [] = None). { apply RegexLang.match_at_none_L; [exact Hg|]. intros y q E HL. symmetry in E. apply app_eq_nil in E as [-> ->]. destruct (RegexLang.L_nonempty r Hn _ _ _ HL eq_refl). }
    rewrite E, app_nil_r. reflexivity.
  - rewrite (H [] c a eq_refl : match_at r prev (c :: a ++ g) = None). f_equal.
    assert (Ep : forall p, prev_of prev (c :: p) = prev_of (Some c) p) by (intros p; change (c :: p) with ([c] ++ p); apply prev_of_app).
    apply (IH (Some c) fu g caps); [cbn [app length] in Hf; lia| |exact Hne|rewrite <- Ep; exact Hm]. intros p x q ->. rewrite <- Ep. apply (H (c :: p) x q eq_refl).
Qed.
Lemma re_sub_tail r f a g caps : RegexLang.nullable r = false -> RegexLang.good r = true ->
  (forall p x q, a = p ++ x :: q -> match_at r (prev_of None p) (x :: q ++ g) = None) -> g <> [] -> match_at r (prev_of None a) g = Some (g, [], caps) ->
  re_sub r f (a ++ g) = a ++ f (RM [] g [] caps).
Proof. intros. apply sub_loop_tail; auto. Qed.

(** ** ATX headings: C38 *)
Definition hashes_end : regex := RSeq (RRep true 1 None (RChr (cs1 35))) (RSeq (RRep true 0 None (RChr blank_cs)) REol).
Lemma reAtxOnlyHashes_shape : reAtxOnlyHashes = RSeq RBol (RSeq (RRep true 0 None (RChr blank_cs)) hashes_end).
Proof. vm_compute. reflexivity. Qed.
Lemma reAtxTrailing_shape : reAtxTrailing = RSeq (RRep true 1 None (RChr blank_cs)) hashes_end.
Proof. vm_compute. reflexivity. Qed.
Lemma L_hashes p g q : RegexLang.L hashes_end p g q <-> exists n w, g = repeat 35%N (S n) ++ w /\ blanks w /\ (q = [] \/ q = [LF]).
Proof.
  unfold hashes_end. cbn [RegexLang.L]. split.
  - intros (g1 & g2 & -> & H1 & (w & g3 & -> & Hw & -> & Hq)). apply (L_run true 1) in H1 as [H1 H2]. apply (L_blanks true 0) in Hw as [_ Hw]. rewrite app_nil_r. exists (length g1 - 1), w. split; [|auto]. f_equal. rewrite H2 at 1. f_equal. lia.
  - intros (n & w & -> & Hw & Hq). exists (repeat 35%N (S n)), w. split; [reflexivity|]. split; [apply (L_run true 1); rewrite repeat_length; split; [lia|reflexivity]|].
    exists w, []. rewrite app_nil_r. split; [reflexivity|]. split; [apply (L_blanks true 0); split; [lia|exact Hw]|split; [reflexivity|exact Hq]].
Qed.
Lemma L_closing mn p g q : RegexLang.L (RSeq (RRep true mn None (RChr blank_cs)) hashes_end) p g q <->
  exists w n w', g = w ++ repeat 35%N (S n) ++ w' /\ mn <= length w /\ blanks w /\ blanks w' /\ (q = [] \/ q = [LF]).
Proof.
  change (RegexLang.L (RSeq (RRep true mn None (RChr blank_cs)) hashes_end) p g q) with (exists g1 g2, g = g1 ++ g2 /\ RegexLang.L (RRep true mn None (RChr blank_cs)) p g1 (g2 ++ q) /\ RegexLang.L hashes_end (prev_of p g1) g2 q). split.
  - intros (w & g2 & -> & H1 & H2). apply L_blanks in H1 as [H1 H1']. apply L_hashes in H2 as (n & w' & -> & H2 & H3). exists w, n, w'. auto 10.
  - intros (w & n & w' & -> & H1 & H2 & H3 & H4). exists w, (repeat 35%N (S n) ++ w'). split; [reflexivity|]. split; [apply L_blanks; auto|]. apply L_hashes. eauto.
Qed.
(** a pattern ending with [$] on a text without line feeds takes all *)
Lemma match_at_all r prev s : RegexLang.good r = true -> ~ In 10%N s -> (forall p g q, RegexLang.L r p g q -> q = [] \/ q = [LF]) -> RegexLang.L r prev s [] -> exists caps, match_at r prev s = Some (s, [], caps).
Proof.
  intros Hg Hs HL H. destruct (RegexLang.match_at_exists r prev s [] Hg H) as [[[g a] caps] E]. rewrite app_nil_r in E. destruct (RegexLang.match_at_L _ _ _ _ _ _ Hg E) as [Es H']. apply HL in H'.
  apply (no_lf_end s a g Hs Es) in H' as ->. rewrite app_nil_r in Es. subst g. eauto.
Qed.
Lemma only_hashes s : ~ In 10%N s -> (closing_sequence s -> re_sub reAtxOnlyHashes (fun _ => []) s = []) /\ (~ closing_sequence s -> re_sub reAtxOnlyHashes (fun _ => []) s = s).
Proof.
  intros Hs. rewrite reAtxOnlyHashes_shape. set (r := RSeq (RRep true 0 None (RChr blank_cs)) hashes_end).
  assert (HL : forall p g q, RegexLang.L (RSeq RBol r) p g q -> q = [] \/ q = [LF]) by (intros p g q (g1 & g2 & -> & _ & H); apply L_closing in H as (? & ? & ? & _ & _ & _ & _ & H); exact H).
  split.
  - intros (w & n & w' & E & H1 & H2). assert (Hne : s <> []) by (rewrite E; destruct w; discriminate).
    destruct (match_at_all (RSeq RBol r) None s eq_refl Hs HL) as [caps Em].
    { exists [], s. split; [reflexivity|]. split; [split; reflexivity|]. apply L_closing. exists w, n, w'. repeat split; auto. lia. }
    apply (re_sub_tail (RSeq RBol r) (fun _ => []) [] s caps eq_refl eq_refl); [|exact Hne|exact Em]. intros p x q E'. destruct p; discriminate E'.
  - intros Hno. apply TextFacts.re_sub_none. rewrite re_search_bol. destruct (match_at r None s) as [[[g a] caps]|] eqn:Em; [|reflexivity]. exfalso. apply Hno.
    apply RegexLang.match_at_L in Em as [E H]; [|reflexivity]. apply L_closing in H as (w & n & w' & -> & _ & Hw & Hw' & Hq). apply (no_lf_end s a _ Hs E) in Hq as ->. rewrite app_nil_r in E. exists w, n, w'. auto.
Qed.
Lemma last_opt_split {A} (l : list A) x : last_opt l = Some x -> exists l', l = l' ++ [x].
Proof. destruct l as [|y l] using rev_ind; [discriminate|]. rewrite last_opt_app. cbn [last_opt]. intros E. injection E as ->. eauto. Qed.
Lemma split_blank_suffix (s : str) : exists b w, s = b ++ w /\ blanks w /\ forall x, last_opt b = Some x -> x <> 32%N /\ x <> 9%N.
Proof.
  induction s as [|c s IH] using rev_ind; [exists [], []; split; [reflexivity|]; split; [constructor|discriminate]|].
  destruct IH as (b & w & -> & Hw & Hb). destruct (cmatch blank_cs c) eqn:E.
  - apply blank_cs_spec in E. exists b, (w ++ [c]). split; [rewrite app_assoc; reflexivity|]. split; [apply Forall_app; split; [exact Hw|constructor; [exact E|constructor]]|exact Hb].
  - exists ((b ++ w) ++ [c]), []. split; [rewrite app_nil_r; reflexivity|]. split; [constructor|]. intros x. rewrite last_opt_app. cbn [last_opt]. intros X. injection X as <-. split; intros ->; discriminate E.
Qed.
Lemma repeat_snoc {A} (x : A) n : repeat x n ++ [x] = repeat x (S n).
Proof. rewrite <- repeat_cons. reflexivity. Qed.
Lemma rev_repeat {A} (x : A) n : rev (repeat x n) = repeat x n.
Proof. induction n as [|n IH]; [reflexivity|]. cbn [repeat rev]. rewrite IH. apply repeat_snoc. Qed.
(** The number signs at the end are found at one place only *)
Lemma hashes_unique b w n w' p v m v' : b ++ w ++ repeat 35%N (S n) ++ w' = p ++ v ++ repeat 35%N (S m) ++ v' -> blanks w -> blanks w' -> blanks v -> blanks v' -> w <> [] -> v <> [] ->
  (forall x, last_opt b = Some x -> x <> 32%N /\ x <> 9%N) -> exists v0, p = b ++ v0 /\ w = v0 ++ v.
Proof.
  intros E Hw Hw' Hv Hv' Hne Hnv Hb. 
  assert (Hr : rev w' ++ repeat 35%N (S n) ++ rev w ++ rev b = rev v' ++ repeat 35%N (S m) ++ rev v ++ rev p).
  { apply (f_equal (@rev N)) in E. rewrite !rev_app_distr, !rev_repeat in E. rewrite <- !app_assoc in E. exact E. }
  assert (Step : forall x y (A B : str) k l, blanks x -> blanks y -> x ++ repeat 35%N (S k) ++ A = y ++ repeat 35%N (S l) ++ B -> repeat 35%N (S k) ++ A = repeat 35%N (S l) ++ B).
  { induction x as [|c x IH]; intros y A B k l Hx Hy H.
    - destruct y as [|d y]; [exact H|]. cbn [app repeat] in H. injection H as <- _. inversion Hy as [|? ? X _]. destruct X; discriminate.
    - destruct y as [|d y]; [cbn [app repeat] in H; injection H as -> _; inversion Hx as [|? ? X _]; destruct X; discriminate|]. cbn [app] in H. injection H as _ H. inversion Hx; inversion Hy; subst. eapply IH; eauto. }
  assert (Hrb : forall x, blanks x -> blanks (rev x)) by (intros x; apply Forall_rev).
  apply Step in Hr; auto.
  assert (Step2 : forall k l (A B : str), hd_error A <> Some 35%N -> hd_error B <> Some 35%N -> repeat 35%N k ++ A = repeat 35%N l ++ B -> A = B).
  { induction k as [|k IH]; intros [|l] A B HA HB H; cbn [repeat app] in H; try (subst; cbn in *; congruence). injection H as H. eapply IH; eauto. }
  assert (Hhd : forall x y : str, x <> [] -> blanks x -> hd_error (rev x ++ y) <> Some 35%N).
  { intros x y Hx1 Hx2. destruct (rev x) as [|c r] eqn:Er; [apply (f_equal (@rev N)) in Er; rewrite rev_involutive in Er; contradiction|]. apply Hrb in Hx2. rewrite Er in Hx2. inversion Hx2 as [|? ? X _]. cbn. destruct X; subst; congruence. }
  apply Step2 in Hr; [|apply Hhd; auto|apply Hhd; auto].
  apply (f_equal (@rev N)) in Hr. rewrite !rev_app_distr, !rev_involutive in Hr.
  (* b ++ w = p ++ v *)
  clear -Hr Hv Hb. revert p Hr Hb. induction b as [|c b IH]; intros p Hr Hb; [exists p; auto|]. cbn [app] in Hr. destruct p as [|d p].
  - exfalso. cbn [app] in Hr. assert (Hl : exists x, last_opt (c :: b) = Some x /\ In x v). { destruct (last_opt (c :: b)) as [x|] eqn:El; [|rewrite last_opt_cons in El; destruct (last_opt b); discriminate]. exists x. split; [reflexivity|]. apply last_opt_split in El as [l El]. rewrite <- Hr. change (c :: b ++ w) with ((c :: b) ++ w). rewrite El. apply in_or_app. left. apply in_or_app. right. left. reflexivity. }
    destruct Hl as (x & Hx & Hin). destruct (Hb x Hx). unfold blanks in Hv. rewrite Forall_forall in Hv. destruct (Hv x Hin); congruence.
  - injection Hr as <- Hr. destruct (IH p Hr) as (v0 & -> & ->); [|exists v0; auto]. intros x Hx. apply Hb. rewrite last_opt_cons, Hx. reflexivity.
Qed.
Theorem atx_content_spec s : ~ In 10%N s -> heading_text s (atx_content s).
Proof.
  intros Hs. unfold atx_content. destruct (only_hashes s Hs) as [H1 H2].
  assert (D : closing_sequence s \/ ~ closing_sequence s).
  { destruct (re_test reAtxOnlyHashes s) eqn:E.
    - left. rewrite reAtxOnlyHashes_shape in E. apply test_line in E; [|reflexivity]. destruct E as (g & q & E & H). apply L_closing in H as (w & n & w' & -> & _ & Hw & Hw' & Hq). apply (no_lf_end s q _ Hs E) in Hq as ->. rewrite app_nil_r in E. exists w, n, w'. auto.
    - right. intros (w & n & w' & -> & Hw & Hw'). assert (X : re_test reAtxOnlyHashes (w ++ repeat 35%N (S n) ++ w') = true); [|congruence]. rewrite reAtxOnlyHashes_shape. apply test_line; [reflexivity|]. exists (w ++ repeat 35%N (S n) ++ w'), []. split; [rewrite app_nil_r; reflexivity|]. apply L_closing. exists w, n, w'. repeat split; auto. lia. }
  destruct D as [D|D]; [left; rewrite (H1 D); split; [exact D|reflexivity]|]. rewrite (H2 D). right.
  set (r := RSeq (RRep true 1 None (RChr blank_cs)) hashes_end). rewrite reAtxTrailing_shape. fold r.
  assert (HL : forall p g q, RegexLang.L r p g q -> q = [] \/ q = [LF]) by (intros p g q H; apply L_closing in H as (? & ? & ? & _ & _ & _ & _ & H); exact H).
  assert (T : (exists b w n w', s = b ++ w ++ repeat 35%N (S n) ++ w' /\ blanks w /\ blanks w' /\ w <> [] /\ forall x, last_opt b = Some x -> x <> 32%N /\ x <> 9%N) \/ re_search r s = None).
  { destruct (re_search r s) as [m|] eqn:Em; [left|right; reflexivity]. apply RegexLang.re_search_L in Em as [E H]; [|reflexivity]. apply L_closing in H as (w & n & w' & Eg & Hl & Hw & Hw' & Hq).
    apply (no_lf_end s (rm_after m) (rm_before m ++ rm_group m) Hs) in Hq; [|rewrite <- app_assoc; exact E]. rewrite Hq, app_nil_r, Eg in E. destruct (split_blank_suffix (rm_before m)) as (b & v & Eb & Hv & Hb).
    exists b, (v ++ w), n, w'. split; [rewrite E, Eb, <- !app_assoc; reflexivity|]. split; [apply Forall_app; auto|]. split; [exact Hw'|]. split; [destruct w; [cbn in Hl; lia|destruct v; discriminate]|exact Hb]. }
  destruct T as [(b & w & n & w' & E & Hw & Hw' & Hne & Hb)|T].
  - left. split; [exact D|]. assert (Es : re_sub r (fun _ => []) s = b).
    { rewrite E. destruct (match_at_all r (prev_of None b) (w ++ repeat 35%N (S n) ++ w') eq_refl) as [caps Em]; [intros X; apply Hs; rewrite E; apply in_or_app; right; exact X|exact HL|apply L_closing; exists w, n, w'; repeat split; auto; destruct w; [congruence|cbn; lia]|].
      rewrite (re_sub_tail r (fun _ => []) b _ caps eq_refl eq_refl); [apply app_nil_r| |destruct w; [congruence|discriminate]|exact Em].
      intros p x q Eb. apply RegexLang.match_at_none_L; [reflexivity|]. intros g a Ega H. apply L_closing in H as (v & m & v' & -> & Hl & Hv & Hv' & Hq).
      apply (no_lf_end s a (p ++ v ++ repeat 35%N (S m) ++ v') Hs) in Hq; [|rewrite E, Eb, <- !app_assoc; cbn [app]; rewrite Ega, <- !app_assoc; reflexivity]. subst a. rewrite app_nil_r in Ega.
      assert (Eq : b ++ w ++ repeat 35%N (S n) ++ w' = p ++ v ++ repeat 35%N (S m) ++ v') by (rewrite Eb, <- app_assoc; cbn [app]; rewrite Ega; reflexivity).
      destruct (hashes_unique _ _ _ _ _ _ _ _ Eq Hw Hw' Hv Hv' Hne ltac:(destruct v; [cbn in Hl; lia|discriminate]) Hb) as (v0 & Ep & _).
      apply (f_equal (@length N)) in Eb, Ep. rewrite app_length in Eb, Ep. cbn [length] in Eb. lia. }
    rewrite Es. destruct w as [|x w]; [congruence|]. exists x, (w ++ repeat 35%N (S n) ++ w'). pose proof (Forall_inv Hw) as Hx. pose proof (Forall_inv_tail Hw) as Hw2. split; [exact E|]. split; [exact Hx|]. split; [exists w, n, w'; auto|exact Hb].
  - right. split; [exact D|]. split; [apply TextFacts.re_sub_none; exact T|]. intros (a & x & e & E & Hx & (w & n & w' & -> & Hw & Hw')).
    assert (X : re_test r s = true); [|unfold re_test in X; rewrite T in X; discriminate]. apply RegexLang.re_test_L; [reflexivity|]. exists a, (x :: w ++ repeat 35%N (S n) ++ w'), []. split; [rewrite app_nil_r; exact E|].
    apply L_closing. exists (x :: w), n, w'. split; [reflexivity|]. split; [cbn; lia|]. split; [constructor; assumption|]. auto.
Qed.
