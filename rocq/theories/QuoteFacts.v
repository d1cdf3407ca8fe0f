(** * Smart punctuation on a line of words *)
From Verif Require Import Base Regex Common NormRef Node Inlines Blocks Html Main RegexFacts StrFacts Spec SpecTree SpecSame SpecLines SpecSmart
  TreeFacts CommonFacts StrProp EmphFacts InlineFacts HtmlFacts BlockFacts DocFacts TextFacts WordFacts SmartFacts FlankFacts.
From Verif Require RegexLang.
From Coq Require Import ZifyBool ZifyNat ZifyN.

Notation opens' := (opens is_space punctuation).
Notation closes' := (closes is_space punctuation).
Notation curl' := (curl is_space punctuation).
Notation next' := (next_closes is_space punctuation).

(** ** Full stops and hyphens *)
Lemma dash_run_spec n : 2 <= n -> smart_dashes (repeat 45%N n) = dash_run n.
Proof.
  intros Hn. unfold smart_dashes, dash_run. rewrite repeat_length. replace (Nat.leb n 1) with false by lia. destruct (Nat.eqb_spec (n mod 3) 0) as [H3|H3]; [cbn; rewrite app_nil_r; reflexivity|].
  destruct (Nat.eqb_spec (n mod 2) 0) as [H2|H2]; [reflexivity|]. pose proof (Nat.div_mod_eq n 3) as E. pose proof (Nat.mod_upper_bound n 3 ltac:(lia)) as B.
  destruct (Nat.eqb_spec (n mod 3) 2) as [H1|H1]; f_equal; f_equal.
  - replace (n - 2) with ((n / 3) * 3) by lia. apply Nat.div_mul. lia.
  - assert (n mod 3 = 1) by lia. assert (Hq : 1 <= n / 3). { destruct (n / 3) as [|q] eqn:Eq; [|lia]. lia. } replace (n - 4) with ((n / 3 - 1) * 3) by lia. apply Nat.div_mul. lia.
Qed.
Lemma dash_repeat n : forall m s, dashes m (repeat 45%N n ++ s) = dashes (n + m) s.
Proof. induction n as [|n IH]; intros m s; [reflexivity|]. cbn [repeat app dashes]. change (N.eqb 45 45) with true. cbv iota. rewrite IH. f_equal. lia. Qed.
Lemma dashes_stop n s : hd_error s <> Some 45%N -> dashes n s = dash_run n ++ dashes 0 s.
Proof.
  destruct s as [|c s]; [intros _; cbn [dashes]; change (dash_run 0) with (@nil N); rewrite app_nil_r; reflexivity|]. intros H. cbn [dashes]. destruct (N.eqb_spec c 45) as [->|_]; [elim H; reflexivity|]. reflexivity.
Qed.
Lemma dash_sub : forall n s prev, length s < n -> sub_loop n reDash (fun x => smart_dashes (rm_group x)) prev s = dashes 0 s.
Proof.
  induction n as [|n IH]; intros s prev Hn; [lia|]. cbn [sub_loop]. destruct s as [|c s]; [rewrite dash_end; reflexivity|]. rewrite dash_match. cbn [length] in Hn.
  destruct (N.eqb_spec c 45) as [->|Hc]; [|rewrite IH by lia; cbn [dashes]; rewrite (proj2 (N.eqb_neq _ _) Hc); reflexivity].
  destruct s as [|d s]; [rewrite IH by (cbn; lia); reflexivity|]. destruct (N.eqb_spec d 45) as [->|Hd]; [|rewrite IH by lia; cbn [dashes]; rewrite (proj2 (N.eqb_neq _ _) Hd); reflexivity].
  cbn [is_nil rm_group]. set (g := take_while (N.eqb 45) (45%N :: s)). set (q := drop_while (N.eqb 45) (45%N :: s)). assert (Es : 45%N :: s = g ++ q) by (symmetry; apply take_drop_while).
  assert (Eg : g = repeat 45%N (length g)) by apply run_repeat. assert (Hg : 1 <= length g) by (unfold g; cbn; lia).
  assert (Hq : hd_error q <> Some 45%N). { destruct q as [|x q'] eqn:Eq; [discriminate|]. intros X. injection X as ->. unfold q in Eq. apply drop_while_head in Eq. discriminate. }
  rewrite Es. change (45%N :: g ++ q) with ((45%N :: g) ++ q). replace (45%N :: g) with (repeat 45%N (S (length g))) by (cbn [repeat]; rewrite <- Eg; reflexivity).
  rewrite dash_run_spec by lia. rewrite dash_repeat, dashes_stop by exact Hq. rewrite Nat.add_0_r. f_equal. apply IH. apply (f_equal (@length _)) in Es. rewrite app_length in Es. cbn [length] in Es, Hn. lia.
Qed.
Lemma dots_match prev s : match_at reEllipses prev s =
  match s with c :: c2 :: c3 :: r => if N.eqb c 46 && N.eqb c2 46 && N.eqb c3 46 then Some ([c; c2; c3], r, []) else None | _ => None end.
Proof.
  assert (Hc : forall x, cmatch dot_cs x = N.eqb x 46) by (intros x; unfold dot_cs; cm_unfold; lia). rewrite reEllipses_shape, match_at_results. cbn [results ms_rest]. destruct s as [|c s]; [reflexivity|]. rewrite Hc.
  destruct (N.eqb c 46); [|destruct s as [|? [|? ?]]; reflexivity]. cbn [flat_map]. rewrite app_nil_r. cbn [results ms_rest]. destruct s as [|c2 s]; [reflexivity|]. rewrite Hc. destruct (N.eqb c2 46); [|destruct s; reflexivity]. cbn [flat_map]. rewrite app_nil_r. cbn [results ms_rest].
  destruct s as [|c3 s]; [reflexivity|]. rewrite Hc. destruct (N.eqb c3 46); [|reflexivity]. cbn [andb ms_rest ms_caps]. change (c :: c2 :: c3 :: s) with ([c; c2; c3] ++ s) at 1 2. rewrite firstn_sub. reflexivity.
Qed.
Lemma dots_sub : forall n s prev, length s < n -> sub_loop n reEllipses (fun _ => [8230%N]) prev s = ellipses s.
Proof.
  induction n as [|n IH]; intros s prev Hn; [lia|]. cbn [sub_loop]. rewrite dots_match. destruct s as [|c [|c2 [|c3 r]]]; [reflexivity| | |]; cbn [length] in Hn; try (rewrite IH by (cbn; lia); reflexivity).
  cbn [ellipses]. destruct (_ && _ && _)%bool; [cbn [is_nil app]; rewrite IH by lia; reflexivity|]. rewrite IH by (cbn; lia). reflexivity.
Qed.
(** what [parseString] does to a run of text *)
Definition sm (s : str) : str := dashes 0 (ellipses s).
Lemma sm_sub g : re_sub reDash (fun x => smart_dashes (rm_group x)) (re_sub reEllipses (fun _ => [8230%N]) g) = sm g.
Proof. unfold re_sub, sm. rewrite (dots_sub (S (length g)) g None) by lia. apply dash_sub. lia. Qed.
Lemma ellipses_hd t c : hd_error t <> Some c -> c <> 8230%N -> hd_error (ellipses t) <> Some c.
Proof. destruct t as [|a [|b [|d t]]]; cbn [ellipses]; try (intros H _; exact H). intros H Hc. destruct (_ && _ && _)%bool; cbn [hd_error] in *; congruence. Qed.
Lemma ellipses_app t : hd_error t <> Some 46%N -> forall n g, length g <= n -> ellipses (g ++ t) = ellipses g ++ ellipses t.
Proof.
  intros Ht. induction n as [|n IH]; intros g Hn; [destruct g; [reflexivity|cbn in Hn; lia]|]. destruct g as [|a g]; [reflexivity|]. cbn [length] in Hn.
  assert (Hstep : forall a r, ellipses (a :: r) = match r with c2 :: c3 :: r' => if N.eqb a 46 && N.eqb c2 46 && N.eqb c3 46 then 8230%N :: ellipses r' else a :: ellipses r | _ => a :: ellipses r end) by reflexivity.
  cbn [app]. rewrite !Hstep. destruct g as [|b [|d g]]; cbn [app].
  - destruct t as [|x [|y t]]; [reflexivity|reflexivity|]. destruct (N.eqb_spec x 46) as [->|_]; [cbn in Ht; congruence|]. rewrite andb_false_r. cbn [andb]. reflexivity.
  - pose proof (IH [b] ltac:(cbn in *; lia)) as E. cbn [app] in E. destruct t as [|x t]; [reflexivity|]. destruct (N.eqb_spec x 46) as [->|_]; [cbn in Ht; congruence|]. rewrite andb_false_r, E. reflexivity.
  - destruct (_ && _ && _)%bool; [rewrite IH by (cbn in *; lia); reflexivity|]. pose proof (IH (b :: d :: g) ltac:(cbn in *; lia)) as E. cbn [app] in E. rewrite E. reflexivity.
Qed.
Lemma dashes_app b : hd_error b <> Some 45%N -> forall a n, dashes n (a ++ b) = dashes n a ++ dashes 0 b.
Proof.
  intros Hb. induction a as [|c a IH]; intros n; cbn [app]; [apply dashes_stop, Hb|]. cbn [dashes]. destruct (N.eqb c 45); [apply IH|]. rewrite IH, <- app_assoc. reflexivity.
Qed.
Lemma sm_app g t : hd_error t <> Some 45%N -> hd_error t <> Some 46%N -> sm (g ++ t) = sm g ++ sm t.
Proof. intros H1 H2. unfold sm. rewrite (ellipses_app t H2 (length g) g (le_n _)). apply dashes_app, ellipses_hd; [exact H1|discriminate]. Qed.
Lemma sm_cons c t : c <> 45%N -> c <> 46%N -> sm (c :: t) = c :: sm t.
Proof.
  intros H1 H2. unfold sm. assert (E : ellipses (c :: t) = c :: ellipses t). { cbn [ellipses]. destruct t as [|a [|b t]]; try reflexivity. rewrite (proj2 (N.eqb_neq _ _) H2). reflexivity. }
  rewrite E. cbn [dashes]. rewrite (proj2 (N.eqb_neq _ _) H1). reflexivity.
Qed.

(** ** What the loop leaves behind: texts with their numbers, and the quotation marks *)
Inductive laid : N -> str -> list (nat * str) -> list delim -> Prop :=
| laid_end x : laid x [] [] []
| laid_text x g s i K D : g <> [] -> (forall c, In c g -> c <> 39%N /\ c <> 34%N) -> sm (g ++ curl' (last g x) s) = sm g ++ sm (curl' (last g x) s) ->
    laid (last g x) s K D -> laid x (g ++ s) ((i, sm g) :: K) D
| laid_quote x c s i K D : c = 39%N \/ c = 34%N -> laid c s K D ->
    laid x (c :: s) ((i, [if N.eqb c 39 then 8217%N else 8220%N]) :: K) (DL c 1 1 i (opens' x (hd 10%N s)) (closes' x (hd 10%N s)) :: D).
Definition nodes (K : list (nat * str)) : list (nat * tree) := map (fun '(i, l) => (i, text_node l)) K.

Lemma curl_app g : (forall c, In c g -> c <> 39%N /\ c <> 34%N) -> forall x s, curl' x (g ++ s) = g ++ curl' (last g x) s.
Proof.
  induction g as [|c g IH]; intros Hg x s; [reflexivity|]. cbn [app curl]. destruct (Hg c (or_introl eq_refl)) as [H1 H2]. rewrite (proj2 (N.eqb_neq _ _) H1), (proj2 (N.eqb_neq _ _) H2), IH by (intros; apply Hg; right; assumption).
  f_equal. f_equal. f_equal. clear. revert c x. induction g as [|a g IH]; intros c x; [reflexivity|]. change (last (a :: g) c) with (last (c :: a :: g) c). cbn [last]. destruct g; [reflexivity|]. apply IH.
Qed.
Lemma skipn_exact (a b : str) : skipn (length a) (a ++ b) = b.
Proof. induction a; [reflexivity|assumption]. Qed.
Lemma tame_main c : tame c = true -> main_special c = true -> c = 33%N \/ c = 93%N \/ c = 39%N \/ c = 34%N.
Proof. unfold tame, main_special. cbn [existsb]. lia. Qed.
Lemma step_mark s c q : skipn (ip_pos s) (ip_subject s) = c :: q -> c = 33%N \/ c = 93%N -> ip_brackets s = [] -> hd_error q <> Some 91%N ->
  parseInline s = Ok (true, append_kid (text_node [c]) (ip_adv 1 s)).
Proof.
  intros E Hc Hb Hq. unfold parseInline. rewrite (peek_skipn s _ _ E). destruct Hc as [-> | ->]; cbn [N.eqb Pos.eqb LF orb].
  - unfold parseBang. assert (Ep : peek_is 91 (ip_adv 1 s) = false).
    { unfold peek_is. destruct q as [|d q].
      - rewrite peek_end; [reflexivity|]. cbn [ip_adv set_ip_pos ip_pos ip_subject]. apply (skipn_adv s [33%N]); [exact E|reflexivity].
      - rewrite (peek_skipn _ d q); [apply N.eqb_neq; intros ->; apply Hq; reflexivity|]. cbn [ip_adv set_ip_pos ip_pos ip_subject]. apply (skipn_adv s [33%N]); [exact E|reflexivity]. }
    rewrite Ep. reflexivity.
  - unfold parseCloseBracket. change (ip_brackets (ip_adv 1 s)) with (ip_brackets s). rewrite Hb. reflexivity.
Qed.
Lemma step_smart s g q : skipn (ip_pos s) (ip_subject s) = g ++ q -> g <> [] -> forallb (fun c => negb (main_special c)) g = true ->
  (forall c q', q = c :: q' -> main_special c = true) -> ip_smart s = true -> parseInline s = Ok (true, append_kid (text_node (sm g)) (ip_adv (length g) s)).
Proof.
  intros E Hg Hm Hq Hs. pose proof (match_main s g q E Hg Hm Hq) as M. destruct g as [|c g]; [congruence|]. unfold parseInline. rewrite (peek_skipn s c (g ++ q) E).
  cbn [forallb] in Hm. apply andb_true_iff in Hm as [Hc _]. unfold main_special in Hc. cbn [existsb] in Hc.
  rewrite !negb_orb in Hc. repeat rewrite andb_true_iff in Hc. destruct Hc as (C1 & C2 & C3 & C4 & C5 & C6 & C7 & C8 & C9 & C10 & C11 & C12 & _).
  apply negb_true_iff in C1, C2, C3, C4, C5, C6, C7, C8, C9, C10, C11, C12. change LF with 10%N. rewrite C1, C2, C3, C4, C5, C6, C7, C8, C9, C10, C11, C12. cbn [orb].
  unfold parseString. rewrite M, Hs, sm_sub. reflexivity.
Qed.
Lemma scan_quote s pre c post : ip_subject s = pre ++ c :: post -> ip_pos s = length pre -> c = 39%N \/ c = 34%N ->
  scanDelims c s = Some (1, opens' (last pre LF) (hd LF post), closes' (last pre LF) (hd LF post)).
Proof.
  intros E Ep Hc. unfold scanDelims. rewrite E, Ep. set (x := last pre LF). set (y := hd LF post).
  assert (Eb : (if Nat.eqb (length pre) 0 then LF else nth (length pre - 1) (pre ++ c :: post) LF) = x).
  { unfold x. destruct pre as [|a pre _] using rev_ind; [reflexivity|]. rewrite app_length. cbn [length]. destruct (Nat.eqb_spec (length pre + 1) 0) as [|_]; [lia|]. rewrite last_last, <- app_assoc, app_nth2 by lia. replace (length pre + 1 - 1 - length pre) with 0 by lia. reflexivity. }
  assert (Ea : nth (length pre + 1) (pre ++ c :: post) LF = y). { unfold y. rewrite app_nth2 by lia. replace (length pre + 1 - length pre) with 1 by lia. destruct post; reflexivity. }
  assert (C1 : N.eqb c 39 || N.eqb c 34 = true) by (destruct Hc as [-> | ->]; reflexivity). assert (C2 : N.eqb c 95 = false) by (destruct Hc as [-> | ->]; reflexivity).
  rewrite C1, C2. change (Nat.eqb 1 0) with false. cbv iota. cbn zeta. rewrite Eb, Ea, !blank_test. fold (punctuation x). fold (punctuation y). reflexivity.
Qed.
Lemma step_quote s pre c post : ip_subject s = pre ++ c :: post -> ip_pos s = length pre -> c = 39%N \/ c = 34%N -> ip_smart s = true ->
  let k := append_kid (text_node [if N.eqb c 39 then 8217%N else 8220%N]) (ip_adv 1 s) in
  parseInline s = Ok (true, set_ip_delims (DL c 1 1 (ip_next s) (opens' (last pre LF) (hd LF post)) (closes' (last pre LF) (hd LF post)) :: ip_delims s) k).
Proof.
  intros E Ep Hc Hs k. assert (Ek : skipn (ip_pos s) (ip_subject s) = c :: post) by (rewrite E, Ep; apply skipn_exact).
  assert (Eh : parseInline s = handleDelim c s). { unfold parseInline. rewrite (peek_skipn s _ _ Ek). destruct Hc as [-> | ->]; cbn [N.eqb Pos.eqb LF orb]; rewrite Hs; unfold handleDelim; rewrite (scan_quote s pre _ post E Ep) by auto; reflexivity. }
  rewrite Eh. unfold handleDelim. rewrite (scan_quote s pre c post E Ep Hc). unfold k. destruct Hc as [-> | ->]; reflexivity.
Qed.
Lemma last_app (a b : str) x : last (a ++ b) x = last b (last a x).
Proof.
  revert x. induction a as [|c a IH]; intros x; [reflexivity|]. cbn [app]. assert (G : forall (l : str) y, last (c :: l) y = last l c). { clear. intros l. revert c. induction l as [|a l IH]; intros c y; [reflexivity|]. change (last (c :: a :: l) y) with (last (a :: l) y). rewrite !IH. reflexivity. }
  rewrite !G. apply IH.
Qed.
Lemma quote_loop : forall n s pre st fu, length s <= n -> ip_subject st = pre ++ s -> ip_pos st = length pre -> forallb tame s = true -> ip_brackets st = [] -> ip_smart st = true -> length s < fu ->
  exists st' K D, inline_loop fu st = Ok st' /\ ip_kids st' = ip_kids st ++ nodes K /\ ip_delims st' = rev D ++ ip_delims st /\ laid (last pre LF) s K D /\ NoDup (map fst K) /\ Forall (fun i => ip_next st <= i) (map fst K).
Proof.
  assert (H0 : forall pre st fu, ip_subject st = pre ++ [] -> ip_pos st = length pre -> 0 < fu -> exists st' K D, inline_loop fu st = Ok st' /\ ip_kids st' = ip_kids st ++ nodes K /\ ip_delims st' = rev D ++ ip_delims st /\ laid (last pre LF) [] K D /\ NoDup (map fst K) /\ Forall (fun i => ip_next st <= i) (map fst K)).
  { intros pre st fu E Ep Hf. destruct fu as [|fu]; [lia|]. exists st, [], []. split; [apply loop_end; rewrite E, Ep, app_nil_r; apply skipn_all|]. cbn [nodes map rev app]. rewrite app_nil_r. repeat (split; [reflexivity|]). split; [constructor|]. split; constructor. }
  assert (Hadd : forall st n l s1 x s K D st' g, s1 = append_kid (text_node l) (ip_adv n st) -> ip_kids st' = ip_kids s1 ++ nodes K -> Forall (fun i => ip_next s1 <= i) (map fst K) -> NoDup (map fst K) -> laid (last g x) s K D ->
    ip_kids st' = ip_kids st ++ nodes ((ip_next st, l) :: K) /\ NoDup (map fst ((ip_next st, l) :: K)) /\ Forall (fun i => ip_next st <= i) (map fst ((ip_next st, l) :: K))).
  { intros st n l s1 x s K D st' g -> Ek Hi Hn _. unfold append_kid, ip_adv in Ek, Hi. cbn [set_ip_pos set_ip_next set_ip_kids ip_kids ip_next] in Ek, Hi. split; [rewrite Ek, <- app_assoc; reflexivity|]. cbn [map fst].
    split; [constructor; [|exact Hn]|constructor; [lia|eapply Forall_impl; [|exact Hi]; cbn; intros; lia]]. intros X. rewrite Forall_forall in Hi. apply Hi in X. lia. }
  induction n as [|n IH]; intros s pre st fu Hn E Ep Ht Hb Hs Hf; [destruct s; [apply H0; auto|cbn in Hn; lia]|]. destruct s as [|c s]; [apply H0; auto|]. destruct fu as [|fu]; [lia|]. pose proof Ht as Ht0. cbn [forallb] in Ht. apply andb_true_iff in Ht as [Hc Ht]. cbn [length] in Hn, Hf.
  assert (Ek : skipn (ip_pos st) (ip_subject st) = c :: s) by (rewrite E, Ep; apply skipn_exact).
  destruct (main_special c) eqn:Ec.
  - assert (Hq : hd_error s <> Some 91%N) by (intros X; destruct s as [|d s]; [discriminate|]; injection X as ->; cbn [forallb] in Ht; discriminate Ht). destruct (tame_main c Hc Ec) as [Hc'|[Hc'|Hc']].
    1, 2: assert (Hcc : c = 33%N \/ c = 93%N) by (subst c; auto); rewrite (loop_step _ _ _ (step_mark st c s Ek Hcc Hb Hq)); set (s1 := append_kid _ _);
      destruct (IH s (pre ++ [c]) s1 fu) as (st' & K & D & G1 & G2 & G3 & G4 & G5 & G6); try exact Hb; try exact Hs; try exact Ht; try lia; [unfold s1; cbn; rewrite E, <- app_assoc; reflexivity|unfold s1; cbn; rewrite Ep, app_length; reflexivity|];
      rewrite last_last in G4; destruct (Hadd st 1 [c] s1 (last pre LF) s K D st' [c] eq_refl G2 G6 G5 G4) as (A1 & A2 & A3);
      exists st', ((ip_next st, [c]) :: K), D; split; [exact G1|]; split; [exact A1|]; split; [exact G3|]; split; [|split; assumption];
      assert (Esm : sm [c] = [c]) by (subst c; reflexivity); rewrite <- Esm; change (c :: s) with ([c] ++ s); apply laid_text;
        [discriminate|intros y [<-|[]]; subst c; split; discriminate| |exact G4]; cbn [app]; rewrite sm_cons, Esm by (subst c; discriminate); reflexivity.
    assert (Hcc : c = 39%N \/ c = 34%N) by exact Hc'. rewrite (loop_step _ _ _ (step_quote st pre c s E Ep Hcc Hs)). set (k := append_kid _ _). set (s1 := set_ip_delims _ k).
    destruct (IH s (pre ++ [c]) s1 fu) as (st' & K & D & G1 & G2 & G3 & G4 & G5 & G6); try exact Hb; try exact Hs; try exact Ht; try lia; [unfold s1; cbn; rewrite E, <- app_assoc; reflexivity|unfold s1; cbn; rewrite Ep, app_length; reflexivity|].
    rewrite last_last in G4. destruct (Hadd st 1 _ k (last pre LF) s K D st' [c] eq_refl G2 G6 G5 G4) as (A1 & A2 & A3).
    eexists st', (_ :: K), (_ :: D). split; [exact G1|]. split; [exact A1|]. split; [rewrite G3; cbn [rev]; rewrite <- app_assoc; reflexivity|]. split; [|split; assumption]. apply laid_quote; assumption.
  - set (f := fun c => negb (main_special c)). set (g := take_while f (c :: s)). set (q := drop_while f (c :: s)). assert (Es : c :: s = g ++ q) by (symmetry; apply take_drop_while).
    assert (Hg : g <> []) by (unfold g; cbn [take_while]; unfold f at 1; rewrite Ec; discriminate). assert (Hf' : forallb f g = true) by apply take_while_all.
    assert (Hq : forall x q', q = x :: q' -> main_special x = true) by (intros x q' Eq; unfold q in Eq; apply drop_while_head in Eq; unfold f in Eq; destruct (main_special x); [reflexivity|discriminate]).
    clearbody g q. rewrite Es in *. assert (Hl : S (length s) = length g + length q) by (apply (f_equal (@length _)) in Es; rewrite app_length in Es; exact Es). assert (0 < length g) by (destruct g; [congruence|cbn; lia]).
    rewrite (loop_step _ _ _ (step_smart st g q Ek Hg Hf' Hq Hs)). set (s1 := append_kid _ _). rewrite forallb_app in Ht0. apply andb_true_iff in Ht0 as [_ Ht0].
    destruct (IH q (pre ++ g) s1 fu) as (st' & K & D & G1 & G2 & G3 & G4 & G5 & G6); try exact Hb; try exact Hs; try exact Ht0; try lia; [unfold s1; cbn; rewrite E, <- app_assoc; reflexivity|unfold s1; cbn; rewrite Ep, app_length; reflexivity|].
    rewrite last_app in G4. destruct (Hadd st _ (sm g) s1 (last pre LF) q K D st' g eq_refl G2 G6 G5 G4) as (A1 & A2 & A3).
    exists st', ((ip_next st, sm g) :: K), D. split; [exact G1|]. split; [exact A1|]. split; [exact G3|]. split; [|split; assumption]. apply laid_text; [exact Hg| | |exact G4].
    + intros y Hy. rewrite forallb_forall in Hf'. apply Hf' in Hy. unfold f, main_special in Hy. cbn [existsb] in Hy. lia.
    + assert (Hh : forall d, d = 45%N \/ d = 46%N -> hd_error (curl' (last g (last pre LF)) q) <> Some d).
      { intros d Hd. destruct q as [|y q]; [discriminate|]. specialize (Hq y q eq_refl). cbn [forallb] in Ht0. apply andb_true_iff in Ht0 as [Hy _]. pose proof (tame_main y Hy Hq) as Hi. cbn [curl hd_error].
        destruct Hi as [-> | [-> | [-> | -> ] ] ]; cbn [N.eqb Pos.eqb]; repeat match goal with |- context [if ?b then _ else _] => destruct b end; intros X; injection X as X; lia. }
      apply sm_app; apply Hh; auto.
Qed.

(** ** What processEmphasis does with quotation marks *)
Fixpoint nearest (cc : N) (l : list delim) : option nat :=
  match l with [] => None | d :: l' => if (N.eqb (d_cc d) cc && d_can_open d)%bool then Some (d_node d) else nearest cc l' end.
Definition put (o : option nat) (v : str) (E : nat -> str) : nat -> str := fun j => if id_eqb o (Some j) then v else E j.
Fixpoint fin (D : list delim) (la ld : option nat) (E : nat -> str) : nat -> str :=
  match D with
  | [] => E
  | d :: D' =>
      let i := Some (d_node d) in
      if d_can_close d then if N.eqb (d_cc d) 39 then fin D' la ld (put la [8216%N] (put i [8217%N] E)) else fin D' la ld (put ld [8220%N] (put i [8221%N] E))
      else if d_can_open d then if N.eqb (d_cc d) 39 then fin D' i ld E else fin D' la i E
      else fin D' la ld E
  end.
Definition kids_of (I : list nat) (E : nat -> str) : list (nat * tree) := map (fun i => (i, text_node (E i))) I.
Lemma id_eqb_spec a b : id_eqb a b = true <-> a = b.
Proof. destruct a as [a|], b as [b|]; cbn; rewrite ?Nat.eqb_eq; split; congruence. Qed.
Lemma put_other o v E j : o <> Some j -> put o v E j = E j.
Proof. intros H. unfold put. destruct (id_eqb o (Some j)) eqn:X; [apply id_eqb_spec in X; congruence|reflexivity]. Qed.
Lemma put_same j v E : put (Some j) v E j = v.
Proof. unfold put. rewrite (proj2 (id_eqb_spec _ _) eq_refl). reflexivity. Qed.
Lemma kids_ext I E F : (forall i, In i I -> E i = F i) -> kids_of I E = kids_of I F.
Proof. intros H. apply map_ext_in. intros i Hi. rewrite (H i Hi). reflexivity. Qed.
Lemma put_kid i v E : forall I, NoDup I -> In i I -> put_kid_literal i v (kids_of I E) = Ok (kids_of I (put (Some i) v E)).
Proof.
  assert (G : forall I, NoDup I -> In i I -> exists a b, split_kid i (kids_of I E) = Some (a, text_node (E i), b) /\ a ++ (i, text_node v) :: b = kids_of I (put (Some i) v E)).
  { induction I as [|j I IH]; intros Hn Hi; [destruct Hi|]. apply NoDup_cons_iff in Hn as [Hj Hn]. unfold kids_of. cbn [map split_kid]. fold (kids_of I E) (kids_of I (put (Some i) v E)). destruct (Nat.eqb_spec j i) as [->|Hji].
    - exists [], (kids_of I E). split; [reflexivity|]. rewrite put_same. cbn [app]. f_equal. apply kids_ext. intros k Hk. rewrite put_other by congruence. reflexivity.
    - destruct Hi as [->|Hi]; [congruence|]. destruct (IH Hn Hi) as (a & b & X1 & X2). rewrite X1. exists ((j, text_node (E j)) :: a), b. split; [reflexivity|]. cbn [app]. rewrite X2, put_other by congruence. reflexivity. }
  intros I Hn Hi. destruct (G I Hn Hi) as (a & b & X1 & X2). unfold put_kid_literal. rewrite X1, <- X2. reflexivity.
Qed.
Definition clear_below (ob : option nat) (cc : N) (l : list delim) : Prop := forall l1 d l2, l = l1 ++ d :: l2 -> ob = Some (d_node d) -> nearest cc (d :: l2) = None.
Lemma opener_nearest c ob : d_orig c = 1 -> forall l, Forall (fun d => d_orig d = 1) l -> clear_below ob (d_cc c) l ->
  exists r, find_opener c None ob l false = (r, false) /\ option_map (fun x => d_node (fst x)) r = nearest (d_cc c) l.
Proof.
  intros Hc. induction l as [|o l IH]; intros Ho Hb; [exists None; split; reflexivity|]. apply Forall_cons_iff in Ho as [Ho Hl]. cbn [find_opener nearest].
  change (id_eqb (Some (d_node o)) None) with false. cbn [orb]. destruct (id_eqb (Some (d_node o)) ob) eqn:X.
  - apply id_eqb_spec in X. exists None. split; [reflexivity|]. symmetry. apply (Hb [] o l eq_refl). congruence.
  - rewrite Hc, Ho. change (Nat.eqb ((1 + 1) mod 3) 0) with false. rewrite !andb_false_r. cbn [negb]. rewrite andb_true_r. destruct (_ && _)%bool; [eexists; split; reflexivity|]. apply IH; [exact Hl|]. intros l1 d l2 E. apply (Hb (o :: l1)). cbn. rewrite E. reflexivity.
Qed.
Lemma clear_push ob cc c l : clear_below ob cc l -> ob <> Some (d_node c) -> clear_below ob cc (c :: l).
Proof. intros H Hn [|a l1] d l2 E Eo; cbn in E; injection E as E1 E2; [congruence|]. exact (H l1 d l2 E2 Eo). Qed.
Lemma nearest_clear cc l : nearest cc l = None -> forall ob, clear_below ob cc l.
Proof.
  intros H ob l1 d l2 E _. subst l. induction l1 as [|a l1 IH]; [exact H|]. apply IH. cbn [app nearest] in H. destruct (_ && _)%bool; [discriminate|exact H].
Qed.
Definition mark (d : delim) : Prop := d_orig d = 1 /\ (d_cc d = 39%N \/ d_cc d = 34%N) /\ (d_can_close d = true -> d_can_open d = false).
Lemma pe_fin I : NoDup I -> forall D fuel lft ob next E, length D <= fuel -> Forall mark D -> Forall mark lft -> (forall d, In d (lft ++ D) -> In (d_node d) I) ->
  NoDup (map d_node D) -> (forall d e, In d lft -> In e D -> d_node d <> d_node e) ->
  (forall cc, cc = 39%N \/ cc = 34%N -> clear_below (ob_get cc ob) cc lft /\ Forall (fun d => ob_get cc ob <> Some (d_node d)) D) ->
  exists p, pe_loop fuel None (PE lft D ob false (kids_of I E) next) = Ok p /\ pe_kids p = kids_of I (fin D (nearest 39 lft) (nearest 34 lft) E).
Proof.
  intros HI. induction D as [|c D IH]; intros fuel lft ob next E Hf HD Hl Hi Hn Hd Hob; [exists (PE lft [] ob false (kids_of I E) next); split; [destruct fuel; reflexivity|reflexivity]|].
  destruct fuel as [|fuel]; [cbn in Hf; lia|]. apply Forall_cons_iff in HD as [Hc HD]. destruct Hc as (Hc1 & Hc2 & Hc3). cbn [map] in Hn. apply NoDup_cons_iff in Hn as [Hcn Hn]. cbn [length] in Hf.
  assert (Hci : In (d_node c) I) by (apply Hi, in_or_app; right; left; reflexivity).
  assert (Hcl : forall e, In e D -> d_node c <> d_node e) by (intros e He X; apply Hcn; rewrite X; apply in_map, He).
  (* the next step when c is kept *)
  assert (Hkeep : forall E', exists p, pe_loop fuel None (PE (c :: lft) D ob false (kids_of I E') next) = Ok p /\ pe_kids p = kids_of I (fin D (nearest 39 (c :: lft)) (nearest 34 (c :: lft)) E')).
  { intros E'. apply IH; [lia|exact HD|constructor; [split; [|split]; assumption|exact Hl]| |exact Hn| |].
    - intros d [<-|X]; [exact Hci|]. apply Hi. apply in_app_or in X. apply in_or_app. destruct X; [left|right; right]; assumption.
    - intros d e [<-|X] He; [apply Hcl, He|apply Hd; [exact X|right; exact He]].
    - intros cc Hcc. destruct (Hob cc Hcc) as [B1 B2]. apply Forall_cons_iff in B2 as [B2 B3]. split; [apply clear_push; assumption|exact B3]. }
  cbn [pe_loop pe_cur]. unfold pe_step. cbn [pe_left pe_ob pe_odd pe_kids pe_next fin]. destruct (d_can_close c) eqn:Ec; cbn [negb bind].
  2: { destruct (Hkeep E) as (p & P1 & P2). exists p. split; [exact P1|]. rewrite P2. cbn [nearest]. destruct Hc2 as [X|X]; rewrite X; cbn [N.eqb Pos.eqb andb]; destruct (d_can_open c); reflexivity. }
  specialize (Hc3 eq_refl). destruct (Hob (d_cc c) Hc2) as [B1 B2]. destruct (opener_nearest c (ob_get (d_cc c) ob) Hc1 lft) as (r & R1 & R2); [eapply Forall_impl; [|exact Hl]; intros d X; apply X|exact B1|].
  rewrite R1. assert (Enear : forall cc, nearest cc (c :: lft) = nearest cc lft) by (intros cc; cbn [nearest]; rewrite Hc3, andb_false_r; reflexivity).
  assert (X42 : (N.eqb (d_cc c) 42 || N.eqb (d_cc c) 95)%bool = false) by (destruct Hc2 as [X|X]; rewrite X; reflexivity). rewrite X42.
  destruct r as [[o below]|]; cbn [option_map fst] in R2.
  - assert (Ho : In (d_node o) I).
    { apply Hi, in_or_app. left. clear - R1. revert R1. generalize (ob_get (d_cc c) ob). intros b. generalize false at 1. induction lft as [|a l IH]; intros odd X; cbn [find_opener] in X; [discriminate|]. destruct (_ || _)%bool; [discriminate|].
      destruct (_ && _ && _)%bool; [injection X as -> _; left; reflexivity|]. right. eapply IH, X. }
    destruct Hc2 as [X|X]; rewrite X in R2 |- *; cbn [N.eqb Pos.eqb]; rewrite put_kid by assumption; cbn [bind]; rewrite put_kid by assumption; cbn [bind];
    match goal with |- context [kids_of I (put ?a ?b ?f)] => destruct (Hkeep (put a b f)) as (p & P1 & P2) end; exists p; (split; [exact P1|]); rewrite P2, !Enear, <- R2; reflexivity.
  - assert (Hdrop : forall E', exists p, pe_loop fuel None (PE lft D (ob_set (d_cc c) (hd_id lft) ob) false (kids_of I E') next) = Ok p /\ pe_kids p = kids_of I (fin D (nearest 39 lft) (nearest 34 lft) E')).
    { intros E'. apply IH; [lia|exact HD|exact Hl| |exact Hn| |].
      - intros d X. apply Hi. apply in_app_or in X. apply in_or_app. destruct X; [left|right; right]; assumption.
      - intros d e X He. apply Hd; [exact X|right; exact He].
      - intros cc Hcc. assert (Eg : ob_get cc (ob_set (d_cc c) (hd_id lft) ob) = if N.eqb cc (d_cc c) then hd_id lft else ob_get cc ob) by (destruct Hc2 as [-> | ->], Hcc as [-> | ->]; reflexivity).
        rewrite Eg. destruct (N.eqb_spec cc (d_cc c)) as [Y|_].
        + split; [apply nearest_clear; rewrite Y; symmetry; exact R2|]. apply Forall_forall. intros d X. destruct lft as [|e lft]; [discriminate|]. cbn [hd_id]. intros Z. injection Z as Z. apply (Hd e d); [left; reflexivity|right; exact X|exact Z].
        + destruct (Hob cc Hcc) as [C1 C2]. apply Forall_cons_iff in C2 as [_ C2]. split; assumption. }
    cbn [negb]. rewrite Hc3. destruct Hc2 as [X|X]; rewrite X in R2, Hdrop |- *; cbn [N.eqb Pos.eqb]; rewrite put_kid by assumption; cbn [bind];
    match goal with |- context [kids_of I (put ?a ?b ?f)] => destruct (Hdrop (put a b f)) as (p & P1 & P2) end; exists p; (split; [exact P1|]); rewrite P2, <- R2; reflexivity.
Qed.
Lemma first_closer_all : forall l above, l <> [] -> first_closer None l above = ([], rev l ++ above).
Proof.
  induction l as [|d l IH]; intros ab H; [congruence|]. destruct l as [|e l]; [reflexivity|]. change (first_closer None (d :: e :: l) ab) with (first_closer None (e :: l) (d :: ab)). rewrite IH by discriminate. cbn [rev]. rewrite <- !app_assoc. reflexivity.
Qed.
Lemma measure_length : forall l, length l <= delims_measure l.
Proof. induction l as [|d l IH]; cbn [length delims_measure fold_right]; [lia|]. unfold delims_measure in IH. lia. Qed.
Lemma emphasis_quotes I D E n : NoDup I -> Forall mark D -> (forall d, In d D -> In (d_node d) I) -> NoDup (map d_node D) ->
  exists ds' n', processEmphasis None (rev D) (kids_of I E) n = Ok (ds', kids_of I (fin D None None E), n').
Proof.
  intros HI HD Hi Hn. unfold processEmphasis. destruct D as [|d D]; [eexists _, _; reflexivity|].
  assert (Hr : rev (d :: D) <> []) by (cbn [rev]; intros X; apply app_eq_nil in X as [_ X]; discriminate). rewrite (first_closer_all _ [] Hr), rev_involutive, app_nil_r. set (l := d :: D) in *.
  destruct (pe_fin I HI l (S (delims_measure (rev l))) [] (OB None None None None) n E) as (p & P1 & P2); try assumption.
  - pose proof (measure_length (rev l)) as X. rewrite rev_length in X. lia.
  - constructor.
  - intros ? ? [].
  - intros cc [-> | ->]; (split; [intros [|] ? ? X; discriminate X|]); apply Forall_forall; discriminate.
  - unfold l at 1. fold l. rewrite P1. cbn [bind]. rewrite P2. eexists _, _; reflexivity.
Qed.

(** ** What is read is what the specification writes *)
Lemma next_app g : (forall c, In c g -> c <> 39%N /\ c <> 34%N) -> forall x s, next' x (g ++ s) = next' (last g x) s.
Proof.
  induction g as [|c g IH]; intros Hg x s; [reflexivity|]. cbn [app next_closes]. destruct (Hg c (or_introl eq_refl)) as [H1 H2]. rewrite (proj2 (N.eqb_neq _ _) H1), IH by (intros; apply Hg; right; assumption).
  change (c :: g) with ([c] ++ g). rewrite last_app. reflexivity.
Qed.
Lemma laid_fin x s K D : laid x s K D -> NoDup (map fst K) -> forall la ld E, (forall i l, In (i, l) K -> E i = l) ->
  (forall i, In i (map fst K) -> la <> Some i /\ ld <> Some i) -> (forall i, la = Some i -> ld <> Some i) -> (forall i, ld = Some i -> E i = [8220%N]) ->
  concat (map (fin D la ld E) (map fst K)) = sm (curl' x s) /\
  forall i, ~ In i (map fst K) -> fin D la ld E i = if (id_eqb la (Some i) && next' x s)%bool then [8216%N] else E i.
Proof.
  induction 1 as [x|x g s i K D Hg Hq Hs HL IH|x c s i K D Hc HL IH]; intros Hn la ld E HE Hid Hll Hld.
  - split; [reflexivity|]. intros i _. cbn. rewrite andb_false_r. reflexivity.
  - cbn [map fst] in Hn, Hid |- *. apply NoDup_cons_iff in Hn as [Hi Hn]. destruct (IH Hn la ld E) as [A B]; [intros; apply HE; right; assumption|intros; apply Hid; right; assumption|exact Hll|exact Hld|].
    rewrite curl_app, next_app by exact Hq. split; [|intros j Hj; apply B; intros X; apply Hj; right; exact X].
    cbn [map concat]. rewrite A, Hs, (B i Hi). destruct (Hid i (or_introl eq_refl)) as [Hla _]. destruct (id_eqb la (Some i)) eqn:X; [apply id_eqb_spec in X; congruence|]. cbn [andb]. rewrite (HE i (sm g) (or_introl eq_refl)). reflexivity.
  - cbn [map fst] in Hn, Hid |- *. apply NoDup_cons_iff in Hn as [Hi Hn]. destruct (Hid i (or_introl eq_refl)) as [Hla Hldi]. pose proof (HE i _ (or_introl eq_refl)) as Ei.
    assert (HE' : forall E', (forall j, In j (map fst K) -> E' j = E j) -> forall j l, In (j, l) K -> E' j = l) by (intros E' Y j l X; rewrite Y; [apply HE; right; exact X|exact (in_map fst K (j, l) X)]).
    assert (Hid' : forall j, In j (map fst K) -> la <> Some j /\ ld <> Some j) by (intros; apply Hid; right; assumption).
    assert (Hij : forall j, In j (map fst K) -> Some i <> Some j) by (intros j Hj X; injection X as ->; exact (Hi Hj)).
    set (y := hd 10%N s). cbn [map concat fin d_can_close d_can_open d_cc d_node]. assert (Hoc : closes' x y = true -> opens' x y = false) by (intros X; unfold opens; rewrite X; apply andb_false_r).
    destruct Hc as [-> | ->]; cbn [N.eqb Pos.eqb] in Ei |- *; cbn [curl next_closes N.eqb Pos.eqb]; fold y; destruct (closes' x y) eqn:Ec; try rewrite (Hoc eq_refl); cbn [andb].
    + destruct (IH Hn la ld (put la [8216%N] (put (Some i) [8217%N] E))) as [A B].
      * apply HE'. intros j Hj. rewrite !put_other; auto. apply Hid', Hj.
      * exact Hid'.
      * exact Hll.
      * intros j Hj. rewrite !put_other; [apply Hld, Hj|congruence|intros X; apply (Hll j X Hj)].
      * split.
        -- rewrite A, (B i Hi), put_other, put_same, sm_cons by (assumption || discriminate). destruct (id_eqb la (Some i)) eqn:X; [apply id_eqb_spec in X; congruence|]. reflexivity.
        -- intros j Hj. rewrite (B j (fun X => Hj (or_intror X))). unfold put at 1. rewrite andb_true_r. destruct (id_eqb la (Some j)); [destruct (next' 39%N s); reflexivity|]. cbn [andb]. apply put_other. intros X. injection X as ->. apply Hj. left. reflexivity.
    + destruct (opens' x y) eqn:Eo; cbn [andb].
      * destruct (IH Hn (Some i) ld E) as [A B]; [apply HE'; reflexivity|intros j Hj; split; [apply Hij, Hj|apply Hid', Hj]|intros j X; congruence|exact Hld|]. split.
        -- rewrite A, (B i Hi), (proj2 (id_eqb_spec _ _) eq_refl), Ei. cbn [andb]. destruct (next' 39%N s); rewrite sm_cons by discriminate; reflexivity.
        -- intros j Hj. rewrite (B j (fun X => Hj (or_intror X))), andb_false_r. destruct (id_eqb (Some i) (Some j)) eqn:X; [|reflexivity]. apply id_eqb_spec in X. injection X as ->. elim Hj. left. reflexivity.
      * destruct (IH Hn la ld E) as [A B]; [apply HE'; reflexivity|exact Hid'|exact Hll|exact Hld|]. split.
        -- rewrite A, (B i Hi), Ei, sm_cons by discriminate. destruct (id_eqb la (Some i)) eqn:X; [apply id_eqb_spec in X; congruence|]. reflexivity.
        -- intros j Hj. exact (B j (fun X => Hj (or_intror X))).
    + destruct (IH Hn la ld (put ld [8220%N] (put (Some i) [8221%N] E))) as [A B].
      * apply HE'. intros j Hj. rewrite !put_other; auto. apply Hid', Hj.
      * exact Hid'.
      * exact Hll.
      * intros j Hj. rewrite Hj. apply put_same.
      * split.
        -- rewrite A, (B i Hi), put_other, put_same, sm_cons by (assumption || discriminate). destruct (id_eqb la (Some i)) eqn:X; [apply id_eqb_spec in X; congruence|]. reflexivity.
        -- intros j Hj. rewrite (B j (fun X => Hj (or_intror X))). destruct (_ && _)%bool; [reflexivity|]. unfold put at 1. destruct (id_eqb ld (Some j)) eqn:X; [apply id_eqb_spec in X; symmetry; apply Hld, X|]. apply put_other. intros Z. injection Z as ->. apply Hj. left. reflexivity.
    + destruct (opens' x y) eqn:Eo.
      * destruct (IH Hn la (Some i) E) as [A B]; [apply HE'; reflexivity|intros j Hj; split; [apply Hid', Hj|apply Hij, Hj]|intros j X; congruence|intros j X; injection X as <-; exact Ei|]. split.
        -- rewrite A, (B i Hi), Ei, sm_cons by discriminate. destruct (id_eqb la (Some i)) eqn:X; [apply id_eqb_spec in X; congruence|]. reflexivity.
        -- intros j Hj. exact (B j (fun X => Hj (or_intror X))).
      * destruct (IH Hn la ld E) as [A B]; [apply HE'; reflexivity|exact Hid'|exact Hll|exact Hld|]. split.
        -- rewrite A, (B i Hi), Ei, sm_cons by discriminate. destruct (id_eqb la (Some i)) eqn:X; [apply id_eqb_spec in X; congruence|]. reflexivity.
        -- intros j Hj. exact (B j (fun X => Hj (or_intror X))).
Qed.
Lemma laid_marks x s K D : laid x s K D -> NoDup (map fst K) -> Forall mark D /\ (forall d, In d D -> In (d_node d) (map fst K)) /\ NoDup (map d_node D).
Proof.
  induction 1 as [x|x g s i K D Hg Hq Hs HL IH|x c s i K D Hc HL IH]; intros Hn; cbn [map fst] in Hn |- *.
  - split; [constructor|]. split; [intros ? []|constructor].
  - apply NoDup_cons_iff in Hn as [Hi Hn]. destruct (IH Hn) as (A & B & C). split; [exact A|]. split; [intros d Hd; right; apply B, Hd|exact C].
  - apply NoDup_cons_iff in Hn as [Hi Hn]. destruct (IH Hn) as (A & B & C). split; [|split].
    + constructor; [|exact A]. split; [reflexivity|]. split; [exact Hc|]. cbn [d_can_close d_can_open]. intros X. unfold opens. rewrite X. apply andb_false_r.
    + intros d [<-|Hd]; [left; reflexivity|right; apply B, Hd].
    + cbn [map d_node]. constructor; [|exact C]. intros X. apply in_map_iff in X as (d & Ed & Hd). apply Hi. rewrite <- Ed. apply B, Hd.
Qed.
Lemma nodes_kids K : NoDup (map fst K) -> exists E, (forall i l, In (i, l) K -> E i = l) /\ nodes K = kids_of (map fst K) E.
Proof.
  intros Hn. assert (G : exists E : nat -> str, forall i l, In (i, l) K -> E i = l).
  { induction K as [|[i l] K IH]; [exists (fun _ => []); intros ? ? []|]. cbn [map fst] in Hn. apply NoDup_cons_iff in Hn as [Hi Hn]. destruct (IH Hn) as (E & HE). exists (put (Some i) l E). intros j m [X|X]; [injection X as <- <-; apply put_same|].
    rewrite put_other; [apply HE, X|]. intros Z. injection Z as ->. apply Hi. exact (in_map fst K _ X). }
  destruct G as (E & HE). exists E. split; [exact HE|]. unfold nodes, kids_of. rewrite map_map. apply map_ext_in. intros [i l] Hi. cbn [fst]. rewrite (HE i l Hi). reflexivity.
Qed.
Theorem smart_words o s : ho_sourcepos o = false -> s <> [] -> Forall ordinary_char s -> (forall c, hd_error s = Some c -> is_space c = false /\ ~ block_char c) -> (forall c, last_opt s = Some c -> is_space c = false) -> ~ list_number s ->
  (exists t, parse_doc true s = Ok t /\ paragraph_of_text t (smart_line is_space punctuation s)) /\ md_to_html true o s = Ok (one_paragraph (html_text (smart_line is_space punctuation s))).
Proof.
  intros Ho Hne Hp Hh Hl Hn. apply text_para_md; [exact Ho|]. assert (Hin : forall x, In x s -> ~ In x [10; 13; 0; 96; 91; 92; 60; 38; 42; 95]%N) by (apply Forall_forall; exact Hp).
  destruct (line_para true s (fun k => exists ls, k = map text_node ls /\ concat ls = smart_line is_space punctuation s)) as (dd & pd & k & E & D1 & D2 & _ & ls & -> & Hc); try assumption.
  - intros x Hx. apply Hin in Hx. cbn [In] in Hx. split; intros ->; apply Hx; tauto.
  - intros Hx. apply Hin in Hx. cbn [In] in Hx. tauto.
  - intros c Hc. split; [apply Hh, Hc|]. intros ->. destruct s as [|x l]; [discriminate|]. injection Hc as ->. apply (Hin 91%N); cbn [In]; tauto.
  - destruct s as [|c r]; [congruence|]. apply no_start_text; [|exact Hn]. destruct (Hh c eq_refl) as [_ Hb]. unfold start_char. destruct (existsb _ _) eqn:E; [|reflexivity]. exfalso. apply Hb.
    apply existsb_exists in E as (y & Hy & E). apply N.eqb_eq in E as ->. exact Hy.
  - intros rm st. destruct (quote_loop (length s) s [] st (S (length s))) as (st' & K & D & G1 & G2 & G3 & G4 & G5 & _); try reflexivity; [apply plain_tame, Hp|lia|].
    change (ip_kids st) with (@nil (nat * tree)) in G2. change (ip_delims st) with (@nil delim) in G3. rewrite app_nil_r in G3. cbn [app] in G2. cbn [last] in G4.
    destruct (laid_marks _ _ _ _ G4 G5) as (M1 & M2 & M3). destruct (nodes_kids K G5) as (E & E1 & E2).
    destruct (emphasis_quotes (map fst K) D E (ip_next st') G5 M1 M2 M3) as (ds' & n' & P). exists st', ds', (kids_of (map fst K) (fin D None None E)), n'. split; [exact G1|]. rewrite G2, G3, E2. split; [exact P|].
    exists (map (fin D None None E) (map fst K)). split; [unfold kids_of; rewrite !map_map; reflexivity|].
    destruct (laid_fin _ _ _ _ G4 G5 None None E E1) as [A _]; [split; discriminate|discriminate|discriminate|]. exact A.
  - eexists. split; [exact E|]. exists dd, pd, ls. auto.
Qed.
