(** * Which marks open and close emphasis (C49) *)
From Verif Require Import Base Regex Common NormRef Node Inlines Blocks Html Main RegexFacts StrFacts Spec SpecTree SpecSame SpecLines
  TreeFacts CommonFacts StrProp EmphFacts InlineFacts InlineInv HtmlFacts RenderFacts BlockFacts LineFacts ParseFacts Sim SimFacts SameHtml DocFacts TextFacts WordFacts EmphDoc RuleFacts MarkFacts.
From Coq Require Import ZifyBool ZifyNat ZifyN.

(** ** Character classes *)
Definition punctuation (c : N) : bool := re_test rePunctuation [c].
Lemma blank_test c : re_test reUnicodeWhitespaceChar [c] || N.eqb c 160 = is_space c.
Proof.
  assert (E : reUnicodeWhitespaceChar = RSeq RBol (RChr (CS false false [CSpace]))) by (vm_compute; reflexivity). rewrite E, re_test_bol, match_at_chr. cm_unfold.
  destruct (is_space c) eqn:Es; [reflexivity|]. cbn [orb]. destruct (N.eqb_spec c 160) as [->|_]; [vm_compute in Es; discriminate|reflexivity].
Qed.
Lemma punctuation_ascii c : (c < 128)%N -> punctuation c = ascii_punct c.
Proof.
  intros H. assert (G : forallb (fun c => Bool.eqb (punctuation c) (ascii_punct c)) (map N.of_nat (seq 0 128)) = true) by (vm_compute; reflexivity).
  rewrite forallb_forall in G. apply Bool.eqb_prop, G. apply in_map_iff. exists (N.to_nat c). split; [apply N2Nat.id|]. apply in_seq. lia.
Qed.
(** ** One run *)
Lemma take_run c n post : hd_error post <> Some c -> take_while (N.eqb c) (repeat c n ++ post) = repeat c n.
Proof.
  intros H. destruct (take_while_app_stop (N.eqb c) (repeat c n) post) as [E _]; [| |exact E].
  - apply forallb_forall. intros x Hx. apply repeat_spec in Hx as ->. apply N.eqb_refl.
  - intros x q' ->. apply N.eqb_neq. intros <-. apply H. reflexivity.
Qed.
Theorem scan_flank s pre c n post : ip_subject s = pre ++ repeat c n ++ post -> ip_pos s = length pre -> 0 < n -> c = 42%N \/ c = 95%N -> hd_error post <> Some c ->
  let x := last pre LF in let y := hd LF post in
  exists o cl, scanDelims c s = Some (n, o, cl) /\ (o = true <-> may_open is_space punctuation c x y) /\ (cl = true <-> may_close is_space punctuation c x y).
Proof.
  intros E Ep Hn Hc Hp x y. unfold scanDelims. rewrite E, Ep, skipn_exact by reflexivity. assert (C1 : N.eqb c 39 = false) by (destruct Hc as [->| ->]; reflexivity). assert (C2 : N.eqb c 34 = false) by (destruct Hc as [->| ->]; reflexivity).
  rewrite C1, C2. cbn [orb]. rewrite take_run by exact Hp. rewrite repeat_length. destruct (Nat.eqb_spec n 0) as [|_]; [lia|].
  assert (Eb : (if Nat.eqb (length pre) 0 then LF else nth (length pre - 1) (pre ++ repeat c n ++ post) LF) = x).
  { unfold x. destruct pre as [|a pre _] using rev_ind; [reflexivity|]. rewrite app_length. cbn [length]. destruct (Nat.eqb_spec (length pre + 1) 0) as [|_]; [lia|]. rewrite last_last, <- app_assoc, app_nth2 by lia. replace (length pre + 1 - 1 - length pre) with 0 by lia. reflexivity. }
  assert (Ea : nth (length pre + n) (pre ++ repeat c n ++ post) LF = y).
  { unfold y. rewrite app_nth2 by lia. replace (length pre + n - length pre) with n by lia. rewrite app_nth2 by (rewrite repeat_length; lia). rewrite repeat_length, Nat.sub_diag. destruct post; reflexivity. }
  rewrite Eb, Ea, !blank_test. fold (punctuation x). fold (punctuation y). unfold may_open, may_close, left_flanking, right_flanking.
  destruct Hc as [->| ->]; [change (N.eqb 42 95) with false|change (N.eqb 95 95) with true]; cbv iota; (eexists; eexists; split; [reflexivity|]);
    destruct (is_space x), (is_space y), (punctuation x), (punctuation y); cbn [negb andb orb]; intuition congruence.
Qed.

(** ** Runs of ordinary text in front of a mark *)
Definition nadds (st st' : ip) (K : list (nat * tree)) (ls : list str) : Prop :=
  ip_subject st' = ip_subject st /\ ip_refmap st' = ip_refmap st /\ ip_smart st' = ip_smart st /\ ip_delims st' = ip_delims st /\ ip_brackets st' = ip_brackets st /\
  ip_kids st' = ip_kids st ++ K /\ map snd K = map text_node ls /\ ip_next st <= ip_next st' /\ Forall (fun i => ip_next st <= i < ip_next st') (ids K).
Lemma nadds_nil st : nadds st st [] [].
Proof. unfold nadds. rewrite app_nil_r. repeat (split; [reflexivity|]). constructor. Qed.
Lemma nadds_one st n l : nadds st (append_kid (text_node l) (ip_adv n st)) [(ip_next st, text_node l)] [l].
Proof. unfold nadds, append_kid, ip_adv. cbn [set_ip_pos set_ip_next set_ip_kids ip_subject ip_refmap ip_smart ip_delims ip_brackets ip_kids ip_next map snd ids fst]. repeat (split; [reflexivity|]). split; [lia|]. repeat constructor; lia. Qed.
Lemma nadds_trans a b c K K' l l' : nadds a b K l -> nadds b c K' l' -> nadds a c (K ++ K') (l ++ l').
Proof.
  intros (A1 & A2 & A3 & A4 & A5 & A6 & A7 & A8 & A9) (B1 & B2 & B3 & B4 & B5 & B6 & B7 & B8 & B9). unfold nadds. rewrite B1, B2, B3, B4, B5, B6, A6, !map_app, B7, A7, app_assoc. repeat (split; [auto; fail|]). split; [lia|].
  rewrite ids_app. apply Forall_app. split; (eapply Forall_impl; [|eassumption]); cbn; intros; lia.
Qed.
Lemma tame_run : forall n s st fu q, length s <= n -> skipn (ip_pos st) (ip_subject st) = s ++ q -> (forall c q', q = c :: q' -> c = 42%N \/ c = 95%N) -> forallb tame s = true -> ip_brackets st = [] -> ip_smart st = false -> length s <= fu ->
  exists fu' st' K ls, inline_loop fu st = inline_loop fu' st' /\ fu <= fu' + length s /\ nadds st st' K ls /\ concat ls = s /\ ip_pos st' = ip_pos st + length s.
Proof.
  assert (H0 : forall st fu, exists fu' st' K ls, inline_loop fu st = inline_loop fu' st' /\ fu <= fu' + 0 /\ nadds st st' K ls /\ concat ls = @nil N /\ ip_pos st' = ip_pos st + 0).
  { intros st fu. exists fu, st, [], []. split; [reflexivity|]. split; [lia|]. split; [apply nadds_nil|]. split; [reflexivity|lia]. }
  induction n as [|n IH]; intros s st fu q Hn E Hq0 Ht Hb Hs Hf.
  - destruct s; [|cbn in Hn; lia]. apply H0.
  - destruct s as [|c s]; [apply H0|]. destruct fu as [|fu]; [cbn in Hf; lia|]. pose proof Ht as Ht0. cbn [forallb] in Ht. apply andb_true_iff in Ht as [Hc Ht].
    destruct (main_special c) eqn:Ec.
    + assert (Hq : hd_error (s ++ q) <> Some 91%N). { intros X. destruct s as [|d s]; [destruct q as [|x q']; [discriminate|]; injection X as ->; destruct (Hq0 _ _ eq_refl); discriminate|]. injection X as ->. discriminate Ht. }
      rewrite (loop_step _ _ _ (step_single st c (s ++ q) E (tame_main c Hc Ec) Hb Hs Hq)).
      destruct (IH s (append_kid (text_node [c]) (ip_adv 1 st)) fu q) as (fu' & st' & K & ls & G1 & G2 & G3 & G4 & G5); [cbn in Hn; lia| |exact Hq0|exact Ht|exact Hb|exact Hs|cbn in Hf; lia|].
      { cbn [append_kid ip_adv set_ip_pos set_ip_next set_ip_kids ip_subject ip_pos]. apply (skipn_adv st [c]); [exact E|reflexivity]. }
      exists fu', st', ([(ip_next st, text_node [c])] ++ K), ([[c]] ++ ls). split; [exact G1|]. split; [cbn [length]; lia|]. split; [eapply nadds_trans; [apply nadds_one|exact G3]|]. split; [cbn [concat app]; rewrite G4; reflexivity|].
      rewrite G5. cbn [append_kid ip_adv set_ip_pos set_ip_next set_ip_kids ip_pos length]. lia.
    + set (f := fun c => negb (main_special c)). set (g := take_while f (c :: s)). set (r := drop_while f (c :: s)). assert (Es : c :: s = g ++ r) by (symmetry; apply take_drop_while).
      assert (Hg : g <> []) by (unfold g; cbn [take_while]; unfold f at 1; rewrite Ec; discriminate). assert (Hf' : forallb f g = true) by apply take_while_all.
      assert (Hq : forall x q', r ++ q = x :: q' -> main_special x = true).
      { intros x q' Eq. destruct r as [|y r'] eqn:Er; cbn [app] in Eq; [destruct (Hq0 _ _ Eq) as [->| ->]; reflexivity|]. injection Eq as -> _. unfold r in Er. apply drop_while_head in Er; unfold f in Er; destruct (main_special x); [reflexivity|discriminate]. }
      clearbody g r. rewrite Es in *. rewrite <- app_assoc in E.
      rewrite (loop_step _ _ _ (step_run st g (r ++ q) E Hg Hf' Hq ltac:(intros X; congruence))).
      assert (0 < length g) by (destruct g; [congruence|cbn; lia]). rewrite forallb_app in Ht0. apply andb_true_iff in Ht0 as [_ Ht0]. rewrite !app_length in *.
      destruct (IH r (append_kid (text_node g) (ip_adv (length g) st)) fu q) as (fu' & st' & K & ls & G1 & G2 & G3 & G4 & G5); [lia| |exact Hq0|exact Ht0|exact Hb|exact Hs|lia|].
      { cbn [append_kid ip_adv set_ip_pos set_ip_next set_ip_kids ip_subject ip_pos]. apply (skipn_adv st g); [exact E|reflexivity]. }
      exists fu', st', ([(ip_next st, text_node g)] ++ K), ([g] ++ ls). split; [exact G1|]. split; [lia|]. split; [eapply nadds_trans; [apply nadds_one|exact G3]|]. split; [cbn [concat app]; rewrite G4; reflexivity|].
      rewrite G5. cbn [append_kid ip_adv set_ip_pos set_ip_next set_ip_kids ip_pos]. lia.
Qed.
(** One run of marks *)
Lemma step_marks s pre c n post : ip_subject s = pre ++ repeat c n ++ post -> ip_pos s = length pre -> 0 < n -> c = 42%N \/ c = 95%N -> hd_error post <> Some c ->
  let x := last pre LF in let y := hd LF post in
  exists o cl, parseInline s = Ok (true, set_ip_delims (DL c n n (ip_next s) o cl :: ip_delims s) (append_kid (text_node (repeat c n)) (ip_adv n s))) /\
    (o = true <-> may_open is_space punctuation c x y) /\ (cl = true <-> may_close is_space punctuation c x y).
Proof.
  intros E Ep Hn Hc Hp x y. destruct (scan_flank s pre c n post E Ep Hn Hc Hp) as (o & cl & Es & Ho & Hcl). exists o, cl. split; [|split; assumption].
  assert (Ek : skipn (ip_pos s) (ip_subject s) = repeat c n ++ post) by (rewrite E, Ep; apply skipn_exact; reflexivity).
  unfold parseInline. destruct n as [|n]; [lia|]. rewrite (peek_skipn s c (repeat c n ++ post) Ek).
  replace (N.eqb c LF) with false by (destruct Hc as [->| ->]; reflexivity). replace (N.eqb c 92) with false by (destruct Hc as [->| ->]; reflexivity). replace (N.eqb c 96) with false by (destruct Hc as [->| ->]; reflexivity).
  replace (N.eqb c 42 || N.eqb c 95) with true by (destruct Hc as [->| ->]; reflexivity).
  unfold handleDelim. rewrite Es. replace (N.eqb c 39) with false by (destruct Hc as [->| ->]; reflexivity). replace (N.eqb c 34) with false by (destruct Hc as [->| ->]; reflexivity).
  assert (Esl : slice (ip_pos s) (ip_pos (ip_adv (S n) s)) (ip_subject (ip_adv (S n) s)) = repeat c (S n)).
  { unfold slice. cbn [ip_adv set_ip_pos ip_pos ip_subject]. rewrite Ek. replace (ip_pos s + S n - ip_pos s) with (length (repeat c (S n))) by (rewrite repeat_length; lia). rewrite firstn_app, firstn_all, Nat.sub_diag. apply app_nil_r. }
  rewrite Esl. reflexivity.
Qed.
Lemma tame_hd s c : forallb tame s = true -> c = 42%N \/ c = 95%N -> hd_error s <> Some c.
Proof. intros Hs Hc. destruct s as [|x s]; [discriminate|]. cbn [forallb hd_error] in *. apply andb_true_iff in Hs as [Hx _]. intros [= ->]. destruct Hc as [->| ->]; discriminate Hx. Qed.
Definition mark_node (n : nat) (ls : list str) : tree := T (new_node (if Nat.eqb n 1 then emph else strong) None) (map text_node ls).
Lemma split_at id A x B : ~ In id (ids A) -> split_kid id (A ++ (id, x) :: B) = Some (A, x, B).
Proof.
  induction A as [|[i t] A IH]; cbn [app split_kid ids map fst]; intros H; [rewrite Nat.eqb_refl; reflexivity|].
  destruct (Nat.eqb_spec i id) as [->|_]; [destruct H; left; reflexivity|]. rewrite IH; [reflexivity|]. intros X. apply H. right. exact X.
Qed.
Lemma pair_marks n c i j o1 c1 o2 c2 A W B nx : n = 1 \/ n = 2 -> c = 42%N \/ c = 95%N -> i <> j -> ~ In i (ids A) -> ~ In j (ids W) ->
  exists ds' ks' n', processEmphasis None [DL c n n j o2 c2; DL c n n i o1 c1] (A ++ (i, text_node (repeat c n)) :: W ++ (j, text_node (repeat c n)) :: B) nx = Ok (ds', ks', n') /\
    map snd ks' = if o1 && c2 then map snd A ++ [T (new_node (if Nat.eqb n 1 then emph else strong) None) (map snd W)] ++ map snd B
                  else map snd (A ++ (i, text_node (repeat c n)) :: W ++ (j, text_node (repeat c n)) :: B).
Proof.
  intros Hn Hc Hij HA HW. set (ks := A ++ _). assert (Hw : forall e, wrap_emph n i j e true true ks = Ok (A ++ [] ++ [(e, T (new_node (if Nat.eqb n 1 then emph else strong) None) (map snd W))] ++ [] ++ B)).
  { intros e. unfold wrap_emph, ks. rewrite split_at by exact HA. rewrite split_at by exact HW. reflexivity. }
  assert (Hres : forall e : nat, map snd (A ++ [] ++ [(e, T (new_node (if Nat.eqb n 1 then emph else strong) None) (map snd W))] ++ [] ++ B) = map snd A ++ [T (new_node (if Nat.eqb n 1 then emph else strong) None) (map snd W)] ++ map snd B) by (intros; rewrite !map_app; reflexivity).
  clearbody ks. unfold processEmphasis. cbn [first_closer hd_id d_node id_eqb opt_eqb].
  assert (C : N.eqb c 42 || N.eqb c 95 = true) by (destruct Hc as [->| ->]; reflexivity).
  assert (E1 : pe_step None (DL c n n i o1 c1) [DL c n n j o2 c2] (PE [] [DL c n n i o1 c1; DL c n n j o2 c2] (OB None None None None) false ks nx) =
    Ok (PE (if o1 || negb c1 then [DL c n n i o1 c1] else []) [DL c n n j o2 c2] (OB None None None None) false ks nx)).
  { unfold pe_step. cbn [d_can_close pe_left pe_cur pe_ob pe_odd pe_kids pe_next d_cc d_can_open]. destruct c1; cbn [negb]; [|rewrite orb_true_r; reflexivity]. cbn [find_opener]. rewrite C. cbn [negb hd_id]. rewrite orb_false_r.
    destruct o1; unfold ob_set; destruct (N.eqb c 95), (N.eqb c 42), (N.eqb c 39); reflexivity. }
  assert (E2 : forall fu, 2 <= fu -> exists p, pe_loop fu None (PE (if o1 || negb c1 then [DL c n n i o1 c1] else []) [DL c n n j o2 c2] (OB None None None None) false ks nx) = Ok p /\
    map snd (pe_kids p) = if o1 && c2 then map snd A ++ [T (new_node (if Nat.eqb n 1 then emph else strong) None) (map snd W)] ++ map snd B else map snd ks).
  { intros [|[|fu]] Hf; [lia|lia|]. cbn [pe_loop pe_cur].
    assert (Hodd : (o2 || c1) && negb (Nat.eqb (n mod 3) 0) && Nat.eqb ((n + n) mod 3) 0 = false) by (destruct Hn as [->| ->]; destruct (o2 || c1); reflexivity).
    destruct c2; [|].
    - destruct o1.
      + cbn [orb]. unfold pe_step. cbn [d_can_close pe_left pe_cur pe_ob pe_odd pe_kids pe_next d_cc d_can_open negb find_opener d_node d_orig]. replace (ob_get c (OB None None None None)) with (@None nat) by (unfold ob_get; destruct (N.eqb c 95), (N.eqb c 42), (N.eqb c 39); reflexivity).
        cbn [id_eqb opt_eqb orb]. rewrite N.eqb_refl, Hodd, C. cbn [andb negb d_num d_node set_d_num].
        replace (if Nat.leb 2 n && Nat.leb 2 n then 2 else 1) with n by (destruct Hn as [->| ->]; reflexivity). rewrite Nat.sub_diag. cbn [Nat.eqb]. rewrite Hw. cbn [bind pe_cur]. eexists. split; [reflexivity|]. cbn [pe_kids andb]. apply Hres.
      + cbn [orb andb]. unfold pe_step. cbn [d_can_close pe_left pe_cur pe_ob pe_odd pe_kids pe_next d_cc d_can_open negb d_node d_orig].
        destruct (find_opener (DL c n n j o2 true) None (ob_get c (OB None None None None)) (if negb c1 then [DL c n n i false c1] else []) false) as [fo od] eqn:Ef.
        assert (fo = None) as ->. { destruct c1; cbn [negb] in Ef; [cbn in Ef; congruence|]. cbn [find_opener d_node d_can_open d_cc] in Ef. rewrite andb_false_r in Ef. cbn [andb] in Ef. destruct (_ || _) in Ef; congruence. }
        rewrite C. destruct od; cbn [negb bind pe_cur]; (eexists; split; [reflexivity|reflexivity]).
    - rewrite andb_false_r. unfold pe_step. cbn [d_can_close negb bind pe_cur pe_left pe_ob pe_odd pe_kids pe_next]. eexists. split; [reflexivity|reflexivity]. }
  destruct (E2 (delims_measure [DL c n n j o2 c2; DL c n n i o1 c1])) as (p & Ep & Hp); [unfold delims_measure; cbn [fold_right]; lia|].
  exists (drop_to None (pe_left p)), (pe_kids p), (pe_next p). split; [|exact Hp]. cbn [pe_loop pe_cur]. rewrite E1. cbn [bind]. rewrite Ep. reflexivity.
Qed.
Lemma tame_all_run s st fu : skipn (ip_pos st) (ip_subject st) = s -> forallb tame s = true -> ip_brackets st = [] -> ip_smart st = false -> length s < fu ->
  exists st' K ls, inline_loop fu st = Ok st' /\ nadds st st' K ls /\ concat ls = s.
Proof.
  intros E Ht Hb Hs Hf. destruct (tame_run (length s) s st fu []) as (fu' & st' & K & ls & G1 & G2 & G3 & G4 & G5); [lia|rewrite app_nil_r; exact E|discriminate|exact Ht|exact Hb|exact Hs|lia|].
  exists st', K, ls. split; [|auto]. rewrite G1. destruct fu' as [|fu']; [lia|]. apply loop_end. destruct G3 as (-> & _). rewrite G5, <- E. rewrite E. apply (skipn_adv st s []); [rewrite app_nil_r; exact E|reflexivity].
Qed.
Theorem two_runs a c n w b rm : n = 1 \/ n = 2 -> c = 42%N \/ c = 95%N -> forallb tame a = true -> forallb tame w = true -> forallb tame b = true -> w <> [] ->
  let l := a ++ repeat c n ++ w ++ repeat c n ++ b in
  exists st' ds' ks' nx, inline_loop (S (length l)) (IP l 0 rm false [] [] [] 0) = Ok st' /\ processEmphasis None (ip_delims st') (ip_kids st') (ip_next st') = Ok (ds', ks', nx) /\
    let ok := may_open is_space punctuation c (last a LF) (hd LF w) /\ may_close is_space punctuation c (last w LF) (hd LF b) in
    exists la lw lb, concat la = a /\ concat lw = w /\ concat lb = b /\
      ((ok /\ map snd ks' = map text_node la ++ [mark_node n lw] ++ map text_node lb) \/
       (~ ok /\ map snd ks' = map text_node (la ++ [repeat c n] ++ lw ++ [repeat c n] ++ lb))).
Proof.
  intros Hn Hc Ha Hw Hb Hwn l. assert (Hn0 : 0 < n) by lia. set (s0 := IP l 0 rm false [] [] [] 0).
  assert (Hcq : forall q, forall x q', repeat c n ++ q = x :: q' -> x = 42%N \/ x = 95%N) by (intros q x q' E; destruct n; [lia|]; injection E as <- _; exact Hc).
  assert (Hl : length l = length a + (n + (length w + (n + length b)))) by (unfold l; rewrite !app_length, !repeat_length; reflexivity).
  destruct (tame_run (length a) a s0 (S (length l)) (repeat c n ++ w ++ repeat c n ++ b)) as (f1 & s1 & KA & la & G1 & F1 & A1 & EA & P1); [lia|reflexivity|apply Hcq|exact Ha|reflexivity|reflexivity|lia|].
  pose proof A1 as (A11 & A12 & A13 & A14 & A15 & A16 & A17 & A18 & A19). cbn [s0 ip_subject ip_pos ip_refmap ip_smart ip_delims ip_brackets ip_kids ip_next app Nat.add] in *.
  destruct (step_marks s1 a c n (w ++ repeat c n ++ b)) as (o1 & c1 & E1 & O1 & _); [exact A11|exact P1|exact Hn0|exact Hc|destruct w; [congruence|exact (tame_hd _ _ Hw Hc)]|].
  set (s2 := set_ip_delims _ _) in E1. assert (P2 : ip_pos s2 = length a + n) by (unfold s2, append_kid, ip_adv; cbn [set_ip_delims set_ip_pos set_ip_next set_ip_kids ip_pos]; lia).
  assert (S2 : ip_subject s2 = l) by exact A11. destruct f1 as [|f1]; [lia|]. rewrite (loop_step _ _ _ E1) in G1.
  destruct (tame_run (length w) w s2 f1 (repeat c n ++ b)) as (f3 & s3 & KW & lw & G3 & F3 & A3 & EW & P3); [lia| |apply Hcq|exact Hw|exact A15|exact A13|lia|].
  { rewrite S2, P2. unfold l. rewrite app_assoc. apply skipn_exact. rewrite app_length, repeat_length. reflexivity. }
  pose proof A3 as (A31 & A32 & A33 & A34 & A35 & A36 & A37 & A38 & A39).
  destruct (step_marks s3 (a ++ repeat c n ++ w) c n b) as (o2 & c2 & E2 & _ & C2); [rewrite A31, S2; unfold l; rewrite <- !app_assoc; reflexivity|rewrite P3, P2, !app_length, repeat_length; lia|exact Hn0|exact Hc|exact (tame_hd _ _ Hb Hc)|].
  set (s4 := set_ip_delims _ _) in E2. assert (P4 : ip_pos s4 = length (a ++ repeat c n ++ w ++ repeat c n)) by (unfold s4, append_kid, ip_adv; cbn [set_ip_delims set_ip_pos set_ip_next set_ip_kids ip_pos]; rewrite !app_length, !repeat_length; lia).
  assert (S4 : ip_subject s4 = l) by (change (ip_subject s4) with (ip_subject s3); congruence). destruct f3 as [|f3]; [lia|]. rewrite (loop_step _ _ _ E2) in G3.
  assert (B4 : ip_brackets s4 = [] /\ ip_smart s4 = false). { change (ip_brackets s4) with (ip_brackets s3). change (ip_smart s4) with (ip_smart s3). rewrite A35, A33. change (ip_brackets s2) with (ip_brackets s1). change (ip_smart s2) with (ip_smart s1). auto. }
  destruct B4 as [B41 B42].
  destruct (tame_all_run b s4 f3) as (s5 & KB & lb & G5 & A5 & EB); [|exact Hb|exact B41|exact B42|lia|].
  { rewrite S4, P4. unfold l. replace (a ++ repeat c n ++ w ++ repeat c n ++ b) with ((a ++ repeat c n ++ w ++ repeat c n) ++ b) by (rewrite <- !app_assoc; reflexivity). apply skipn_exact. reflexivity. }
  pose proof A5 as (A51 & A52 & A53 & A54 & A55 & A56 & A57 & A58 & A59).
  assert (N2 : ip_next s2 = S (ip_next s1)) by reflexivity. assert (N4 : ip_next s4 = S (ip_next s3)) by reflexivity.
  assert (D5 : ip_delims s5 = [DL c n n (ip_next s3) o2 c2; DL c n n (ip_next s1) o1 c1]). { rewrite A54. change (ip_delims s4) with (DL c n n (ip_next s3) o2 c2 :: ip_delims s3). rewrite A34. change (ip_delims s2) with (DL c n n (ip_next s1) o1 c1 :: ip_delims s1). rewrite A14. reflexivity. }
  assert (K5 : ip_kids s5 = KA ++ (ip_next s1, text_node (repeat c n)) :: KW ++ (ip_next s3, text_node (repeat c n)) :: KB).
  { rewrite A56. change (ip_kids s4) with (ip_kids s3 ++ [(ip_next s3, text_node (repeat c n))]). rewrite A36. change (ip_kids s2) with (ip_kids s1 ++ [(ip_next s1, text_node (repeat c n))]). rewrite A16. rewrite <- !app_assoc. reflexivity. }
  destruct (pair_marks n c (ip_next s1) (ip_next s3) o1 c1 o2 c2 KA KW KB (ip_next s5) Hn Hc) as (ds' & ks' & nx & EP & HP).
  - lia.
  - intros X. rewrite Forall_forall in A19. apply A19 in X. lia.
  - intros X. rewrite Forall_forall in A39. apply A39 in X. lia.
  - exists s5, ds', ks', nx. split; [rewrite G1, G3; exact G5|]. split; [rewrite D5, K5; exact EP|]. cbn zeta. exists la, lw, lb. split; [exact EA|]. split; [exact EW|]. split; [exact EB|].
    assert (Eh : hd LF (w ++ repeat c n ++ b) = hd LF w) by (destruct w; [congruence|reflexivity]). assert (Et : last (a ++ repeat c n ++ w) LF = last w LF).
    { destruct w as [|z w' _] using rev_ind; [congruence|]. rewrite !app_assoc, !last_last. reflexivity. }
    rewrite Eh in O1. rewrite Et in C2. destruct o1, c2; cbn [andb] in HP.
    + left. split; [split; [apply O1|apply C2]; reflexivity|]. rewrite HP, A17, A37, A57. reflexivity.
    + right. split; [intros [_ X]; apply C2 in X; discriminate|]. rewrite HP, !map_app. cbn [map snd]. rewrite !map_app. cbn [map snd]. rewrite A17, A37, A57. reflexivity.
    + right. split; [intros [X _]; apply O1 in X; discriminate|]. rewrite HP, !map_app. cbn [map snd]. rewrite !map_app. cbn [map snd]. rewrite A17, A37, A57. reflexivity.
    + right. split; [intros [X _]; apply O1 in X; discriminate|]. rewrite HP, !map_app. cbn [map snd]. rewrite !map_app. cbn [map snd]. rewrite A17, A37, A57. reflexivity.
Qed.
(** ** In documents *)
Lemma mark_html o anc n lw st : h_dis st = 0%Z -> exists l, html_events o (events anc (mark_node n lw)) st = Ok (HS (h_buf st ++ in_marks n (concat lw)) l (h_dis st)).
Proof.
  intros Hd. unfold mark_node. cbn [events]. set (d := new_node _ None). assert (Hc : is_container (n_t d) = true) by (unfold d; cbn [new_node n_t]; destruct (Nat.eqb n 1); reflexivity). rewrite Hc. cbn [html_events].
  assert (En : forall e s, html_node o d anc e s = Ok (if Nat.eqb n 1 then h_tag0 (if e then u "em" else u "/em") s else h_tag0 (if e then u "strong" else u "/strong") s)) by (intros e s; unfold d, html_node; cbn [new_node n_t]; destruct (Nat.eqb n 1); reflexivity).
  rewrite En. cbn [bind]. rewrite html_events_app. remember (if Nat.eqb n 1 then h_tag0 (u "em") st else h_tag0 (u "strong") st) as s1 eqn:E1.
  assert (B1 : h_buf s1 = h_buf st ++ (if Nat.eqb n 1 then u "<em>" else u "<strong>") /\ h_dis s1 = 0%Z).
  { subst s1. unfold h_tag0, h_tag. rewrite Hd. change (Z.ltb 0 0) with false. cbv iota. destruct (Nat.eqb n 1); (split; [unfold h_lit; cbn [h_buf flat_map]; rewrite <- ?app_assoc; reflexivity|first [exact Hd | reflexivity]]). }
  destruct B1 as [B1 B2]. destruct (texts_html o (d :: anc) lw s1) as (l & ->). cbn [bind html_events]. rewrite En. cbn [bind]. rewrite B1, B2.
  unfold h_tag0, h_tag. cbn [h_dis]. change (Z.ltb 0 0) with false. cbv iota. unfold in_marks. rewrite <- escape_xml_html. destruct (Nat.eqb n 1); (eexists; unfold h_lit; cbn [h_buf flat_map h_dis]; rewrite Hd, <- !app_assoc; reflexivity).
Qed.
Lemma marked_html o dd pd la n lw lb : ho_sourcepos o = false -> n_t dd = document -> n_t pd = paragraph ->
  render_html o (T dd [T pd (map text_node la ++ [mark_node n lw] ++ map text_node lb)]) = Ok (one_paragraph (html_text (concat la) ++ in_marks n (concat lw) ++ html_text (concat lb))).
Proof.
  intros Ho Ed Ep. unfold one_paragraph. rewrite (para_html o dd pd _ (html_text (concat la) ++ in_marks n (concat lw) ++ html_text (concat lb)) Ho Ed Ep); [reflexivity|].
  intros st Hst. rewrite !flat_map_app, !html_events_app. destruct (texts_html o [pd; dd] la st) as (l1 & ->). cbn [bind]. rewrite html_events_app. cbn [flat_map]. rewrite app_nil_r.
  destruct (mark_html o [pd; dd] n lw (HS (h_buf st ++ escape_xml (concat la)) l1 (h_dis st)) Hst) as (l2 & ->). cbn [bind h_buf h_dis].
  match goal with |- context [html_events o (flat_map _ _) ?s] => destruct (texts_html o [pd; dd] lb s) as (l3 & ->) end. exists l3. cbn [h_buf h_dis]. rewrite !escape_xml_html, <- !app_assoc. reflexivity.
Qed.
Lemma marks_no_start c n w q : n = 1 \/ n = 2 -> c = 42%N \/ c = 95%N -> forallb tame w = true -> (forall x, hd_error w = Some x -> x <> 32%N /\ x <> 9%N) -> w <> [] -> ~ In 10%N (repeat c n ++ w ++ q) -> no_start (repeat c n ++ w ++ q).
Proof.
  intros Hn Hc Hw Hx Hwn Hlf. destruct w as [|y w]; [congruence|]. destruct (Hx y eq_refl) as [Y1 Y2]. pose proof (tame_hd _ c Hw Hc) as Y3. cbn [hd_error] in Y3.
  set (l := repeat c n ++ (y :: w) ++ q) in *. assert (El : exists r, l = c :: r) by (unfold l; destruct n; [lia|]; eexists; reflexivity). destruct El as (r & El).
  unfold no_start. split; [rewrite El; destruct Hc as [->| ->]; discriminate|]. split; [rewrite El; destruct Hc as [->| ->]; discriminate|]. split; [|split; [|split]].
  - rewrite El. change reATXHeadingMarker with (RSeq RBol (match reATXHeadingMarker with RSeq _ x => x | _ => REps end)). apply begins_search; [vm_compute; reflexivity|vm_compute; reflexivity|]. firsts_calc. lia.
  - rewrite El. apply re_search_none. intros p k E. apply RegexLang.match_at_none_L; [vm_compute; reflexivity|]. intros g a Eg HL. assert (p = []) as ->.
    { destruct HL as [(g1 & g2 & _ & [_ Hp] & _)|(g1 & g2 & _ & [_ Hp] & _)]; apply prev_of_none; exact Hp. }
    cbn [app] in E. subst k. pose proof (begins_L _ _ _ _ c r HL (eq_sym Eg)) as X. rewrite X in HL; [destruct (RegexLang.L_nonempty reCodeFence eq_refl _ _ _ HL eq_refl)|]. firsts_calc. lia.
  - destruct (re_test reThematicBreak l) eqn:E; [|reflexivity]. apply (thematic_iff l Hlf) in E as (d & _ & Hd & _ & Hf). rewrite El in Hd. injection Hd as <-. exfalso.
    assert (Hy : In y l) by (unfold l; rewrite !in_app_iff; right; left; left; reflexivity). rewrite Forall_forall in Hf. destruct (Hf y Hy) as [->|[->| ->]]; congruence.
  - intros i m dt. unfold list_marker. assert (Eb : reBulletListMarker = RSeq RBol (RChr (match reBulletListMarker with RSeq _ (RChr cs) => cs | _ => CS false false [] end))) by (vm_compute; reflexivity).
    rewrite Eb, re_search_bol, El, match_at_chr. assert (Eo : re_search reOrderedListMarker (c :: r) = None).
    { rewrite reOrdered_shape, begins_search; [reflexivity|vm_compute; reflexivity|vm_compute; reflexivity|]. destruct Hc as [->| ->]; vm_compute; reflexivity. }
    rewrite Eo. match goal with |- context [cmatch ?cs c] => destruct (cmatch cs c) end; [|discriminate]. cbn [rm_group]. intros X. assert (Em : m = [c]) by congruence. rewrite Em. cbn [length].
    rewrite <- El. unfold l. destruct Hn as [->| ->]; cbn [repeat app nth_error]; (eexists; split; [reflexivity|]); [split; assumption|destruct Hc as [->| ->]; split; discriminate].
Qed.
Theorem flank_md o a c n w b : ho_sourcepos o = false -> n = 1 \/ n = 2 -> c = 42%N \/ c = 95%N -> Forall ordinary_char (a ++ w ++ b) -> w <> [] ->
  (forall x, hd_error a = Some x -> is_space x = false /\ ~ block_char x) -> (a = [] -> forall x, hd_error w = Some x -> x <> 32%N /\ x <> 9%N) -> (forall x, last_opt b = Some x -> is_space x = false) ->
  let l := a ++ repeat c n ++ w ++ repeat c n ++ b in ~ list_number l ->
  let ok := may_open is_space punctuation c (last a LF) (hd LF w) /\ may_close is_space punctuation c (last w LF) (hd LF b) in
  (ok -> md_to_html false o l = Ok (one_paragraph (html_text a ++ in_marks n w ++ html_text b))) /\
  (~ ok -> md_to_html false o l = Ok (one_paragraph (html_text l))).
Proof.
  intros Ho Hn Hc Hp Hwn Hh Hh0 Hl l Hln ok. rewrite !Forall_app in Hp. destruct Hp as (Pa & Pw & Pb). apply plain_tame in Pa, Pw, Pb.
  assert (Hin : forall x, In x l -> x <> 10%N /\ x <> 13%N /\ x <> 0%N).
  { assert (Ht : forall s, forallb tame s = true -> forall x, In x s -> x <> 10%N /\ x <> 13%N /\ x <> 0%N) by (intros s Hs x Hx; rewrite forallb_forall in Hs; specialize (Hs x Hx); unfold tame in Hs; cbn [existsb] in Hs; lia).
    intros x Hx. unfold l in Hx. rewrite !in_app_iff in Hx. destruct Hx as [Hx|[Hx|[Hx|[Hx|Hx]]]]; try (eapply Ht; [|exact Hx]; assumption); apply repeat_spec in Hx as ->; destruct Hc as [->| ->]; repeat split; discriminate. }
  assert (Hlne : l <> []) by (unfold l; destruct a; [|discriminate]; destruct n; [lia|discriminate]).
  destruct (line_para false l (fun k => exists la lw lb, concat la = a /\ concat lw = w /\ concat lb = b /\
      ((ok /\ k = map text_node la ++ [mark_node n lw] ++ map text_node lb) \/ (~ ok /\ k = map text_node (la ++ [repeat c n] ++ lw ++ [repeat c n] ++ lb))))) as (dd & pd & k & E & Dd & Dp & _ & la & lw & lb & Ea & Ew & Eb & Hk).
  - exact Hlne.
  - intros x Hx. destruct (Hin x Hx) as (A & B & _). auto.
  - intros X. destruct (Hin _ X) as (_ & _ & Y). congruence.
  - intros x Hx. unfold l in Hx. destruct a as [|y a].
    + destruct n; [lia|]. injection Hx as <-. destruct Hc as [->| ->]; split; reflexivity || discriminate.
    + injection Hx as <-. destruct (Hh y eq_refl) as [H1 _]. split; [exact H1|]. intros ->. discriminate Pa.
  - intros x Hx. unfold l in Hx. destruct b as [|y b].
    + rewrite app_nil_r in Hx. destruct n as [|n]; [lia|]. rewrite <- repeat_snoc in Hx. rewrite !app_assoc, last_opt_snoc in Hx. injection Hx as <-. destruct Hc as [->| ->]; reflexivity.
    + apply Hl. rewrite !last_opt_app in Hx by (intros X; repeat (apply app_eq_nil in X as [_ X]); discriminate). exact Hx.
  - unfold l in *. destruct a as [|y a].
    + apply marks_no_start; auto. intros X. destruct (Hin _ X). congruence.
    + cbn [app] in *. apply no_start_text; [|exact Hln]. destruct (Hh y eq_refl) as [_ H2]. unfold start_char. destruct (existsb _ _) eqn:X; [|reflexivity]. apply existsb_exists in X as (z & Hz & X). apply N.eqb_eq in X as ->. destruct H2. exact Hz.
  - intros rm st. destruct (two_runs a c n w b rm Hn Hc Pa Pw Pb Hwn) as (st' & ds' & ks' & nx & E1 & E2 & H). exists st', ds', ks', nx. split; [exact E1|]. split; [exact E2|exact H].
  - unfold md_to_html. rewrite E. cbn [bind]. split; intros Hok; (destruct Hk as [[K1 ->]|[K1 ->]]; [|]); try contradiction.
    + rewrite marked_html by assumption. rewrite Ea, Ew, Eb. reflexivity.
    + unfold one_paragraph. rewrite <- escape_xml_html. apply text_para_html; [exact Ho|]. exists dd, pd. eexists. split; [reflexivity|]. split; [exact Dd|]. split; [exact Dp|]. rewrite !concat_app, Ea, Ew, Eb. cbn [concat]. rewrite !app_nil_r. reflexivity.
Qed.
