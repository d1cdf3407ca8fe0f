(** * Which lines interrupt a paragraph (C63) *)
From Verif Require Import Base Regex Common NormRef Node Inlines Blocks RegexFacts StrFacts Spec SpecTree SpecSame SpecLines SpecParas SpecBreak SpecLazy SpecWeak
  CommonFacts BlockFacts LineFacts DocFacts TextFacts RuleFacts MarkFacts WordFacts ParaFacts ParaDoc FenceFacts TagFacts LeafFacts HtmlBlockFacts SpecLists ListLine WeakFacts WeakStart BreakLine.
From Verif Require RegexLang.
Import SpecParas.
From Coq Require Import ZifyBool ZifyNat ZifyN.

Lemma text_nonspace s : has_text s -> re_test reNonSpace s = true.
Proof.
  intros (x & Hx & Hn). assert (Es : exists cs, reNonSpace = RChr cs /\ forall x, ~ In x [9; 10; 11; 12; 13; 32]%N -> cmatch cs x = true).
  { eexists. split; [vm_compute; reflexivity|]. intros y Hy. unfold cmatch. cbn [In] in Hy. cbn. unfold in_range. match goal with |- (if ?b then _ else _) = _ => replace b with false by lia end. reflexivity. }
  destruct Es as (cs & -> & Hc). rewrite re_test_chr. apply existsb_exists. exists x. split; [exact Hx|apply Hc, Hn].
Qed.
Lemma special_first c r : In c (u "#`~*+_<>-1") -> re_test reMaybeSpecial (c :: r) = true.
Proof.
  intros Hc. rewrite (re_test_bol (RChr (match reMaybeSpecial with RSeq _ (RChr cs) => cs | _ => CS false false [] end))), match_at_chr.
  match goal with |- context [cmatch ?cs c] => replace (cmatch cs c) with true; [reflexivity|] end. repeat (destruct Hc as [<-|Hc]; [vm_compute; reflexivity|]). destruct Hc.
Qed.
Lemma html_some k l : k < 7 -> 1 <= k -> re_test (reHtmlBlockOpen k) l = true -> html_type l true = html_type l false /\ html_type l true <> None.
Proof.
  intros Hk Hk1 E. unfold html_type. cbn [seq find]. change (Nat.ltb 1 7) with true. change (Nat.ltb 2 7) with true. change (Nat.ltb 3 7) with true. change (Nat.ltb 4 7) with true. change (Nat.ltb 5 7) with true. change (Nat.ltb 6 7) with true. cbn [orb]. rewrite !andb_true_r. do 6 (match goal with |- context [re_test (reHtmlBlockOpen ?j) l] => destruct (re_test (reHtmlBlockOpen j) l) eqn:?; [split; [reflexivity|discriminate]|] end).
  exfalso. destruct k as [|[|[|[|[|[|[|k]]]]]]]; try lia; congruence.
Qed.
(** no list mark *)
Lemma no_mark l c : hd_error l = Some c -> ~ In c [42; 43; 45]%N -> is_decimal c = false -> (forall i, list_marker l true i = list_marker l false i) /\ (forall i m dt, list_marker l true i = Some (m, dt) -> re_test reNonSpace (skipn (length m) l) = true).
Proof.
  intros H H1 H2. pose proof (bullet_no l c H H1) as Hb. assert (Ho : re_search reOrderedListMarker l = None).
  { destruct (re_search reOrderedListMarker l) as [m|] eqn:E; [|reflexivity]. exfalso. apply ordered_shape in E as (ds & d & _ & E & Hl & Hd & _). destruct ds as [|x ds]; [cbn in Hl; lia|]. rewrite E in H. injection H as ->. apply Forall_inv in Hd. congruence. }
  unfold list_marker. rewrite Hb, Ho. split; [reflexivity|discriminate].
Qed.
Lemma bullet_mark c r : In c [42; 43; 45]%N -> forall p i, list_marker (c :: r) p i = Some ([c], LD bullet true (Some c) None None 0 i).
Proof.
  intros Hc p i. unfold list_marker. rewrite search_bullet. match goal with |- context [cmatch ?cs c] => replace (cmatch cs c) with true; [reflexivity|] end. repeat (destruct Hc as [<-|Hc]; [vm_compute; reflexivity|]). destruct Hc.
Qed.
Lemma under_text c b r : c <> 61%N -> b <> c -> has_text r -> ~ underline (c :: b :: r).
Proof.
  intros Hc Hb (x & Hx & Hn) [(n & w & E & Hw)|(n & w & E & Hw)]; cbn [repeat app] in E; injection E as E1 E; [congruence|]. destruct n as [|n]; [|cbn [repeat app] in E; injection E as E2 _; congruence]. cbn [repeat app] in E. subst w.
  unfold blanks in Hw. rewrite Forall_forall in Hw. apply Hn. destruct (Hw x (or_intror Hx)) as [-> | ->]; cbn; tauto.
Qed.
Lemma rule_text c r : rule_line (c :: r) -> has_text r.
Proof.
  intros (x & Hx & E & Hn & _). injection E as <-. exists c. split.
  - cbn [count_char filter] in Hn. unfold count_char in Hn. cbn [filter] in Hn. rewrite N.eqb_refl in Hn. cbn [length] in Hn. destruct (filter (N.eqb c) r) as [|y f] eqn:Ef; [cbn in Hn; lia|]. assert (G : In y (filter (N.eqb c) r)) by (rewrite Ef; left; reflexivity). apply filter_In in G as [G1 G2]. apply N.eqb_eq in G2 as <-. exact G1.
  - repeat (destruct Hx as [<-|Hx]; [cbn; lia|]). destruct Hx.
Qed.
Lemma open1_match name rest : In (map ascii_lower name) [u "script"; u "pre"; u "style"] -> after_raw rest -> re_test reHtmlBlockOpen1 (60%N :: name ++ rest) = true.
Proof.
  intros Hn Hr. assert (En : map fold_icase name = map ascii_lower name). { apply fold_name. destruct Hn as [<-|[<-|[<-|[]]]]; repeat (constructor; [reflexivity|]); constructor. } rewrite <- En in Hn.
  assert (G : exists e q, rest = e ++ q /\ forall p, RegexLang.L (RAlt (RChr (CS false true [CSpace])) (RAlt (RChr (ic 62)) REol)) p e q).
  { destruct Hr as [->|(c & r & -> & [H| ->])].
    - exists [], []. split; [reflexivity|]. intros p. right. right. split; [reflexivity|auto].
    - exists [c], r. split; [reflexivity|]. intros p. left. exists c. split; [reflexivity|]. rewrite space_spec. exact H.
    - exists [62%N], r. split; [reflexivity|]. intros p. right. left. exists 62%N. split; [reflexivity|]. apply ic_spec; reflexivity. }
  destruct G as (e & q & -> & G). apply RegexLang.re_test_L; [vm_compute; reflexivity|]. exists [], (60%N :: name ++ e), q. split; [cbn [app]; rewrite <- !app_assoc; reflexivity|].
  rewrite open1_shape. exists [], (60%N :: name ++ e). split; [reflexivity|]. split; [split; reflexivity|].
  exists [60%N], (name ++ e). split; [reflexivity|]. split; [exists 60%N; split; [reflexivity|apply ic_spec; reflexivity]|]. exists name, e. split; [reflexivity|]. split; [apply (words_L names1 _ _ _ _ words1), Hn|apply G].
Qed.
Lemma open4_match c r : (65 <= c <= 90)%N -> re_test reHtmlBlockOpen4 (u "<!" ++ c :: r) = true.
Proof.
  intros Hc. apply RegexLang.re_test_L; [vm_compute; reflexivity|]. exists [], [60%N; 33%N; c], r. split; [reflexivity|].
  assert (E : reHtmlBlockOpen4 = RSeq RBol (RSeq (RChr (cs1 60)) (RSeq (RChr (cs1 33)) (RChr (CS false false [CRange 65 90]))))) by (vm_compute; reflexivity). rewrite E.
  exists [], [60%N; 33%N; c]. split; [reflexivity|]. split; [split; reflexivity|]. exists [60%N], [33%N; c]. split; [reflexivity|]. split; [exists 60%N; split; reflexivity|]. exists [33%N], [c]. split; [reflexivity|]. split; [exists 33%N; split; reflexivity|].
  exists c. split; [reflexivity|]. unfold cmatch. cbn [cs_neg cs_icase cs_items existsb item_match]. unfold in_range. lia.
Qed.
Lemma break_strong l : break_start l -> ~ In 10%N l -> exists c r, l = c :: r /\ In c (u "#`~*+_<>-1") /\ strong c l.
Proof.
  intros Hb Hl. unfold strong. destruct Hb as [r|l n s Ha|l c n info Ho|l Ho|name rest Hn Hr|r|r|c r Hc|r|l Hr Hu|c b r Hc Hb Ht|d b r Hd Hb Ht].
  - exists 62%N, r. split; [reflexivity|]. split; [cbn; tauto|]. split; [apply special_first; cbn; tauto|]. split; [apply setext_none; [exact Hl|apply (under_no _ 62%N); [reflexivity|discriminate|discriminate]]|]. split; [discriminate|].
    destruct (no_mark (62%N :: r) 62%N eq_refl) as (M1 & M2); [cbn; lia|reflexivity|]. split; [exact M1|]. split; [exact M2|]. left. reflexivity.
  - assert (Hm : re_search reATXHeadingMarker l <> None) by (apply atx_iff; [exact Hl|eauto]). assert (E : exists r, l = 35%N :: r) by (destruct Ha as (Hn & w & -> & _); destruct n as [|n]; [lia|]; eexists; reflexivity). destruct E as (r & ->).
    exists 35%N, r. split; [reflexivity|]. split; [cbn; tauto|]. split; [apply special_first; cbn; tauto|]. split; [apply setext_none; [exact Hl|apply (under_no _ 35%N); [reflexivity|discriminate|discriminate]]|]. split; [discriminate|].
    destruct (no_mark (35%N :: r) 35%N eq_refl) as (M1 & M2); [cbn; lia|reflexivity|]. split; [exact M1|]. split; [exact M2|]. right. left. exact Hm.
  - destruct (fence_match l c n info Ho Hl) as (m & Em & _). destruct Ho as (El & Hc & Hn & _). assert (E : exists r, l = c :: r) by (destruct n as [|n]; [lia|]; rewrite El; eexists; reflexivity). destruct E as (r & E). clear El. subst l.
    exists c, r. split; [reflexivity|]. split; [destruct Hc as [-> | ->]; cbn; tauto|]. split; [apply special_first; destruct Hc as [-> | ->]; cbn; tauto|]. split; [apply setext_none; [exact Hl|apply (under_no _ c); [reflexivity| |]; destruct Hc as [-> | ->]; discriminate]|]. split; [destruct Hc as [-> | ->]; discriminate|].
    destruct (no_mark (c :: r) c eq_refl) as (M1 & M2); [destruct Hc as [-> | ->]; cbn; lia|destruct Hc as [-> | ->]; reflexivity|]. split; [exact M1|]. split; [exact M2|]. do 2 right. left. congruence.
  - pose proof (html_type6 l true Ho) as E1. pose proof (html_type6 l false Ho) as E2. destruct Ho as (sl & name & rest & -> & _). set (r := sl ++ name ++ rest) in *.
    exists 60%N, r. split; [reflexivity|]. split; [cbn; tauto|]. split; [apply special_first; cbn; tauto|]. split; [apply setext_none; [exact Hl|apply (under_no _ 60%N); [reflexivity|discriminate|discriminate]]|]. split; [congruence|].
    destruct (no_mark (60%N :: r) 60%N eq_refl) as (M1 & M2); [cbn; lia|reflexivity|]. split; [exact M1|]. split; [exact M2|]. do 3 right. left. split; congruence.
  - assert (E : re_test (reHtmlBlockOpen 1) (60%N :: name ++ rest) = true) by (apply open1_match; assumption). destruct (html_some 1 _ ltac:(lia) ltac:(lia) E) as (E1 & E2). clear E. cbn [u app] in *.
    eexists _, _. split; [reflexivity|]. split; [cbn; tauto|]. split; [apply special_first; cbn; tauto|]. split; [apply setext_none; [exact Hl|apply (under_no _ 60%N); [reflexivity|discriminate|discriminate]]|]. split; [intros _; exact E1|].
    destruct (no_mark (60%N :: name ++ rest) 60%N eq_refl) as (M1 & M2); [cbn; lia|reflexivity|]. split; [exact M1|]. split; [exact M2|]. do 3 right. left. split; [reflexivity|exact E2].
  - assert (E : re_test (reHtmlBlockOpen 2) (u "<!--" ++ r) = true) by (vm_compute; reflexivity). destruct (html_some 2 _ ltac:(lia) ltac:(lia) E) as (E1 & E2). clear E. cbn [u app] in *. 
    eexists _, _. split; [reflexivity|]. split; [cbn; tauto|]. split; [apply special_first; cbn; tauto|]. split; [apply setext_none; [exact Hl|apply (under_no _ 60%N); [reflexivity|discriminate|discriminate]]|]. split; [intros _; exact E1|].
    destruct (no_mark (u "<!--" ++ r) 60%N eq_refl) as (M1 & M2); [cbn; lia|reflexivity|]. split; [exact M1|]. split; [exact M2|]. do 3 right. left. split; [reflexivity|exact E2].
  - assert (E : re_test (reHtmlBlockOpen 3) (u "<?" ++ r) = true) by (vm_compute; reflexivity). destruct (html_some 3 _ ltac:(lia) ltac:(lia) E) as (E1 & E2). clear E. cbn [u app] in *. 
    eexists _, _. split; [reflexivity|]. split; [cbn; tauto|]. split; [apply special_first; cbn; tauto|]. split; [apply setext_none; [exact Hl|apply (under_no _ 60%N); [reflexivity|discriminate|discriminate]]|]. split; [intros _; exact E1|].
    destruct (no_mark (u "<?" ++ r) 60%N eq_refl) as (M1 & M2); [cbn; lia|reflexivity|]. split; [exact M1|]. split; [exact M2|]. do 3 right. left. split; [reflexivity|exact E2].
  - assert (E : re_test (reHtmlBlockOpen 4) (u "<!" ++ c :: r) = true) by (apply open4_match; assumption). destruct (html_some 4 _ ltac:(lia) ltac:(lia) E) as (E1 & E2). clear E. cbn [u app] in *.
    eexists _, _. split; [reflexivity|]. split; [cbn; tauto|]. split; [apply special_first; cbn; tauto|]. split; [apply setext_none; [exact Hl|apply (under_no _ 60%N); [reflexivity|discriminate|discriminate]]|]. split; [intros _; exact E1|].
    destruct (no_mark (u "<!" ++ c :: r) 60%N eq_refl) as (M1 & M2); [cbn; lia|reflexivity|]. split; [exact M1|]. split; [exact M2|]. do 3 right. left. split; [reflexivity|exact E2].
  - assert (E : re_test (reHtmlBlockOpen 5) (u "<![CDATA[" ++ r) = true) by (vm_compute; reflexivity). destruct (html_some 5 _ ltac:(lia) ltac:(lia) E) as (E1 & E2). clear E. cbn [u app] in *. 
    eexists _, _. split; [reflexivity|]. split; [cbn; tauto|]. split; [apply special_first; cbn; tauto|]. split; [apply setext_none; [exact Hl|apply (under_no _ 60%N); [reflexivity|discriminate|discriminate]]|]. split; [intros _; exact E1|].
    destruct (no_mark (u "<![CDATA[" ++ r) 60%N eq_refl) as (M1 & M2); [cbn; lia|reflexivity|]. split; [exact M1|]. split; [exact M2|]. do 3 right. left. split; [reflexivity|exact E2].
  - assert (Et : re_test reThematicBreak l = true) by (apply thematic_iff; assumption). destruct l as [|c r]; [destruct Hr as (x & _ & E & _); discriminate|]. pose proof (rule_text c r Hr) as Ht. assert (Hc : In c (u "*_-")) by (destruct Hr as (x & Hx & E & _); injection E as <-; exact Hx).
    exists c, r. split; [reflexivity|]. split; [repeat (destruct Hc as [<-|Hc]; [cbn; tauto|]); destruct Hc|]. split; [apply special_first; repeat (destruct Hc as [<-|Hc]; [cbn; tauto|]); destruct Hc|]. split; [apply setext_none; assumption|]. split; [intros ->; cbn in Hc; lia|].
    assert (Hm : (forall i, list_marker (c :: r) true i = list_marker (c :: r) false i) /\ (forall i m dt, list_marker (c :: r) true i = Some (m, dt) -> re_test reNonSpace (skipn (length m) (c :: r)) = true)).
    { destruct (N.eq_dec c 95) as [->|N]; [apply (no_mark (95%N :: r) 95%N eq_refl); [cbn; lia|reflexivity]|]. assert (Hb : In c [42; 43; 45]%N) by (repeat (destruct Hc as [<-|Hc]; [cbn; tauto|]); destruct Hc).
      split; [intros i; rewrite !(bullet_mark c r Hb); reflexivity|]. intros i m dt E. rewrite (bullet_mark c r Hb) in E. injection E as <- _. apply text_nonspace, Ht. }
    destruct Hm as (M1 & M2). split; [exact M1|]. split; [exact M2|]. do 4 right. left. exact Et.
  - assert (Hc' : In c [42; 43; 45]%N) by (repeat (destruct Hc as [<-|Hc]; [cbn; tauto|]); destruct Hc).
    exists c, (b :: r). split; [reflexivity|]. split; [repeat (destruct Hc as [<-|Hc]; [cbn; tauto|]); destruct Hc|]. split; [apply special_first; repeat (destruct Hc as [<-|Hc]; [cbn; tauto|]); destruct Hc|].
    split; [apply setext_none; [exact Hl|]; apply under_text; [cbn in Hc'; lia|cbn in Hc'; lia|exact Ht]|]. split; [intros ->; cbn in Hc'; lia|].
    split; [intros i; rewrite !(bullet_mark c _ Hc'); reflexivity|]. split.
    + intros i m dt E. rewrite (bullet_mark c _ Hc') in E. injection E as <- _. apply text_nonspace. destruct Ht as (x & Hx & Hn). exists x. split; [right; exact Hx|exact Hn].
    + do 5 right. exists [c]. split; [intros i; rewrite (bullet_mark c _ Hc'); eexists; reflexivity|]. intros x E. injection E as <-. unfold SP, TAB. tauto.
  - destruct (search_number [49%N] d (b :: r) ltac:(cbn; lia) ltac:(constructor; [unfold digit; lia|constructor]) Hd) as (m & E & Eg & E1 & E2). cbn [app] in E.
    assert (Hm : forall p i, exists dt, list_marker (49%N :: d :: b :: r) p i = Some ([49%N; d], dt) /\ forall p', list_marker (49%N :: d :: b :: r) p' i = Some ([49%N; d], dt)).
    { intros p i. eexists. assert (G : forall p', list_marker (49%N :: d :: b :: r) p' i = Some ([49%N; d], LD ordered true None (Some (int_of_digits [49%N])) (Some d) 0 i)); [|split; [apply G|exact G]]. intros p'. unfold list_marker. rewrite (bullet_no (49%N :: d :: b :: r) 49%N eq_refl) by (cbn; lia). rewrite E, E1, E2, Eg. cbn [or_empty]. change (str_eqb [49%N] (u "1")) with true. rewrite orb_true_r. reflexivity. }
    exists 49%N, (d :: b :: r). split; [reflexivity|]. split; [cbn; tauto|]. split; [apply special_first; cbn; tauto|]. split; [apply setext_none; [exact Hl|apply (under_no _ 49%N); [reflexivity|discriminate|discriminate]]|]. split; [discriminate|].
    split; [intros i; destruct (Hm true i) as (dt & -> & G); rewrite G; reflexivity|]. split.
    + intros i m' dt E'. destruct (Hm true i) as (dt' & G & _). rewrite G in E'. injection E' as <- _. apply text_nonspace. destruct Ht as (x & Hx & Hn). exists x. split; [right; exact Hx|exact Hn].
    + do 5 right. exists [49%N; d]. split; [intros i; destruct (Hm true i) as (dt & G & _); exists dt; exact G|]. intros x E'. injection E' as <-. unfold SP, TAB. tauto.
Qed.

Lemma repl_nil c r : c <> 0%N -> replace_char 0 65533 (c :: r) = c :: replace_char 0 65533 r.
Proof. intros Hc. unfold replace_char. cbn [map]. replace (N.eqb c 0) with false by lia. reflexivity. Qed.
Lemma text_replace s : has_text s -> has_text (replace_char 0 65533 s).
Proof.
  intros (x & Hx & Hn). exists (if N.eqb x 0 then 65533%N else x). split; [unfold replace_char; apply (in_map (fun y => if N.eqb y 0 then 65533%N else y)), Hx|]. destruct (N.eqb x 0); [cbn; lia|exact Hn].
Qed.
Lemma break_replace l : break_start l -> break_start (replace_char 0 65533 l).
Proof.
  intros [r|l' n s Ha|l' c n info Ho|l' Ho|name rest Hn Hr|r|r|c r Hc|r|l' Hr Hu|c b r Hc Hb Ht|d b r Hd Hb Ht].
  - rewrite repl_nil by discriminate. constructor.
  - eapply break_heading, atx_replace, Ha.
  - eapply break_fence, opens_replace, Ho.
  - apply break_tag, html_replace, Ho.
  - rewrite repl_nil by discriminate. rewrite replace_app. assert (E : replace_char 0 65533 name = name).
    { apply replace_ascii. intros H0. apply (in_map ascii_lower) in H0. destruct Hn as [Hn|[Hn|[Hn|[]]]]; rewrite <- Hn in H0; vm_compute in H0; intuition discriminate. }
    rewrite E. apply break_raw; [exact Hn|]. destruct Hr as [->|(c & r & -> & Hc)]; [left; reflexivity|]. right. rewrite repl_nil by (intros ->; destruct Hc as [Hc|Hc]; discriminate). do 2 eexists. split; [reflexivity|exact Hc].
  - rewrite replace_app. apply break_comment.
  - rewrite replace_app. apply break_instruction.
  - rewrite replace_app, repl_nil by lia. apply break_declaration, Hc.
  - rewrite replace_app. apply break_cdata.
  - rewrite replace_ascii; [apply break_rule; assumption|]. intros X. destruct Hr as (c & Hc & _ & _ & Ha). rewrite Forall_forall in Ha. destruct (Ha _ X) as [E|[E|E]]; [|discriminate|discriminate]. subst c. cbn in Hc. lia.
  - rewrite !repl_nil by (destruct Hb as [-> | ->]; repeat (destruct Hc as [<-|Hc]; [discriminate|]); try destruct Hc; discriminate). apply break_bullet; [exact Hc|exact Hb|apply text_replace, Ht].
  - rewrite !repl_nil by (destruct Hb as [-> | ->]; destruct Hd as [-> | ->]; discriminate). apply break_number; [exact Hd|exact Hb|apply text_replace, Ht].
Qed.

(** a check that a line is not in the list *)
Definition quiet (l : str) : bool :=
  negb (existsb (N.eqb 10) l) && negb (opt_is 62 (hd_error l)) && match re_search reATXHeadingMarker l with None => true | _ => false end && match re_search reCodeFence l with None => true | _ => false end &&
  match html_type l true with None => true | _ => false end && negb (re_test reThematicBreak l) &&
  match list_marker l true 0 with None => true | Some (m, _) => match nth_error l (length m) with Some x => negb (N.eqb x 9 || N.eqb x 32) | None => false end end.
Lemma quiet_break l : quiet l = true -> ~ break_start l.
Proof.
  unfold quiet. rewrite !andb_true_iff. intros ((((((Q1 & Q2) & Q3) & Q4) & Q5) & Q6) & Q7) H. apply negb_true_iff in Q1, Q2, Q6.
  destruct (break_strong l H) as (c & r & -> & _ & S).
  - intros X. apply not_true_iff_false in Q1. apply Q1, existsb_exists. exists 10%N. auto.
  - destruct S as (_ & _ & _ & _ & _ & [->|[F|[F|[[_ F]|[F|(m & F1 & F2)]]]]]).
    + discriminate.
    + destruct (re_search reATXHeadingMarker (c :: r)); congruence.
    + destruct (re_search reCodeFence (c :: r)); congruence.
    + destruct (html_type (c :: r) true); congruence.
    + congruence.
    + destruct (F1 0) as (dt & E). rewrite E in Q7. destruct (nth_error (c :: r) (length m)) as [x|]; [|discriminate]. destruct (F2 x eq_refl) as [-> | ->]; discriminate.
Qed.
