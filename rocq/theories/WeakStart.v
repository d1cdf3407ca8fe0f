(** * Which lines cannot interrupt a paragraph (C62) *)
From Verif Require Import Base Regex Common NormRef Node Inlines Blocks Html Main RegexFacts StrFacts Spec SpecTree SpecSame SpecLines SpecParas SpecLazy SpecWeak
  TreeFacts CommonFacts BlockFacts LineFacts DocFacts TextFacts RuleFacts MarkFacts WordFacts ParaFacts ParaDoc FenceFacts TagFacts WeakFacts BreakConv.
From Verif Require RegexLang.
Import SpecParas.
From Coq Require Import ZifyBool ZifyNat ZifyN.

Lemma fence_no l c : hd_error l = Some c -> c <> 96%N -> c <> 126%N -> re_search reCodeFence l = None.
Proof.
  intros H H1 H2. destruct l as [|x l]; [discriminate|]. injection H as ->. apply fence_first. firsts_calc. lia.
Qed.
Lemma atx_no l c : ~ In 10%N l -> hd_error l = Some c -> c <> 35%N -> re_search reATXHeadingMarker l = None.
Proof.
  intros Hl H Hc. destruct (re_search reATXHeadingMarker l) as [m|] eqn:E; [|reflexivity]. exfalso. assert (G : re_search reATXHeadingMarker l <> None) by congruence. apply (atx_iff l Hl) in G as (n & s & (Hn & _) & w & -> & _).
  destruct n as [|n]; [lia|]. cbn in H. congruence.
Qed.
Lemma rule_no l : ~ In 10%N l -> ~ rule_line l -> re_test reThematicBreak l = false.
Proof. intros Hl H. destruct (re_test reThematicBreak l) eqn:E; [|reflexivity]. apply (thematic_iff l Hl) in E. contradiction. Qed.
Lemma rule_hd l c : hd_error l = Some c -> ~ In c (u "*_-") -> ~ rule_line l.
Proof. intros H Hc (x & Hx & E & _). rewrite H in E. injection E as ->. contradiction. Qed.
Lemma rule_other l c x : hd_error l = Some c -> In x l -> x <> c -> x <> 32%N -> x <> 9%N -> ~ rule_line l.
Proof. intros H Hx H1 H2 H3 (y & _ & E & _ & Ha). rewrite H in E. injection E as ->. rewrite Forall_forall in Ha. destruct (Ha x Hx) as [|[|]]; contradiction. Qed.
Lemma under_no l c : hd_error l = Some c -> c <> 61%N -> c <> 45%N -> ~ underline l.
Proof. intros H H1 H2 [(n & w & -> & _)|(n & w & -> & _)]; cbn in H; congruence. Qed.
Lemma ordered_no l c i : hd_error l = Some c -> is_decimal c = false -> re_search reBulletListMarker l = None -> list_marker l true i = None.
Proof.
  intros H Hc Hb. unfold list_marker. rewrite Hb. destruct (re_search reOrderedListMarker l) as [m|] eqn:E; [|reflexivity]. exfalso. apply ordered_shape in E as (ds & d & _ & E & Hl & Hd & _).
  destruct ds as [|x ds]; [cbn in Hl; lia|]. rewrite E in H. injection H as ->. apply Forall_inv in Hd. congruence.
Qed.
Lemma bullet_no l c : hd_error l = Some c -> ~ In c [42; 43; 45]%N -> re_search reBulletListMarker l = None.
Proof. intros H Hc. destruct (re_search reBulletListMarker l) as [m|] eqn:E; [|reflexivity]. exfalso. apply bullet_shape in E as (x & _ & Hx & ->). injection H as ->. contradiction. Qed.
(** a list mark with no blank behind it *)
Lemma bullet_joined c d r i m dt : In c [42; 43; 45]%N -> d <> 32%N -> d <> 9%N -> list_marker (c :: d :: r) true i = Some (m, dt) -> exists x, nth_error (c :: d :: r) (length m) = Some x /\ x <> SP /\ x <> TAB.
Proof.
  intros Hc Hd Ht H. unfold list_marker in H. destruct (re_search reBulletListMarker (c :: d :: r)) as [mm|] eqn:E.
  - apply bullet_shape in E as (x & E1 & _). injection H as <- _. rewrite E1. exists d. auto.
  - exfalso. destruct (re_search reOrderedListMarker _) as [mm|] eqn:Eo; [|discriminate]. apply ordered_shape in Eo as (ds & y & _ & Eo & Hl & Hd' & _). destruct ds as [|x ds]; [cbn in Hl; lia|]. injection Eo as -> _. apply Forall_inv in Hd'.
    destruct Hc as [<-|[<-|[<-|[]]]]; discriminate.
Qed.
Lemma nonspace_no n : re_test reNonSpace (repeat 32%N n) = false.
Proof.
  apply not_true_is_false. intros H. apply RegexLang.re_test_L in H; [|vm_compute; reflexivity]. destruct H as (p & g & q & E & HL).
  assert (Es : exists cs, reNonSpace = RChr cs /\ cmatch cs 32 = false) by (eexists; split; [vm_compute; reflexivity|reflexivity]). destruct Es as (cs & Es & Hc). rewrite Es in HL. destruct HL as (x & -> & Hx).
  assert (Hin : In x (repeat 32%N n)) by (rewrite E; apply in_or_app; right; left; reflexivity). apply repeat_spec in Hin. congruence.
Qed.
Lemma few_ticks c n r : c = 96%N \/ c = 126%N -> n < 2 -> hd_error r <> Some c -> re_search reCodeFence (c :: repeat c n ++ r) = None.
Proof.
  intros Hc Hn Hr. destruct (re_search reCodeFence _) as [m|] eqn:E; [|reflexivity]. exfalso. apply RegexLang.re_search_L in E as [E H]; [|vm_compute; reflexivity].
  assert (G : rm_before m = [] /\ exists a k, 3 <= k /\ rm_group m = repeat a k).
  { rewrite FenceFacts.reCodeFence_shape in H. destruct H as [H|H].
    - apply L_ticks_open in H as (H1 & H2 & H3 & _). apply bol_prefix in H1. split; [exact H1|]. exists 96%N, (length (rm_group m)). auto.
    - destruct H as (g1 & g2 & Eg & [-> Hp] & H). apply bol_prefix in Hp. split; [exact Hp|]. cbn [app] in Eg. rewrite Eg. apply L_run in H as [H1 H2]. exists 126%N, (length g2). auto. }
  destruct G as (Eb & a & k & Hk & Eg). rewrite Eb, Eg in E. cbn [app] in E. destruct k as [|[|[|k]]]; try lia. cbn [repeat app] in E. injection E as <- E. destruct n as [|[|n]]; [| |lia]; cbn [repeat app] in E.
  - rewrite E in Hr. apply Hr. reflexivity.
  - injection E as E. rewrite E in Hr. apply Hr. reflexivity.
Qed.

(** ** Tags *)
Lemma tag_fal c : tag_char c -> fal c = true.
Proof. unfold tag_char, fal, alnum, fold_icase, in_range. intros H. destruct ((65 <=? c) && (c <=? 90))%N eqn:E1; [lia|]. destruct (N.eqb_spec c 304), (N.eqb_spec c 305), (N.eqb_spec c 383), (N.eqb_spec c 8490); cbn [orb]; lia. Qed.
Lemma other_fal c : (0 < c < 128)%N -> ~ tag_char c -> fal c = false.
Proof. unfold tag_char, fal, alnum, fold_icase, in_range. intros H Ht. destruct ((65 <=? c) && (c <=? 90))%N eqn:E1; [lia|]. destruct (N.eqb_spec c 304), (N.eqb_spec c 305), (N.eqb_spec c 383), (N.eqb_spec c 8490); cbn [orb]; lia. Qed.
Lemma tag_fold name : Forall tag_char name -> map fold_icase name = map SpecLines.ascii_lower name.
Proof. intros H. apply map_ext_in. intros c Hc. rewrite Forall_forall in H. specialize (H c Hc). unfold tag_char in H. destruct (fold_lower c) as [E|E]; [exact E|lia]. Qed.
Lemma opt_slash_inv p g q : RegexLang.L (RRep true 0 (Some 1) (RChr (ic 47))) p g q -> g = [] \/ g = [47%N].
Proof.
  intros H. apply RegexLang.L_rep_chr in H as (_ & Hl & H). cbn in Hl. destruct g as [|x [|y g]]; [left; reflexivity| |cbn in Hl; lia]. right. apply Forall_inv in H. apply ic_spec in H; [|reflexivity]. f_equal.
  unfold fold_icase, in_range in H. destruct ((65 <=? x) && (x <=? 90))%N eqn:E1; [lia|]. destruct (N.eqb_spec x 304), (N.eqb_spec x 305), (N.eqb_spec x 383), (N.eqb_spec x 8490); cbn [orb] in H; lia.
Qed.
Section Tag.
  Variables (sl name r : str).
  Hypothesis (Hs : sl = [] \/ sl = u "/") (Hn : name <> []) (Ha : Forall tag_char name) (Hr : forall c, hd_error r = Some c -> (0 < c < 128)%N /\ ~ tag_char c) (Hb : ~ In (map SpecLines.ascii_lower name) block_tags).
  Let Hf : Forall (fun c => fal c = true) name.
  Proof. eapply Forall_impl; [|exact Ha]. exact tag_fal. Qed.
  Let Hf' : forall c, hd_error r = Some c -> fal c = false.
  Proof. intros c E. destruct (Hr c E). apply other_fal; assumption. Qed.
  (** the word that was matched is the name *)
  Lemma tag_word ws w e q : incl ws block_tags -> In (map fold_icase w) ws -> (forall c, hd_error (e ++ q) = Some c -> fal c = false) -> name ++ r = w ++ e ++ q -> False.
  Proof.
    intros Hi Hw Hq E.
    assert (Hwf : Forall (fun c => fal c = true) w).
    { apply fal_fold. apply Hi in Hw. unfold block_tags in Hw. cbn [app] in Hw. destruct Hw as [<-|[<-|[<-|Hw]]]; try (repeat (constructor; [reflexivity|]); constructor). pose proof names_alnum as G. rewrite Forall_forall in G. apply G, Hw. }
    destruct (runs_unique fal name w r (e ++ q) Hf Hwf Hf' Hq E) as [<- _]. apply Hb. rewrite <- (tag_fold name Ha). apply Hi, Hw.
  Qed.
  Lemma words_slash ws w x y : incl ws block_tags -> In (map fold_icase w) ws -> 47%N :: x = w ++ y -> False.
  Proof.
    intros Hi Hw E. apply Hi in Hw. destruct w as [|z w]; [cbn [map] in Hw; unfold block_tags, SpecLines.block_names in Hw; cbn [app] in Hw; repeat (destruct Hw as [Hw|Hw]; [discriminate|]); destruct Hw|]. cbn [app] in E. injection E as <- _.
    cbn [map] in Hw. unfold block_tags, SpecLines.block_names in Hw. cbn [app] in Hw. repeat (destruct Hw as [Hw|Hw]; [discriminate|]); destruct Hw.
  Qed.
  Lemma tag_end1 e q p : RegexLang.L (RAlt (RChr (CS false true [CSpace])) (RAlt (RChr (ic 62)) REol)) p e q -> forall c, hd_error (e ++ q) = Some c -> fal c = false.
  Proof.
    intros He c0 H0. destruct He as [(z & -> & Hz)|[(z & -> & Hz)|[-> [-> | ->]]]]; cbn [app hd_error] in H0; try discriminate; injection H0 as <-.
    - apply space_fal. rewrite <- space_spec. exact Hz.
    - apply ic_spec in Hz; [|reflexivity]. unfold fal. rewrite Hz. reflexivity.
    - reflexivity.
  Qed.
  Lemma tag_end6 e q p : RegexLang.L (RAlt (RChr (CS false true [CSpace])) (RAlt (RSeq (RRep true 0 (Some 1) (RChr (ic 47))) (RChr (ic 62))) REol)) p e q -> forall c, hd_error (e ++ q) = Some c -> fal c = false.
  Proof.
    intros He c0 H0. destruct He as [(z & -> & Hz)|[(g1 & g2 & -> & H1 & z & -> & Hz)|[-> [-> | ->]]]]; cbn [app hd_error] in H0; try discriminate.
    - injection H0 as <-. apply space_fal. rewrite <- space_spec. exact Hz.
    - apply opt_slash_inv in H1 as [-> | ->]; cbn [app hd_error] in H0; injection H0 as <-; [|reflexivity]. apply ic_spec in Hz; [|reflexivity]. unfold fal. rewrite Hz. reflexivity.
    - injection H0 as <-. reflexivity.
  Qed.
  Lemma tag_none1 : re_test reHtmlBlockOpen1 (60%N :: sl ++ name ++ r) = false.
  Proof.
    apply not_true_is_false. intros H. apply RegexLang.re_test_L in H; [|vm_compute; reflexivity]. destruct H as (p & g & q & E & HL).
    rewrite open1_shape in HL. destruct HL as (g1 & g2 & -> & [-> Hp] & x & y & -> & (c & -> & Hc) & w & e & -> & Hw & He). apply bol_prefix in Hp. subst p. cbn [app] in E. injection E as E0 E.
    apply (words_L names1 _ _ _ _ words1) in Hw. rewrite <- app_assoc in E.
    assert (Hi : incl [u "script"; u "pre"; u "style"] block_tags) by (unfold block_tags; apply incl_appl, incl_refl).
    destruct Hs as [-> | ->]; cbn [app] in E; [exact (tag_word _ w e q Hi Hw (tag_end1 _ _ _ He) E)|exact (words_slash _ w _ _ Hi Hw E)].
  Qed.
  Lemma tag_none6 : re_test reHtmlBlockOpen6 (60%N :: sl ++ name ++ r) = false.
  Proof.
    apply not_true_is_false. intros H. apply RegexLang.re_test_L in H; [|vm_compute; reflexivity]. destruct H as (p & g & q & E & HL).
    rewrite open6_shape in HL. destruct HL as (g1 & g2 & -> & [-> Hp] & x & y & -> & (c & -> & Hc) & s & t & -> & Hsl & w & e & -> & Hw & He). apply bol_prefix in Hp. subst p. cbn [app] in E. injection E as E0 E.
    apply (words_L names6 _ _ _ _ words6) in Hw. rewrite <- !app_assoc in E.
    assert (Hi : incl (firstn 46 SpecLines.block_names ++ u "title" :: skipn 46 SpecLines.block_names) block_tags).
    { intros z Hz. unfold block_tags. apply in_or_app. right. apply in_app_or in Hz as [Hz|[<-|Hz]].
      - rewrite <- (firstn_skipn 46 SpecLines.block_names). apply in_or_app. left. exact Hz.
      - unfold SpecLines.block_names. cbn [In]. repeat (first [left; reflexivity|right]).
      - rewrite <- (firstn_skipn 46 SpecLines.block_names). apply in_or_app. right. exact Hz. }
    assert (Hnot : forall y z, name ++ y = 47%N :: z -> False). { intros y0 z X. destruct name as [|n0 nm]; [contradiction|]. injection X as -> _. apply Forall_inv in Hf. discriminate. }
    apply opt_slash_inv in Hsl as [-> | ->]; destruct Hs as [-> | ->]; cbn [app] in E.
    - exact (tag_word _ w e q Hi Hw (tag_end6 _ _ _ He) E).
    - exact (words_slash _ w _ _ Hi Hw E).
    - exact (Hnot _ _ E).
    - injection E as E. exact (tag_word _ w e q Hi Hw (tag_end6 _ _ _ He) E).
  Qed.
  Lemma tag_html : html_type (60%N :: sl ++ name ++ r) true = None.
  Proof.
    assert (G : exists x l, 60%N :: sl ++ name ++ r = 60%N :: x :: l /\ x <> 33%N /\ x <> 63%N).
    { destruct Hs as [-> | ->]; cbn [app]; [|exists 47%N; eexists; split; [reflexivity|split; discriminate]]. destruct name as [|n0 nm]; [contradiction|]. cbn [app]. exists n0. eexists. split; [reflexivity|].
      apply Forall_inv in Ha. unfold tag_char in Ha. lia. }
    destruct G as (x & l & E & X1 & X2).
    assert (E2 : re_test reHtmlBlockOpen2 (60%N :: x :: l) = false /\ re_test reHtmlBlockOpen3 (60%N :: x :: l) = false /\ re_test reHtmlBlockOpen4 (60%N :: x :: l) = false /\ re_test reHtmlBlockOpen5 (60%N :: x :: l) = false).
    { split; [apply (second_none reHtmlBlockOpen2 33)|split; [apply (second_none reHtmlBlockOpen3 63)|split; [apply (second_none reHtmlBlockOpen4 33)|apply (second_none reHtmlBlockOpen5 33)]]]; try assumption; try (vm_compute; reflexivity).
      all: eexists; eexists; (split; [vm_compute; reflexivity|]); (split; [|reflexivity]); (left; reflexivity) || (right; eexists; reflexivity). }
    destruct E2 as (E2 & E3 & E4 & E5). unfold html_type. cbn [seq find reHtmlBlockOpen nth]. rewrite tag_none1, tag_none6, E, E2, E3, E4, E5.
    cbn [andb]. change (Nat.ltb 7 7) with false. cbn [orb negb]. rewrite andb_false_r. reflexivity.
  Qed.
End Tag.

(** ** All of them *)
Lemma weak_stop l : weak_start l -> ~ In 10%N l -> ~ In 9%N l -> no_stop l.
Proof.
  intros H Hl Ht. destruct H as [c r Hc Hsp Hf Hu|c n Hc|c d r Hc Hd Hd'|c d r x Hc Hd Hx Hx1 Hx2|r x Hx Hx1 Hx2|c n r Hc Hn Hr|sl name r Hs Hn Ha Hr Hb|c r Hsp Hb Hu Ho].
  - pose proof (no_interrupt_words (c :: r) (Spaces 0) c eq_refl Hc) as G. cbn [ending_text repeat] in G. rewrite app_nil_r in G. destruct (G Hl Hf Hu) as (G1 & G2 & G3 & G4 & G5 & G6 & G7).
    split; [exact G1|]. split; [intros X; contradiction|]. repeat (split; [assumption|]). exact G7.
  - set (l := c :: repeat 32%N n) in *. assert (Hh : hd_error l = Some c) by reflexivity.
    split; [rewrite Hh; intros X; injection X as ->; lia|]. split; [rewrite Hh; intros X; injection X as ->; lia|]. split; [apply (atx_no l c Hl Hh); lia|]. split; [apply (fence_no l c Hh); lia|].
    split; [apply setext_none; [exact Hl|apply (under_no l c Hh); lia]|]. split.
    + apply rule_no; [exact Hl|]. intros (y & Hy & E & Hcount & _). rewrite Hh in E. injection E as <-. unfold l in Hcount. assert (G : count_char c (repeat 32%N n) = 0).
      { clear - Hc. induction n as [|n IH]; [reflexivity|]. cbn [repeat]. unfold count_char in *. cbn [filter]. destruct (N.eqb_spec c 32); [lia|]. try (destruct (N.eqb_spec 32 c); [lia|]). exact IH. }
      unfold count_char in *. cbn [filter] in Hcount. rewrite N.eqb_refl in Hcount. cbn [length] in Hcount. lia.
    + intros i m dt H. right. unfold list_marker in H. destruct (re_search reBulletListMarker l) as [mm|] eqn:E.
      * apply bullet_shape in E as (y & E1 & _). injection H as <- _. rewrite E1. cbn [length skipn]. unfold l. cbn [skipn]. apply nonspace_no.
      * exfalso. destruct (re_search reOrderedListMarker l) as [mm|] eqn:Eo; [|discriminate]. apply ordered_shape in Eo as (ds & y & _ & Eo & Hld & Hdd & _). destruct ds as [|z ds]; [cbn in Hld; lia|]. injection Eo as -> _. apply Forall_inv in Hdd. destruct Hc as [-> | ->]; discriminate.
  - set (l := c :: d :: r) in *. assert (Hh : hd_error l = Some c) by reflexivity. assert (Hd9 : d <> 9%N) by (intros ->; apply Ht; right; left; reflexivity).
    split; [rewrite Hh; intros X; injection X as ->; lia|]. split; [rewrite Hh; intros X; injection X as ->; lia|]. split; [|split; [apply (fence_no l c Hh); lia|]].
    + destruct Hc as [-> | ->]; [|apply (atx_no l 43 Hl Hh); lia]. destruct (re_search reATXHeadingMarker l) as [m|] eqn:E; [|reflexivity]. exfalso. assert (G : re_search reATXHeadingMarker l <> None) by congruence.
      apply (atx_iff l Hl) in G as (n & s & (Hn & _) & w & E2 & Hw & Hws & _). destruct n as [|[|n]]; [lia| |]; cbn [repeat app] in E2; unfold l in E2; injection E2 as E2; [|contradiction].
      destruct w as [|y w]; [rewrite (Hws eq_refl) in E2; discriminate|]. cbn [app] in E2. injection E2 as -> _. apply Forall_inv in Hw. lia.
    + split; [apply setext_none; [exact Hl|apply (under_no l c Hh); lia]|]. split; [apply rule_no; [exact Hl|apply (rule_hd l c Hh); destruct Hc as [-> | ->]; cbn; intuition discriminate]|].
      intros i m dt H. destruct Hc as [-> | ->].
      * rewrite (ordered_no l 35%N i Hh eq_refl) in H; [discriminate|]. apply (bullet_no l 35%N Hh). cbn. intuition discriminate.
      * left. apply (bullet_joined 43 d r i m dt); [cbn; tauto|exact Hd'|exact Hd9|exact H].
  - set (l := c :: d :: r) in *. assert (Hh : hd_error l = Some c) by reflexivity. assert (Hd9 : d <> 9%N) by (intros ->; apply Ht; right; left; reflexivity).
    assert (Hx9 : x <> 9%N) by (intros ->; apply Ht; right; exact Hx).
    split; [rewrite Hh; intros X; injection X as ->; lia|]. split; [rewrite Hh; intros X; injection X as ->; lia|]. split; [apply (atx_no l c Hl Hh); lia|]. split; [apply (fence_no l c Hh); lia|].
    split; [apply setext_none; [exact Hl|]|split; [apply rule_no; [exact Hl|]; apply (rule_other l c x Hh); try assumption; right; exact Hx|]].
    + intros [(n & w & E & Hw)|(n & w & E & Hw)]; [cbn [repeat app] in E; unfold l in E; injection E as E _; lia|]. assert (Hin : In x (repeat 45%N (S n) ++ w)) by (rewrite <- E; right; exact Hx).
      apply in_app_or in Hin as [Hin|Hin]; [apply repeat_spec in Hin; cbn [repeat app] in E; unfold l in E; injection E as E _; congruence|]. unfold blanks in Hw. rewrite Forall_forall in Hw. destruct (Hw x Hin); contradiction.
    + intros i m dt H. left. apply (bullet_joined c d r i m dt); [destruct Hc as [-> | ->]; cbn; tauto|exact Hd|exact Hd9|exact H].
  - set (l := 95%N :: r) in *. assert (Hh : hd_error l = Some 95%N) by reflexivity. assert (Hx9 : x <> 9%N) by (intros ->; apply Ht; right; exact Hx).
    split; [rewrite Hh; discriminate|]. split; [rewrite Hh; discriminate|]. split; [apply (atx_no l 95 Hl Hh); lia|]. split; [apply (fence_no l 95 Hh); lia|].
    split; [apply setext_none; [exact Hl|apply (under_no l 95 Hh); lia]|split; [apply rule_no; [exact Hl|]; apply (rule_other l 95 x Hh); try assumption; right; exact Hx|]].
    intros i m dt H. rewrite (ordered_no l 95%N i Hh eq_refl) in H; [discriminate|]. apply (bullet_no l 95%N Hh). cbn. intuition discriminate.
  - pose proof (few_ticks c n r Hc Hn Hr) as Hfe. set (l := c :: repeat c n ++ r) in *. assert (Hh : hd_error l = Some c) by reflexivity.
    split; [rewrite Hh; intros X; injection X as ->; lia|]. split; [rewrite Hh; intros X; injection X as ->; lia|]. split; [apply (atx_no l c Hl Hh); lia|]. split; [exact Hfe|].
    split; [apply setext_none; [exact Hl|apply (under_no l c Hh); lia]|]. split; [apply rule_no; [exact Hl|apply (rule_hd l c Hh); destruct Hc as [-> | ->]; cbn; intuition discriminate]|].
    intros i m dt H. rewrite (ordered_no l c i Hh) in H; [discriminate|destruct Hc as [-> | ->]; reflexivity|]. apply (bullet_no l c Hh). destruct Hc as [-> | ->]; cbn; intuition discriminate.
  - pose proof (tag_html sl name r Hs Hn Ha Hr Hb) as Hty. set (l := 60%N :: sl ++ name ++ r) in *. assert (Hh : hd_error l = Some 60%N) by reflexivity.
    split; [rewrite Hh; discriminate|]. split; [intros _; exact Hty|]. split; [apply (atx_no l 60 Hl Hh); lia|]. split; [apply (fence_no l 60 Hh); lia|].
    split; [apply setext_none; [exact Hl|apply (under_no l 60 Hh); lia]|]. split; [apply rule_no; [exact Hl|apply (rule_hd l 60 Hh); cbn; intuition discriminate]|].
    intros i m dt H. rewrite (ordered_no l 60%N i Hh eq_refl) in H; [discriminate|]. apply (bullet_no l 60%N Hh). cbn. intuition discriminate.
  - apply other_stop; try assumption. intros x Hx Hodd. apply (Ho x Hx). right. exact Hodd.
Qed.
