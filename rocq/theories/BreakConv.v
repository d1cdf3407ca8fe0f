(** * The lines that interrupt a paragraph are all listed (C62, C63) *)
From Verif Require Import Base Regex Common NormRef Node Inlines Blocks RegexFacts StrFacts Spec SpecTree SpecSame SpecLines SpecParas SpecBreak
  CommonFacts BlockFacts LineFacts DocFacts TextFacts RuleFacts MarkFacts WordFacts ParaFacts ParaDoc FenceFacts TagFacts WeakFacts.
From Verif Require RegexLang.
Import SpecParas.
From Coq Require Import ZifyBool ZifyNat ZifyN.

(** the letters that match an ASCII letter when the case is ignored *)
Definition odd_letter (c : N) : Prop := In c [304; 305; 383; 8490]%N.
Lemma fold_even c : ~ odd_letter c -> fold_icase c = ascii_lower c.
Proof. intros H. unfold odd_letter in H. cbn [In] in H. unfold fold_icase, ascii_lower, in_range. destruct ((65 <=? c) && (c <=? 90))%N eqn:E; [reflexivity|]. destruct (N.eqb_spec c 304), (N.eqb_spec c 305), (N.eqb_spec c 383), (N.eqb_spec c 8490); cbn [orb]; try reflexivity; exfalso; apply H; auto. Qed.
Lemma fold_even_all s : (forall c, In c s -> ~ odd_letter c) -> map fold_icase s = map ascii_lower s.
Proof. intros H. apply map_ext_in. intros c Hc. apply fold_even, H, Hc. Qed.
Lemma fold_mark x c : in_range 97 122 c = false -> fold_icase x = c -> x = c.
Proof. unfold fold_icase, in_range. intros Hc H. destruct ((65 <=? x) && (x <=? 90))%N eqn:E1; [lia|]. destruct (N.eqb_spec x 304), (N.eqb_spec x 305), (N.eqb_spec x 383), (N.eqb_spec x 8490); cbn [orb] in H; lia. Qed.
Lemma ic_mark c x : in_range 65 90 c = false -> in_range 97 122 c = false -> cmatch (ic c) x = true -> x = c.
Proof. intros H1 H2 H. apply ic_spec in H; [|exact H1]. apply fold_mark; assumption. Qed.
Lemma opt_slash_back p g q : RegexLang.L (RRep true 0 (Some 1) (RChr (ic 47))) p g q -> g = [] \/ g = [47%N].
Proof.
  intros H. apply RegexLang.L_rep_chr in H as (_ & Hl & H). cbn in Hl. destruct g as [|x [|y g]]; [left; reflexivity| |cbn in Hl; lia]. right. apply Forall_inv in H. apply ic_mark in H; [congruence|reflexivity|reflexivity].
Qed.

Lemma nonspace_text s : re_test reNonSpace s = true -> has_text s.
Proof.
  assert (Es : exists cs, reNonSpace = RChr cs /\ forall x, cmatch cs x = true -> ~ In x [9; 10; 11; 12; 13; 32]%N).
  { eexists. split; [vm_compute; reflexivity|]. intros y Hy Hin. cbn [In] in Hin. repeat (destruct Hin as [<-|Hin]; [vm_compute in Hy; discriminate|]). destruct Hin. }
  destruct Es as (cs & -> & Hc). rewrite re_test_chr. intros H. apply existsb_exists in H as (x & Hx & Hm). exists x. split; [exact Hx|apply Hc, Hm].
Qed.

Lemma run_split (c : N) : forall s, exists n t, s = repeat c n ++ t /\ hd_error t <> Some c.
Proof.
  induction s as [|x s (n & t & -> & Ht)]; [exists 0, []; split; [reflexivity|discriminate]|].
  destruct (N.eq_dec x c) as [->|N]; [exists (S n), t; auto|]. exists 0, (x :: repeat c n ++ t). split; [reflexivity|]. cbn. congruence.
Qed.
Lemma fence_back l : ~ In 10%N l -> re_search reCodeFence l <> None -> exists c n info, opens_fence l c n info.
Proof.
  intros Hl H. destruct (re_search reCodeFence l) as [m|] eqn:E; [|congruence]. apply RegexLang.re_search_L in E as (El & HL); [|vm_compute; reflexivity]. rewrite reCodeFence_shape in HL. destruct HL as [HL|HL].
  - apply L_ticks_open in HL as (Hp & L1 & L2 & L3). apply bol_prefix in Hp. rewrite Hp in El. cbn [app] in El. assert (Hq : ~ In 96%N (rm_after m)) by (apply L3; intros x Hx ->; apply Hl; rewrite El; apply in_or_app; right; exact Hx).
    exists 96%N, (length (rm_group m)), (rm_after m). split; [rewrite <- L2; exact El|]. split; [left; reflexivity|]. split; [exact L1|]. split; [|auto]. destruct (rm_after m); [discriminate|]. intros X. injection X as ->. apply Hq. left. reflexivity.
  - destruct HL as (g1 & g2 & Eg & [-> Hp] & HL). cbn [app] in Eg. subst g2. apply bol_prefix in Hp. rewrite Hp in El. cbn [app] in El. apply L_run in HL as [L1 L2]. destruct (run_split 126%N (rm_after m)) as (k & t & Et & Ht).
    exists 126%N, (length (rm_group m) + k), t. split; [rewrite El, Et, repeat_app, <- app_assoc, <- L2; reflexivity|]. split; [right; reflexivity|]. split; [lia|]. split; [exact Ht|discriminate].
Qed.

Section Html.
  Variable l : str.
  Hypothesis (Hl : ~ In 10%N l) (Ho : forall c, In c l -> ~ odd_letter c).
  Lemma part_even w p q : l = p ++ w ++ q -> forall c, In c w -> ~ odd_letter c.
  Proof. intros E c Hc. apply Ho. rewrite E. apply in_or_app. right. apply in_or_app. left. exact Hc. Qed.
  Lemma open1_back : re_test reHtmlBlockOpen1 l = true -> break_start l.
  Proof.
    intros H. apply RegexLang.re_test_L in H; [|vm_compute; reflexivity]. destruct H as (p & g & q & E & HL).
    rewrite open1_shape in HL. destruct HL as (g1 & g2 & -> & [-> Hp] & x & y & -> & (c & -> & Hc) & w & e & -> & Hw & He). apply bol_prefix in Hp. subst p. apply ic_mark in Hc; [|reflexivity|reflexivity]. subst c. cbn [app] in E. rewrite <- app_assoc in E.
    apply (words_L names1 _ _ _ _ words1) in Hw. rewrite fold_even_all in Hw by (apply (part_even w [60%N] (e ++ q)); exact E). rewrite E. apply break_raw; [exact Hw|].
    destruct He as [(z & -> & Hz)|[(z & -> & Hz)|[-> Hq]]].
    - right. exists z, q. split; [reflexivity|]. left. rewrite <- space_spec. exact Hz.
    - right. exists z, q. split; [reflexivity|]. right. apply ic_mark in Hz; [exact Hz|reflexivity|reflexivity].
    - left. destruct Hq as [-> | ->]; [reflexivity|]. exfalso. apply Hl. rewrite E. right. apply in_or_app. right. left. reflexivity.
  Qed.
  Lemma open6_back : re_test reHtmlBlockOpen6 l = true -> break_start l.
  Proof.
    intros H. apply RegexLang.re_test_L in H; [|vm_compute; reflexivity]. destruct H as (p & g & q & E & HL).
    rewrite open6_shape in HL. destruct HL as (g1 & g2 & -> & [-> Hp] & x & y & -> & (c & -> & Hc) & s & t & -> & Hsl & w & e & -> & Hw & He). apply bol_prefix in Hp. subst p. apply ic_mark in Hc; [|reflexivity|reflexivity]. subst c. cbn [app] in E. rewrite <- !app_assoc in E.
    apply (words_L names6 _ _ _ _ words6) in Hw. rewrite fold_even_all in Hw by (apply (part_even w (60%N :: s) (e ++ q)); exact E). apply opt_slash_back in Hsl.
    apply break_tag. exists s, w, (e ++ q). split; [exact E|]. split; [exact Hsl|]. split.
    - apply in_app_or in Hw as [Hw|[<-|Hw]].
      + rewrite <- (firstn_skipn 46 block_names). apply in_or_app. left. exact Hw.
      + unfold block_names. cbn [In]. repeat (first [left; reflexivity|right]).
      + rewrite <- (firstn_skipn 46 block_names). apply in_or_app. right. exact Hw.
    - destruct He as [(z & -> & Hz)|[(a & b & -> & H1 & z & -> & Hz)|[-> Hq]]].
      + right. exists z, q. split; [reflexivity|]. left. rewrite <- space_spec. exact Hz.
      + apply ic_mark in Hz; [|reflexivity|reflexivity]. subst z. apply opt_slash_back in H1 as [-> | ->]; right; do 2 eexists; (split; [reflexivity|]); auto.
      + left. destruct Hq as [-> | ->]; [reflexivity|]. exfalso. apply Hl. rewrite E. right. apply in_or_app. right. apply in_or_app. right. left. reflexivity.
  Qed.
  (** the four patterns that begin with fixed characters *)
  Fixpoint chars (cs : str) (r : regex) : regex := match cs with [] => r | c :: cs' => RSeq (RChr (cs1 c)) (chars cs' r) end.
  Lemma chars_L : forall cs r p g q, RegexLang.L (chars cs r) p g q -> exists p' g', g = cs ++ g' /\ RegexLang.L r p' g' q.
  Proof.
    induction cs as [|c cs IH]; intros r p g q H; [exists p, g; auto|]. cbn [chars] in H. destruct H as (g1 & g2 & -> & (x & -> & Hx) & H). rewrite cs1_spec in Hx. apply N.eqb_eq in Hx as ->. apply IH in H as (p' & g' & -> & H). exists p', g'. auto.
  Qed.
  Lemma chars_back cs c0 r : r = RSeq RBol (chars cs (RChr c0)) -> RegexLang.good r = true -> re_test r l = true -> exists x t, l = cs ++ x :: t /\ cmatch c0 x = true.
  Proof.
    intros -> Hg H. apply RegexLang.re_test_L in H; [|exact Hg]. destruct H as (p & g & q & E & g1 & g2 & -> & [-> Hp] & HL). apply bol_prefix in Hp. subst p. apply chars_L in HL as (p' & g' & -> & (x & -> & Hx)). cbn [app] in E. rewrite <- app_assoc in E. exists x, q. auto.
  Qed.
  Lemma open2_back : re_test reHtmlBlockOpen2 l = true -> break_start l.
  Proof. intros H. apply (chars_back (u "<!-") (cs1 45)) in H as (x & t & -> & Hx); [|vm_compute; reflexivity|vm_compute; reflexivity]. rewrite cs1_spec in Hx. apply N.eqb_eq in Hx as ->. apply (break_comment t). Qed.
  Lemma open3_back : re_test reHtmlBlockOpen3 l = true -> break_start l.
  Proof. intros H. apply (chars_back (u "<") (cs1 63)) in H as (x & t & -> & Hx); [|vm_compute; reflexivity|vm_compute; reflexivity]. rewrite cs1_spec in Hx. apply N.eqb_eq in Hx as ->. apply (break_instruction t). Qed.
  Lemma open4_back : re_test reHtmlBlockOpen4 l = true -> break_start l.
  Proof. intros H. apply (chars_back (u "<!") (CS false false [CRange 65 90])) in H as (x & t & -> & Hx); [|vm_compute; reflexivity|vm_compute; reflexivity]. apply break_declaration. unfold cmatch in Hx. cbn [cs_neg cs_icase cs_items existsb item_match] in Hx. rewrite xorb_false_l, orb_false_r in Hx. unfold in_range in Hx. lia. Qed.
  Lemma open5_back : re_test reHtmlBlockOpen5 l = true -> break_start l.
  Proof. intros H. apply (chars_back (u "<![CDATA") (cs1 91)) in H as (x & t & -> & Hx); [|vm_compute; reflexivity|vm_compute; reflexivity]. rewrite cs1_spec in Hx. apply N.eqb_eq in Hx as ->. apply (break_cdata t). Qed.
  Lemma html_back : html_type l true <> None -> break_start l.
  Proof.
    intros H. unfold html_type in H. cbn [seq find reHtmlBlockOpen nth] in H. change (Nat.ltb 7 7) with false in H. cbn [orb negb] in H. rewrite !andb_false_r in H.
    destruct (re_test reHtmlBlockOpen1 l) eqn:E1; [apply open1_back, E1|]. destruct (re_test reHtmlBlockOpen2 l) eqn:E2; [apply open2_back, E2|]. destruct (re_test reHtmlBlockOpen3 l) eqn:E3; [apply open3_back, E3|].
    destruct (re_test reHtmlBlockOpen4 l) eqn:E4; [apply open4_back, E4|]. destruct (re_test reHtmlBlockOpen5 l) eqn:E5; [apply open5_back, E5|]. destruct (re_test reHtmlBlockOpen6 l) eqn:E6; [apply open6_back, E6|].
    exfalso. apply H. reflexivity.
  Qed.
End Html.

Lemma text_tail b r : b = 32%N \/ b = 9%N -> has_text (b :: r) -> has_text r.
Proof. intros Hb (x & [<-|Hx] & Hn); [exfalso; apply Hn; destruct Hb as [-> | ->]; cbn; tauto|exists x; auto]. Qed.
Lemma list_back l i m dt : ~ break_start l -> list_marker l true i = Some (m, dt) -> (exists c, nth_error l (length m) = Some c /\ c <> SP /\ c <> TAB) \/ re_test reNonSpace (skipn (length m) l) = false.
Proof.
  intros Hb H. destruct (re_test reNonSpace (skipn (length m) l)) eqn:Et; [left|right; reflexivity]. apply nonspace_text in Et.
  assert (G : exists b r, skipn (length m) l = b :: r /\ (b = 32%N \/ b = 9%N -> has_text r -> break_start l)).
  { unfold list_marker in H. destruct (re_search reBulletListMarker l) as [m0|] eqn:E.
    - injection H as <- _. apply bullet_shape in E as (x & Eg & Hx & El). rewrite Eg in *. rewrite El in Et |- *. cbn [length skipn] in *. destruct (rm_after m0) as [|b r]; [destruct Et as (? & [] & _)|]. exists b, r. split; [reflexivity|]. intros B T. apply break_bullet; [|exact B|exact T]. repeat (destruct Hx as [<-|Hx]; [cbn; tauto|]). destruct Hx.
    - destruct (re_search reOrderedListMarker l) as [m0|] eqn:E0; [|discriminate]. apply ordered_shape in E0 as (ds & d & Eg & El & _ & _ & Hd & E1 & _). rewrite E1 in H. cbn [or_empty negb orb] in H. destruct (str_eqb ds (u "1")) eqn:Ed; [|discriminate]. apply str_eqb_eq in Ed. subst ds. injection H as <- _. rewrite Eg in *. rewrite El in Et |- *. cbn [u app length skipn] in *.
      destruct (rm_after m0) as [|b r]; [destruct Et as (? & [] & _)|]. exists b, r. split; [reflexivity|]. intros B T. apply (break_number d b r); [|exact B|exact T]. destruct Hd as [<-|[<-|[]]]; auto. }
  destruct G as (b & r & Es & G). exists b. split; [rewrite <- (Nat.add_0_r (length m)), <- nth_error_skipn, Es; reflexivity|]. rewrite Es in Et. split; intros ->; apply Hb, G; auto; [apply (text_tail 32%N)|apply (text_tail 9%N)]; auto.
Qed.

Theorem other_stop l : ~ In 10%N l -> (forall c, In c l -> ~ odd_letter c) -> ~ break_start l -> ~ underline l -> no_stop l.
Proof.
  intros Hl Ho Hb Hu. split; [|split; [|split; [|split; [|split; [|split]]]]].
  - destruct l as [|c r]; [discriminate|]. intros X. injection X as ->. apply Hb. constructor.
  - intros _. destruct (html_type l true) eqn:E; [|reflexivity]. exfalso. apply Hb, (html_back l Hl Ho). congruence.
  - destruct (re_search reATXHeadingMarker l) eqn:E; [|reflexivity]. exfalso. assert (G : re_search reATXHeadingMarker l <> None) by congruence. apply atx_iff in G as (n & s & G); [|exact Hl]. apply Hb. eapply break_heading, G.
  - destruct (re_search reCodeFence l) eqn:E; [|reflexivity]. exfalso. destruct (fence_back l Hl) as (c & n & info & G); [congruence|]. apply Hb. eapply break_fence, G.
  - apply setext_none; assumption.
  - apply not_true_is_false. intros E. apply thematic_iff in E; [|exact Hl]. apply Hb, break_rule; assumption.
  - intros i m dt. apply list_back, Hb.
Qed.
