(** * Patterns that are lists of words; which lines begin an HTML block of a block-level tag: C40 *)
From Verif Require Import Base Regex Common NormRef Node Inlines Blocks RegexFacts StrFacts Spec SpecLines CommonFacts RuleFacts.
From Verif Require RegexLang.
From Coq Require Import ZifyBool ZifyNat ZifyN.

(** ** The words of a pattern *)
Definition letter (cs : cset) : option N :=
  match cs_neg cs, cs_icase cs, cs_items cs with
  | false, true, [CRange lo hi] => if N.eqb lo hi && negb (in_range 65 90 lo) then Some lo else None
  | _, _, _ => None
  end.
Fixpoint words (r : regex) : option (list str) :=
  match r with
  | REps => Some [[]]
  | RChr cs => match letter cs with Some c => Some [[c]] | None => None end
  | RSeq a b =>
      match words a, words b with
      | Some x, Some y => Some (flat_map (fun w => map (app w) y) x)
      | _, _ => None
      end
  | RAlt a b =>
      match words a, words b with
      | Some x, Some y => Some (x ++ y)
      | _, _ => None
      end
  | _ => None
  end.
Lemma letter_match cs c x : letter cs = Some c -> cmatch cs x = true <-> fold_icase x = c.
Proof.
  destruct cs as [neg ic its]. unfold letter. cbn [cs_neg cs_icase cs_items]. destruct neg; [discriminate|]. destruct ic; [|discriminate]. destruct its as [|[lo hi| | |] [|? ?]]; try discriminate.
  destruct (N.eqb_spec lo hi) as [<-|]; [|discriminate]. destruct (in_range 65 90 lo) eqn:E; [discriminate|]. cbn [negb andb]. intros [= <-].
  unfold cmatch. cbn [cs_neg cs_icase cs_items existsb item_match]. cbv zeta. rewrite xorb_false_l, orb_false_r. generalize (fold_icase x). intros f. unfold in_range in *. split; [intros H|intros ->]; lia.
Qed.
Lemma words_L r : forall ws p g q, words r = Some ws -> RegexLang.L r p g q <-> In (map fold_icase g) ws.
Proof.
  induction r as [|cs|a IHa b IHb|a IHa b IHb| | | | | |]; intros ws p g q; cbn [words]; try discriminate.
  - intros [= <-]. cbn [RegexLang.L In]. split; [intros ->; left; reflexivity|]. intros [H|[]]. destruct g; [reflexivity|discriminate].
  - destruct (letter cs) as [c|] eqn:E; [|discriminate]. intros [= <-]. cbn [RegexLang.L In]. split.
    + intros (x & -> & H). apply (letter_match cs c x E) in H. left. cbn [map]. rewrite H. reflexivity.
    + intros [H|[]]. destruct g as [|x [|y g]]; try discriminate. injection H as H. exists x. split; [reflexivity|]. apply (letter_match cs c x E). symmetry. exact H.
  - destruct (words a) as [x|]; [|discriminate]. destruct (words b) as [y|]; [|discriminate]. intros [= <-]. cbn [RegexLang.L]. rewrite in_flat_map. split.
    + intros (g1 & g2 & -> & H1 & H2). apply (IHa _ _ _ _ eq_refl) in H1. apply (IHb _ _ _ _ eq_refl) in H2. exists (map fold_icase g1). split; [exact H1|]. rewrite map_app. apply in_map. exact H2.
    + intros (w & Hw & H). apply in_map_iff in H as (v & E & Hv). symmetry in E. apply map_eq_app in E as (g1 & g2 & -> & <- & <-). exists g1, g2. split; [reflexivity|]. split; [apply (IHa _ _ _ _ eq_refl), Hw|apply (IHb _ _ _ _ eq_refl), Hv].
  - destruct (words a) as [x|]; [|discriminate]. destruct (words b) as [y|]; [|discriminate]. intros [= <-]. cbn [RegexLang.L]. rewrite in_app_iff, (IHa _ _ _ _ eq_refl), (IHb _ _ _ _ eq_refl). reflexivity.
Qed.

(** ** Lines that begin with a block-level tag *)
Lemma fold_lower c : fold_icase c = ascii_lower c \/ (127 < c)%N.
Proof. unfold fold_icase, ascii_lower, in_range. destruct ((65 <=? c) && (c <=? 90))%N eqn:E; [auto|]. destruct (N.eqb_spec c 304), (N.eqb_spec c 305), (N.eqb_spec c 383), (N.eqb_spec c 8490); cbn [orb]; auto; right; lia. Qed.
Definition alnum (c : N) : bool := in_range 97 122 c || in_range 48 57 c.
Lemma fold_name name : Forall (fun c => alnum c = true) (map ascii_lower name) -> map fold_icase name = map ascii_lower name.
Proof.
  intros H. apply map_ext_in. intros c Hc. rewrite Forall_forall in H. specialize (H (ascii_lower c) (in_map _ _ _ Hc)). destruct (fold_lower c) as [E|E]; [exact E|].
  exfalso. unfold ascii_lower, alnum, in_range in H. destruct ((65 <=? c) && (c <=? 90))%N eqn:E2; lia.
Qed.
Lemma names_alnum : Forall (Forall (fun c => alnum c = true)) block_names.
Proof. unfold block_names. repeat (constructor; [repeat (constructor; [reflexivity|]); constructor|]). constructor. Qed.
Lemma runs_unique (al : N -> bool) : forall a b r r', Forall (fun c => al c = true) a -> Forall (fun c => al c = true) b ->
  (forall c, hd_error r = Some c -> al c = false) -> (forall c, hd_error r' = Some c -> al c = false) -> a ++ r = b ++ r' -> a = b /\ r = r'.
Proof.
  induction a as [|x a IH]; intros [|y b] r r' Ha Hb Hr Hr' E; cbn [app] in E.
  - auto.
  - subst r. specialize (Hr y eq_refl). pose proof (Forall_inv Hb). congruence.
  - subst r'. specialize (Hr' x eq_refl). pose proof (Forall_inv Ha). congruence.
  - injection E as -> E. destruct (IH b r r' (Forall_inv_tail Ha) (Forall_inv_tail Hb) Hr Hr' E). subst. auto.
Qed.
Definition fal (c : N) : bool := alnum (fold_icase c).
Lemma fal_fold a : Forall (fun c => alnum c = true) (map fold_icase a) -> Forall (fun c => fal c = true) a.
Proof. intros H. apply Forall_forall. intros c Hc. rewrite Forall_forall in H. apply H, in_map, Hc. Qed.
Lemma space_fal c : is_space c = true -> fal c = false.
Proof. unfold fal, alnum, fold_icase, is_space, in_range. intros H. destruct ((65 <=? c) && (c <=? 90))%N eqn:E1; [lia|]. destruct (N.eqb_spec c 304), (N.eqb_spec c 305), (N.eqb_spec c 383), (N.eqb_spec c 8490); cbn [orb]; lia. Qed.
Lemma after_fal rest : after_name rest -> forall c, hd_error rest = Some c -> fal c = false.
Proof. intros [->|(x & r & -> & H)] c E; [discriminate|]. injection E as <-. destruct H as [H|[-> | [-> _]]]; [apply space_fal, H|reflexivity|reflexivity]. Qed.

(** the parts of the two patterns *)
Definition ic (c : N) : cset := CS false true [CRange c c].
Definition names6 : regex := match reHtmlBlockOpen6 with RSeq _ (RSeq _ (RSeq _ (RSeq x _))) => x | _ => REps end.
Definition names1 : regex := match reHtmlBlockOpen1 with RSeq _ (RSeq _ (RSeq x _)) => x | _ => REps end.
Lemma open6_shape : reHtmlBlockOpen6 = RSeq RBol (RSeq (RChr (ic 60)) (RSeq (RRep true 0 (Some 1) (RChr (ic 47))) (RSeq names6
  (RAlt (RChr (CS false true [CSpace])) (RAlt (RSeq (RRep true 0 (Some 1) (RChr (ic 47))) (RChr (ic 62))) REol))))).
Proof. vm_compute. reflexivity. Qed.
Lemma open1_shape : reHtmlBlockOpen1 = RSeq RBol (RSeq (RChr (ic 60)) (RSeq names1 (RAlt (RChr (CS false true [CSpace])) (RAlt (RChr (ic 62)) REol)))).
Proof. vm_compute. reflexivity. Qed.
Lemma words6 : words names6 = Some (firstn 46 block_names ++ u "title" :: skipn 46 block_names).
Proof. vm_compute. reflexivity. Qed.
Lemma words1 : words names1 = Some [u "script"; u "pre"; u "style"].
Proof. vm_compute. reflexivity. Qed.
Lemma names6_L w p q : In (map fold_icase w) block_names -> RegexLang.L names6 p w q.
Proof.
  intros H. apply (words_L names6 _ p w q words6). rewrite <- (firstn_skipn 46 block_names) in H. apply in_app_or in H. apply in_or_app. destruct H; [left; assumption|right; right; assumption].
Qed.
Lemma ic_spec c x : in_range 65 90 c = false -> cmatch (ic c) x = true <-> fold_icase x = c.
Proof. intros H. apply letter_match. unfold letter, ic. cbn [cs_neg cs_icase cs_items]. rewrite N.eqb_refl, H. reflexivity. Qed.
Lemma space_spec x : cmatch (CS false true [CSpace]) x = is_space x.
Proof. unfold cmatch. cbn [cs_neg cs_icase cs_items existsb item_match]. rewrite xorb_false_l, orb_false_r. reflexivity. Qed.

Lemma opt_slash p g q : g = [] \/ g = [47%N] -> RegexLang.L (RRep true 0 (Some 1) (RChr (ic 47))) p g q.
Proof.
  intros [-> | ->]; [exists 0|exists 1]; (split; [lia|split; [cbn; lia|]]); cbn [RegexLang.Lrep]; [reflexivity|]. exists [47%N], []. split; [reflexivity|]. split; [|reflexivity]. exists 47%N. split; [reflexivity|]. apply ic_spec; reflexivity.
Qed.
Lemma html6_match l : opens_html l -> re_test reHtmlBlockOpen6 l = true.
Proof.
  intros (slash & name & rest & -> & Hs & Hn & Hr).
  assert (En : map fold_icase name = map ascii_lower name). { apply fold_name. pose proof names_alnum as G. rewrite Forall_forall in G. apply G, Hn. }
  rewrite <- En in Hn.
  assert (G : exists e q, rest = e ++ q /\ forall p, RegexLang.L (RAlt (RChr (CS false true [CSpace])) (RAlt (RSeq (RRep true 0 (Some 1) (RChr (ic 47))) (RChr (ic 62))) REol)) p e q).
  { destruct Hr as [->|(c & r & -> & [H|[->|[-> H]]])].
    - exists [], []. split; [reflexivity|]. intros p. right. right. split; [reflexivity|auto].
    - exists [c], r. split; [reflexivity|]. intros p. left. exists c. split; [reflexivity|]. rewrite space_spec. exact H.
    - exists [62%N], r. split; [reflexivity|]. intros p. right. left. exists [], [62%N]. split; [reflexivity|]. split; [apply opt_slash; auto|]. exists 62%N. split; [reflexivity|]. apply ic_spec; reflexivity.
    - destruct r as [|y r]; [discriminate|]. injection H as ->. exists [47%N; 62%N], r. split; [reflexivity|]. intros p. right. left. exists [47%N], [62%N]. split; [reflexivity|]. split; [apply opt_slash; auto|]. exists 62%N. split; [reflexivity|]. apply ic_spec; reflexivity. }
  destruct G as (e & q & -> & G). apply RegexLang.re_test_L; [vm_compute; reflexivity|]. exists [], (60%N :: slash ++ name ++ e), q. split; [cbn [app]; rewrite <- !app_assoc; reflexivity|].
  rewrite open6_shape. exists [], (60%N :: slash ++ name ++ e). split; [reflexivity|]. split; [split; reflexivity|].
  exists [60%N], (slash ++ name ++ e). split; [reflexivity|]. split; [exists 60%N; split; [reflexivity|apply ic_spec; reflexivity]|].
  exists slash, (name ++ e). split; [reflexivity|]. split; [apply opt_slash, Hs|]. exists name, e. split; [reflexivity|]. split; [apply names6_L, Hn|apply G].
Qed.
Lemma bol_prefix p : prev_of None p = None -> p = [].
Proof. unfold prev_of. destruct p as [|c p] using rev_ind; [reflexivity|]. rewrite last_opt_app. discriminate. Qed.
Lemma html1_none l : opens_html l -> re_test reHtmlBlockOpen1 l = false.
Proof.
  intros (slash & name & rest & -> & Hs & Hn & Hr). apply not_true_is_false. intros H. apply RegexLang.re_test_L in H; [|vm_compute; reflexivity]. destruct H as (p & g & q & E & HL).
  rewrite open1_shape in HL. destruct HL as (g1 & g2 & -> & [-> Hp] & x & y & -> & (c & -> & Hc) & w & e & -> & Hw & He). apply bol_prefix in Hp. subst p. cbn [app] in E. injection E as E0 E.
  assert (En : map fold_icase name = map ascii_lower name). { apply fold_name. pose proof names_alnum as G. rewrite Forall_forall in G. apply G, Hn. }
  rewrite <- En in Hn. assert (Ha : Forall (fun c => fal c = true) name). { apply fal_fold. pose proof names_alnum as G. rewrite Forall_forall in G. apply G, Hn. }
  apply (words_L names1 _ _ _ _ words1) in Hw.
  assert (Hb : Forall (fun c => fal c = true) w). { apply fal_fold. destruct Hw as [<-|[<-|[<-|[]]]]; repeat (constructor; [reflexivity|]); constructor. }
  assert (Hq : forall c0, hd_error (e ++ q) = Some c0 -> fal c0 = false).
  { intros c0 H0. destruct He as [(z & -> & Hz)|[(z & -> & Hz)|[-> [-> | ->]]]]; cbn [app hd_error] in H0; try discriminate; injection H0 as <-.
    - apply space_fal. rewrite <- space_spec. exact Hz.
    - apply ic_spec in Hz; [|reflexivity]. unfold fal. rewrite Hz. reflexivity.
    - reflexivity. }
  destruct Hs as [-> | ->]; cbn [app] in E.
  - rewrite <- app_assoc in E. destruct (runs_unique fal name w rest (e ++ q) Ha Hb (after_fal rest Hr) Hq E) as [-> _].
    revert Hn Hw. clear. intros Hn Hw. unfold block_names in Hn. destruct Hw as [Hw|[Hw|[Hw|[]]]]; rewrite <- Hw in Hn; repeat (destruct Hn as [Hn|Hn]; [discriminate|]); destruct Hn.
  - destruct w as [|z w]; [destruct Hw as [Hw|[Hw|[Hw|[]]]]; discriminate|]. cbn [app] in E. injection E as <- _. pose proof (Forall_inv Hb). discriminate.
Qed.

(** a line whose second character is neither ! nor ? does not begin blocks of the types 2 to 5 *)
Definition second (r : regex) (c : N) : Prop := exists cs r', r = RSeq RBol (RSeq (RChr (cs1 60)) r') /\ (r' = RChr cs \/ exists r'', r' = RSeq (RChr cs) r'') /\ cs = cs1 c.
Lemma second_none r c x l : second r c -> RegexLang.good r = true -> x <> c -> re_test r (60%N :: x :: l) = false.
Proof.
  intros (cs & r' & -> & Hr & ->) Hg Hx. apply not_true_is_false. intros H. apply RegexLang.re_test_L in H; [|exact Hg]. destruct H as (p & g & q & E & g1 & g2 & -> & [-> Hp] & a & b & -> & (y & -> & Hy) & Hb). apply bol_prefix in Hp. subst p. cbn [app] in E. injection E as <- E.
  assert (G : exists b', b = c :: b').
  { destruct Hr as [->|(r'' & ->)].
    - destruct Hb as (z & -> & Hz). rewrite cs1_spec in Hz. apply N.eqb_eq in Hz as ->. eexists. reflexivity.
    - destruct Hb as (b1 & b2 & -> & (z & -> & Hz) & _). rewrite cs1_spec in Hz. apply N.eqb_eq in Hz as ->. eexists. reflexivity. }
  destruct G as (b' & ->). cbn [app] in E. injection E as E _. congruence.
Qed.
Lemma opens_second l : opens_html l -> exists x l', l = 60%N :: x :: l' /\ x <> 33%N /\ x <> 63%N.
Proof.
  intros (slash & name & rest & -> & Hs & Hn & Hr). destruct Hs as [-> | ->]; cbn [app]; [|exists 47%N; eexists; split; [reflexivity|split; discriminate]].
  destruct name as [|x name]; [exfalso; cbn [map] in Hn; unfold block_names in Hn; repeat (destruct Hn as [Hn|Hn]; [discriminate|]); destruct Hn|].
  exists x. eexists. split; [reflexivity|]. pose proof names_alnum as G. rewrite Forall_forall in G. specialize (G _ Hn). apply Forall_inv in G. split; intros ->; discriminate.
Qed.
Theorem html_type6 l para : opens_html l -> html_type l para = Some 6.
Proof.
  intros H. destruct (opens_second l H) as (x & l' & E & X1 & X2). unfold html_type. cbn [seq find reHtmlBlockOpen nth].
  rewrite (html1_none l H), (html6_match l H), E.
  rewrite (second_none reHtmlBlockOpen2 33), (second_none reHtmlBlockOpen3 63), (second_none reHtmlBlockOpen4 33), (second_none reHtmlBlockOpen5 33); try assumption; try (vm_compute; reflexivity).
  all: eexists; eexists; (split; [vm_compute; reflexivity|]); (split; [|reflexivity]); (left; reflexivity) || (right; eexists; reflexivity).
Qed.
