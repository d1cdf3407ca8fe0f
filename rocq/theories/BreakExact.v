(** * A line ends the paragraph before it exactly if it is in the list (C64) *)
From Verif Require Import Base Regex Common NormRef Node Inlines Blocks Html Main RegexFacts StrFacts Spec SpecTree SpecSame SpecLines SpecParas SpecBreak SpecLazy SpecWeak SpecJoin
  CommonFacts BlockFacts LineFacts RuleFacts MarkFacts FenceFacts TagFacts WeakFacts WeakStart WeakSim BreakConv BreakLine BreakForm BreakFacts.
Import SpecParas.
From Coq Require Import ZifyBool ZifyNat ZifyN.

Lemma break_dec l : ~ In 10%N l -> (forall c, In c l -> ~ odd_letter c) -> ~ underline l -> break_start l \/ ~ break_start l.
Proof.
  intros Hl Ho Hu. destruct l as [|c r]. { right. intros H. destruct (break_strong [] H Hl) as (? & ? & X & _). discriminate. }
  destruct (N.eq_dec c 62) as [->|N1]; [left; constructor|].
  destruct (re_search reATXHeadingMarker (c :: r)) eqn:E1. { left. assert (G : re_search reATXHeadingMarker (c :: r) <> None) by congruence. apply atx_iff in G as (n & s & G); [|exact Hl]. eapply break_heading, G. }
  destruct (re_search reCodeFence (c :: r)) eqn:E2. { left. destruct (fence_back (c :: r) Hl) as (d & n & info & G); [congruence|]. eapply break_fence, G. }
  destruct (html_type (c :: r) true) eqn:E3; [left; apply (html_back _ Hl Ho); congruence|].
  destruct (re_test reThematicBreak (c :: r)) eqn:E4; [left; apply break_rule; [apply thematic_iff; assumption|exact Hu]|].
  assert (G : (exists m dt b, list_marker (c :: r) true 0 = Some (m, dt) /\ nth_error (c :: r) (length m) = Some b /\ (b = 32%N \/ b = 9%N) /\ re_test reNonSpace (skipn (length m) (c :: r)) = true) \/ ~ break_start (c :: r)).
  { assert (S : forall P : Prop, (forall m, (forall i, exists dt, list_marker (c :: r) true i = Some (m, dt)) -> (forall x, nth_error (c :: r) (length m) = Some x -> x = TAB \/ x = SP) -> re_test reNonSpace (skipn (length m) (c :: r)) = true -> False) -> ~ break_start (c :: r)).
    { intros _ K H. destruct (break_strong _ H Hl) as (c0 & r0 & E & _ & _ & _ & _ & _ & S1 & S2). injection E as <- <-. destruct S2 as [X|[X|[X|[[_ X]|[X|(m & F1 & F2)]]]]]; try congruence. apply (K m F1 F2). destruct (F1 0) as (dt & F). exact (S1 0 m dt F). }
    destruct (list_marker (c :: r) true 0) as [[m dt]|] eqn:E5.
    - destruct (nth_error (c :: r) (length m)) as [b|] eqn:E6.
      + destruct (N.eq_dec b 32) as [Hb|Nb]; [|destruct (N.eq_dec b 9) as [Hb|Nb']].
        3: { right. apply (S True). intros m' F1 F2 _. destruct (F1 0) as (dt' & F). rewrite E5 in F. injection F as <- <-. destruct (F2 b E6); contradiction. }
        all: destruct (re_test reNonSpace (skipn (length m) (c :: r))) eqn:E7; [left; exists m, dt, b; repeat (split; [auto|]); exact E7|];
          right; apply (S True); intros m' F1 F2 F3; destruct (F1 0) as (dt' & F); rewrite E5 in F; injection F as <- <-; congruence.
      + right. apply (S True). intros m' F1 F2 F3. destruct (F1 0) as (dt' & F). rewrite E5 in F. injection F as <- <-. apply nth_error_None in E6. rewrite skipn_all2 in F3 by exact E6. discriminate.
    - right. apply (S True). intros m' F1 F2 F3. destruct (F1 0) as (dt' & F). rewrite E5 in F. discriminate. }
  destruct G as [(m & dt & b & G1 & G2 & G3 & G4)|G]; [|right; exact G]. left.
  apply nonspace_text in G4. unfold list_marker in G1. destruct (re_search reBulletListMarker (c :: r)) as [m0|] eqn:E.
  - injection G1 as <- _. apply bullet_shape in E as (y & Eg & Hy & El). rewrite Eg in *. rewrite El in G2, G4 |- *. cbn [length skipn nth_error] in *. destruct (rm_after m0) as [|b' t]; [discriminate|]. injection G2 as ->. apply break_bullet; [repeat (destruct Hy as [<-|Hy]; [cbn; tauto|]); destruct Hy|exact G3|apply (text_tail b); assumption].
  - destruct (re_search reOrderedListMarker (c :: r)) as [m0|] eqn:E0; [|discriminate]. apply ordered_shape in E0 as (ds & d & Eg & El & _ & _ & Hd & Ec & _). rewrite Ec in G1. cbn [or_empty negb orb] in G1. destruct (str_eqb ds (u "1")) eqn:Ed; [|discriminate]. apply str_eqb_eq in Ed. subst ds. injection G1 as <- _. rewrite Eg in *. rewrite El in G2, G4 |- *. cbn [u app length skipn nth_error] in *.
    destruct (rm_after m0) as [|b' t]; [discriminate|]. injection G2 as ->. apply (break_number d b t); [destruct Hd as [<-|[<-|[]]]; auto|exact G3|apply (text_tail b); assumption].
Qed.

Lemma flat_nil ls : ls <> [] -> last_opt (lines_text ls) = Some LF.
Proof.
  intros H. destruct ls as [|l ls _] using rev_ind; [contradiction|]. unfold lines_text. rewrite flat_map_app. cbn [flat_map]. rewrite app_nil_r, app_assoc. rewrite last_opt_app by discriminate. reflexivity.
Qed.
Lemma points_lines ls : Forall (Forall code_point) ls -> Forall code_point (lines_text ls).
Proof.
  intros H. apply Forall_forall. intros c Hc. unfold lines_text in Hc. apply in_flat_map in Hc as (l & Hl & Hc). rewrite Forall_forall in H. specialize (H l Hl). rewrite Forall_forall in H. apply in_app_or in Hc as [Hc|[<-|[]]]; [apply H, Hc|unfold code_point; lia].
Qed.

Theorem break_exact smart ls i x d k pd pk d' k' :
  Forall (Forall code_point) ls -> Forall no_eol ls -> Forall code_point x -> no_eol x -> ~ In 9%N x -> (forall c, In c x -> ~ In c [0; 304; 305; 383; 8490]%N) ->
  i <= 3 -> x <> [] -> hd_error x <> Some 32%N -> ~ underline x -> without (u "]:") (lines_text (ls ++ [repeat 32%N i ++ x])) ->
  parse_doc smart (lines_text ls) = Ok (T d (k ++ [T pd pk])) -> n_t pd = paragraph -> last_line pd = length ls ->
  parse_doc smart (lines_text (ls ++ [repeat 32%N i ++ x])) = Ok (T d' k') ->
  (break_start x <-> exists pd', nth_error (map t_data k') (length k) = Some pd' /\ n_t pd' = paragraph /\ last_line pd' = length ls).
Proof.
  intros Hc He Hcx Hx Ht Ho Hi Hne Hsp Hu Hw E1 Hp Hl E2.
  assert (Hls : ls <> []) by (intros ->; apply (none_top smart); exists d, k, pd, pk; auto).
  assert (H10 : ~ In 10%N x) by (intros X; destruct (Hx _ X) as [Y _]; apply Y; reflexivity).
  assert (Hodd : forall c, In c x -> ~ odd_letter c) by (intros c X Y; apply (Ho c X); right; exact Y).
  split.
  - intros Hb. set (l := repeat 32%N i ++ x) in *.
    assert (El : no_eol l) by (intros c Hin; apply in_app_or in Hin as [Hin|Hin]; [apply repeat_spec in Hin; subst; split; discriminate|apply Hx, Hin]).
    assert (Cl : Forall (Forall code_point) [l]). { constructor; [|constructor]. apply Forall_app. split; [|exact Hcx]. apply Forall_forall. intros c Hin. apply repeat_spec in Hin. subst. unfold code_point. lia. }
    assert (Ea : lines_text (ls ++ [l]) = lines_text ls ++ lines_text [l]) by (unfold lines_text; rewrite flat_map_app; reflexivity). rewrite Ea in *.
    assert (Hh : interrupts (hd [] (text_lines (lines_text [l])))). { unfold lines_text. rewrite text_lines_lines; [|constructor; [exact El|constructor]|discriminate]. exists i, x. auto. }
    pose proof (break_tree smart (lines_text ls) (lines_text [l]) d k pd pk (points_lines _ Hc) (points_lines _ Cl) (flat_nil ls Hls) Hw E1 Hp Hh) as G.
    destruct (parse_doc smart (lines_text [l])) as [[db kb]|e]; [|congruence]. destruct G as (d1 & k1 & k2 & G1 & G2 & _). rewrite E2 in G1. injection G1 as -> ->.
    assert (G : exists pd', k1 = k ++ [T pd' pk] /\ n_t pd' = paragraph /\ last_line pd' = length ls).
    { destruct G2 as [->|(h & dd & ks & v & G3 & ->)]; [exists pd; auto|]. apply app_inj_tail in G3 as [-> G3]. injection G3 as -> ->. eexists. split; [reflexivity|]. split; [rewrite <- Hp|rewrite <- Hl]; destruct dd; reflexivity. }
    destruct G as (pd' & -> & P1 & P2). exists pd'. split; [|auto]. rewrite <- app_assoc, !map_app, nth_error_app2 by (rewrite map_length; lia). rewrite map_length, Nat.sub_diag. reflexivity.
  - intros (pd' & G1 & _ & G2). destruct (break_dec x H10 Hodd Hu) as [Hb|Hb]; [exact Hb|]. exfalso.
    assert (Hws : weak_start x). { destruct x as [|c r]; [contradiction|]. apply weak_other; [intros ->; apply Hsp; reflexivity|exact Hb|exact Hu|exact Ho]. }
    destruct (weak_blocks smart ls x i d k pd pk (T d' k') Hc He Hx Ht (or_introl Hws) E1 Hp Hl E2) as (d2 & k2 & X & [Y|(pd2 & Y & _ & Y2)]); injection X as <- <-; rewrite Y in G1.
    + assert (nth_error (map t_data k) (length k) = None) by (apply nth_error_None; rewrite map_length; lia). congruence.
    + rewrite nth_error_app2 in G1 by (rewrite map_length; lia). rewrite map_length, Nat.sub_diag in G1. injection G1 as <-. lia.
Qed.
