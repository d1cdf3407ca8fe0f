(** * What the expressions for headings and fences match *)
From Verif Require Import Base Regex Common Blocks RegexFacts StrFacts Spec SpecTree SpecSame SpecLines RuleFacts.
From Verif Require RegexLang TextFacts.
From Coq Require Import ZifyBool ZifyNat ZifyN.

(** ** First results *)
Lemma skipn_exact {A} (a b : list A) n : n = length a -> skipn n (a ++ b) = b.
Proof. intros ->. rewrite skipn_app, Nat.sub_diag, skipn_all. reflexivity. Qed.
Lemma hd_flat_map {A B} (f : A -> list B) l y : hd_error (flat_map f l) = Some y -> exists x, In x l /\ hd_error (f x) = Some y.
Proof.
  induction l as [|a l IH]; [discriminate|]. cbn [flat_map]. destruct (f a) as [|b m] eqn:E; cbn [app].
  - intros H. destruct (IH H) as (x & Hx & E'). exists x. split; [right; exact Hx|exact E'].
  - intros H. exists a. split; [left; reflexivity|]. rewrite E. exact H.
Qed.
Lemma match_seq a b prev s g q caps : RegexLang.good a = true -> match_at (RSeq a b) prev s = Some (g, q, caps) ->
  exists g1 s1 c1 st, s = g1 ++ s1 /\ RegexLang.L a prev g1 s1 /\ hd_error (results b (MS (prev_of prev g1) s1 c1)) = Some st /\ ms_rest st = q /\ s = g ++ q.
Proof.
  intros Ha H. pose proof (match_at_spec _ _ _ _ _ _ H) as (Es & _). rewrite match_at_results in H. cbn [results] in H.
  destruct (flat_map _ _) as [|st l] eqn:E; [discriminate|]. injection H as _ Hq _.
  assert (Hh : hd_error (flat_map (results b) (results a (MS prev s []))) = Some st) by (rewrite E; reflexivity).
  apply hd_flat_map in Hh as (x & Hx & Hh). pose proof (proj1 (RegexLang.results_L a Ha) _ _ Hx) as (g1 & [R P] & HL). cbn [ms_rest ms_prev] in *.
  exists g1, (ms_rest x), (ms_caps x), st. split; [exact R|]. split; [exact HL|]. split; [|split; [exact Hq|exact Es]].
  unfold prev_of. rewrite <- P. destruct x; exact Hh.
Qed.
Lemma times_chr cs : forall n prev s caps, times_res (results (RChr cs)) n (MS prev s caps) =
  if (Nat.leb n (length s) && forallb (cmatch cs) (firstn n s))%bool then [MS (prev_of prev (firstn n s)) (skipn n s) caps] else [].
Proof.
  induction n as [|n IH]; intros prev s caps; [reflexivity|]. cbn [times_res results ms_rest ms_caps]. destruct s as [|c s]; [reflexivity|]. cbn [length firstn skipn forallb Nat.leb].
  destruct (cmatch cs c); cbn [flat_map andb]; [|rewrite andb_false_r; reflexivity]. rewrite app_nil_r, IH. destruct (_ && _)%bool; [|reflexivity].
  change (c :: firstn n s) with ([c] ++ firstn n s). rewrite prev_of_app. reflexivity.
Qed.
(** A greedy repetition of a class takes the whole run *)
Lemma rep_hd cs mn prev g s caps : mn <= length g -> Forall (fun c => cmatch cs c = true) g -> (forall c, hd_error s = Some c -> cmatch cs c = false) ->
  exists st, hd_error (results (RRep true mn None (RChr cs)) (MS prev (g ++ s) caps)) = Some st /\ ms_rest st = s.
Proof.
  intros Hn Hg Hs.
  change (results (RRep true mn None (RChr cs)) (MS prev (g ++ s) caps)) with (flat_map (fun st' => upto_res (results (RChr cs)) true (length (ms_rest st')) st') (times_res (results (RChr cs)) mn (MS prev (g ++ s) caps))).
  rewrite times_chr. rewrite app_length, firstn_app. replace (mn - length g) with 0 by lia. rewrite (proj2 (Nat.leb_le mn _)) by lia. cbn [firstn]. rewrite app_nil_r.
  assert (Hf : forallb (cmatch cs) (firstn mn g) = true). { apply forallb_forall. intros x Hx. rewrite Forall_forall in Hg. apply Hg. rewrite <- (firstn_skipn mn g). apply in_or_app. left. exact Hx. }
  rewrite Hf. cbn [andb flat_map]. rewrite app_nil_r. cbn zeta. cbn [ms_rest].
  rewrite upto_res_chr by lia. rewrite star_res_hd. eexists. split; [reflexivity|]. cbn [ms_rest].
  rewrite skipn_app. replace (mn - length g) with 0 by lia. cbn [skipn].
  destruct (TextFacts.take_while_app_stop (cmatch cs) (skipn mn g) s) as [_ E]; [|intros c q' ->; apply Hs; reflexivity|exact E].
  apply forallb_forall. intros x Hx. rewrite Forall_forall in Hg. apply Hg. rewrite <- (firstn_skipn mn g). apply in_or_app. right. exact Hx.
Qed.

(** ** Opening number signs *)
Definition atx_end : regex := RAlt (RRep true 1 None (RChr blank_cs)) REol.
Lemma reATX_shape : reATXHeadingMarker = RSeq RBol (RSeq (RRep true 1 (Some 6) (RChr (cs1 35))) atx_end).
Proof. vm_compute. reflexivity. Qed.
Lemma L_atx_end p g q : RegexLang.L atx_end p g q <-> (g <> [] /\ blanks g) \/ (g = [] /\ (q = [] \/ q = [LF])).
Proof.
  unfold atx_end. cbn [RegexLang.L]. fold (RegexLang.L (RRep true 1 None (RChr blank_cs))). split.
  - intros [H|H]; [left|right; exact H]. apply (L_blanks true) in H as [H1 H2]. split; [destruct g; [cbn in H1; lia|discriminate]|exact H2].
  - intros [[H1 H2]|H]; [left|right; exact H]. apply (L_blanks true). split; [destruct g; [congruence|cbn; lia]|exact H2].
Qed.
Lemma split_while_blanks (l : str) : exists w s, l = w ++ s /\ blanks w /\ forall x, hd_error s = Some x -> x <> 32%N /\ x <> 9%N.
Proof.
  induction l as [|c l (w & s & E & Hw & Hx)].
  - exists [], []. split; [reflexivity|]. split; [constructor|discriminate].
  - destruct (N.eq_dec c 32) as [->|H1]; [|destruct (N.eq_dec c 9) as [->|H2]].
    + exists (32%N :: w), s. split; [rewrite E; reflexivity|]. split; [constructor; auto|exact Hx].
    + exists (9%N :: w), s. split; [rewrite E; reflexivity|]. split; [constructor; auto|exact Hx].
    + exists [], (c :: l). split; [reflexivity|]. split; [constructor|]. intros x [= <-]. auto.
Qed.
Lemma hashes_inj n m (a b : str) : repeat 35%N n ++ a = repeat 35%N m ++ b -> hd_error a <> Some 35%N -> hd_error b <> Some 35%N -> n = m /\ a = b.
Proof.
  revert m. induction n as [|n IH]; intros [|m] E Ha Hb; cbn in E.
  - auto.
  - subst a. cbn in Ha. congruence.
  - subst b. cbn in Hb. congruence.
  - injection E as E. destruct (IH m E Ha Hb). auto.
Qed.
Lemma atx_match l n w s : l = repeat 35%N n ++ w ++ s -> 1 <= n <= 6 -> blanks w -> (w = [] -> s = []) -> (forall x, hd_error s = Some x -> x <> 32%N /\ x <> 9%N) -> ~ In 10%N l ->
  exists m, re_search reATXHeadingMarker l = Some m /\ rm_group m = repeat 35%N n ++ w.
Proof.
  intros El Hn Hw Hs Hx Hlf. rewrite reATX_shape, re_search_bol.
  destruct (match_at (RSeq (RRep true 1 (Some 6) (RChr (cs1 35))) atx_end) None l) as [[[g q] caps]|] eqn:E.
  - eexists. split; [reflexivity|]. cbn [rm_group]. apply match_seq in E as (g1 & s1 & c1 & st & E1 & HL & Hh & Hq & E2); [|vm_compute; reflexivity].
    apply RegexLang.L_rep_chr in HL as (L1 & L2 & L3). apply run_repeat in L3. unfold atx_end in Hh. cbn [results] in Hh.
    change (flat_map _ _ ++ _) with (results (RRep true 1 None (RChr blank_cs)) (MS (prev_of None g1) s1 c1) ++ results REol (MS (prev_of None g1) s1 c1)) in Hh. rewrite results_plus in Hh.
    assert (Hws : hd_error (w ++ s) <> Some 35%N). { destruct w as [|y w]; cbn [app hd_error]; [rewrite Hs by reflexivity; discriminate|]. apply Forall_inv in Hw. intros [= ->]. lia. }
    assert (Hs1 : hd_error s1 <> Some 35%N). { destruct s1 as [|y s1]; [discriminate|]. cbn [hd_error]. intros [= ->]. cbn in Hh. destruct s1; discriminate Hh. }
    assert (Hk : length g1 = n /\ s1 = w ++ s). { apply hashes_inj; [|exact Hs1|exact Hws]. rewrite <- L3. congruence. } destruct Hk as [Hk ->].
    assert (Hqs : q = s).
    { rewrite <- Hq. destruct w as [|y w]; cbn [app] in Hh.
      - rewrite Hs in Hh by reflexivity. cbn in Hh. rewrite Hs by reflexivity. injection Hh as <-. reflexivity.
      - rewrite (proj2 (blank_cs_spec y) (Forall_inv Hw)) in Hh. destruct (star_res_nonempty (cmatch blank_cs) (Some y) (w ++ s) c1) as (a & m & Em). pose proof (star_res_hd (cmatch blank_cs) (w ++ s) (Some y) c1) as X. rewrite Em in Hh, X. cbn in Hh, X.
        injection Hh as <-. injection X as ->. cbn [ms_rest]. destruct (TextFacts.take_while_app_stop (cmatch blank_cs) w s) as [_ E]; [| |exact E].
        + apply forallb_forall. intros x Hin. apply blank_cs_spec. exact (proj1 (Forall_forall _ _) (Forall_inv_tail Hw) x Hin).
        + intros c q' ->. destruct (cmatch blank_cs c) eqn:Ec; [|reflexivity]. apply blank_cs_spec in Ec. destruct (Hx c eq_refl). lia. }
    subst q. apply (app_inv_tail s). rewrite <- app_assoc. congruence.
  - exfalso. rewrite RegexLang.match_at_none_L in E by (vm_compute; reflexivity). apply (E (repeat 35%N n ++ w) s); [rewrite <- app_assoc; exact El|].
    cbn [RegexLang.L]. exists (repeat 35%N n), w. split; [reflexivity|]. split.
    + apply (RegexLang.L_rep_chr true 1 (Some 6)). rewrite repeat_length. split; [lia|]. split; [cbn; lia|]. apply run_repeat. rewrite repeat_length. reflexivity.
    + apply L_atx_end. destruct w as [|y w]; [right; auto|left; split; [discriminate|exact Hw]].
Qed.
(** The expression finds a marker exactly on the lines of the specification *)
Theorem atx_iff l : ~ In 10%N l -> re_search reATXHeadingMarker l <> None <-> exists n s, atx_line l n s.
Proof.
  intros Hlf. split.
  - intros H. destruct (re_search reATXHeadingMarker l) as [m|] eqn:E; [|congruence]. apply RegexLang.re_search_L in E as (El & HL); [|vm_compute; reflexivity]. rewrite reATX_shape in HL.
    destruct HL as (g1 & g2 & Eg & [-> Hp] & HL). cbn [app] in Eg. apply prev_of_none in Hp. rewrite Hp in El. cbn [app] in El, HL. rewrite <- Eg in HL. destruct HL as (h & e & Eh & H1 & H2).
    apply RegexLang.L_rep_chr in H1 as (L1 & L2 & L3). apply run_repeat in L3. cbn in L2. apply L_atx_end in H2.
    destruct (split_while_blanks (e ++ rm_after m)) as (w & s & Ews & Hw & Hx). exists (length h), s. split; [lia|]. exists w. split; [|split; [exact Hw|split; [|exact Hx]]].
    + rewrite <- Ews, <- L3, El, Eh, app_assoc. reflexivity.
    + intros ->. cbn [app] in Ews. destruct H2 as [[He Hb]|[-> Hq]].
      * destruct e as [|y e]; [congruence|]. apply Forall_inv in Hb. subst s. destruct (Hx y eq_refl). lia.
      * rewrite <- Ews. cbn [app]. destruct Hq as [Hq|Hq]; [exact Hq|]. exfalso. apply Hlf. rewrite El, Hq. rewrite !in_app_iff. right. left. reflexivity.
  - intros (n & s & Hn & w & El & Hw & Hs & Hx). destruct (atx_match l n w s El Hn Hw Hs Hx Hlf) as (m & -> & _). discriminate.
Qed.
Lemma atx_not_seven n s l : atx_line l n s -> ~ exists r, l = repeat 35%N 7 ++ r.
Proof.
  intros (Hn & w & -> & Hw & Hs & Hx) (r & E). assert (Hh : hd_error (w ++ s) <> Some 35%N). { destruct w as [|y w]; [rewrite Hs by reflexivity; discriminate|]. apply Forall_inv in Hw. cbn. intros [= ->]. lia. }
  assert (G : forall k m, k < m -> repeat 35%N k ++ w ++ s <> repeat 35%N m ++ r).
  { induction k as [|k IH]; intros [|m] Hk; try lia; cbn [repeat app]; [intros X; apply Hh; rewrite X; reflexivity|]. intros [= X]. apply (IH m); [lia|exact X]. }
  apply (G n 7); [lia|exact E].
Qed.
