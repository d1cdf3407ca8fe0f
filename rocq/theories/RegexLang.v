(** * A declarative reading of patterns *)
From Verif Require Import Base Regex RegexFacts StrFacts.
From Coq Require Import ZifyBool ZifyNat ZifyN.

(** [n] repetitions *)
Fixpoint Lrep (B : option N -> str -> str -> Prop) (n : nat) (p : option N) (g q : str) : Prop :=
  match n with
  | O => g = []
  | S n' => exists g1 g2, g = g1 ++ g2 /\ B p g1 (g2 ++ q) /\ Lrep B n' (prev_of p g1) g2 q
  end.
(** [L r p g q]: the pattern matches [g] when the character before it is [p] and the text
    after it is [q] *)
Fixpoint L (r : regex) (p : option N) (g q : str) {struct r} : Prop :=
  match r with
  | REps => g = []
  | RChr cs => exists c, g = [c] /\ cmatch cs c = true
  | RSeq a b => exists g1 g2, g = g1 ++ g2 /\ L a p g1 (g2 ++ q) /\ L b (prev_of p g1) g2 q
  | RAlt a b => L a p g q \/ L b p g q
  | RRep _ mn mx a =>
      exists n, mn <= n /\ match mx with Some M => n <= Nat.max mn M | None => True end /\ Lrep (L a) n p g q
  | RGrp _ a => L a p g q
  | RBol => g = [] /\ p = None
  | RBolM => g = [] /\ (p = None \/ p = Some LF)
  | REol => g = [] /\ (q = [] \/ q = [LF])
  | RLook neg a =>
      g = [] /\ if neg then ~ (exists g' q', q = g' ++ q' /\ L a p g' q')
                else exists g' q', q = g' ++ q' /\ L a p g' q'
  end.

(** ** Agreement with the matcher *)
Fixpoint nullable (r : regex) : bool :=
  match r with
  | RChr _ => false
  | RSeq a b => nullable a && nullable b
  | RAlt a b => nullable a || nullable b
  | RRep _ mn _ a => Nat.eqb mn 0 || nullable a
  | RGrp _ a => nullable a
  | _ => true
  end.
(** bodies of repetitions always consume *)
Fixpoint good (r : regex) : bool :=
  match r with
  | RSeq a b | RAlt a b => good a && good b
  | RRep _ _ _ a => good a && negb (nullable a)
  | RGrp _ a | RLook _ a => good a
  | _ => true
  end.

Lemma Lrep_nonempty (B : option N -> str -> str -> Prop) : (forall p g q, B p g q -> g <> []) -> forall n p g q, Lrep B n p g q -> n <= length g.
Proof.
  intros H. induction n as [|n IH]; intros p g q; cbn [Lrep]; [intros ->; cbn; lia|].
  intros (g1 & g2 & -> & H1 & H2). apply H in H1. apply IH in H2. rewrite app_length. destruct g1; [congruence|cbn; lia].
Qed.
Lemma L_nonempty r : nullable r = false -> forall p g q, L r p g q -> g <> [].
Proof.
  induction r as [|cs|a IHa b IHb|a IHa b IHb|gr mn mx a IHa|n a IHa| | | |neg a IHa]; cbn [nullable]; intros Hn p g q; try discriminate; cbn [L].
  - intros (c & -> & _). discriminate.
  - intros (g1 & g2 & -> & H1 & H2) E. apply app_eq_nil in E as [-> ->]. apply andb_false_iff in Hn as [Hn|Hn]; [eapply IHa|eapply IHb]; eauto.
  - apply orb_false_iff in Hn as [H1 H2]. intros [H|H]; eauto.
  - apply orb_false_iff in Hn as [H1 H2]. intros (n & Hm & _ & H). apply Lrep_nonempty in H; [|intros; eapply IHa; eauto].
    intros ->. cbn in H. destruct mn; [discriminate|lia].
  - intros H. eapply IHa; eauto.
Qed.

Section Step.
  Variable bres : mst -> list mst.
  Variable B : option N -> str -> str -> Prop.
  Hypothesis sound : forall st st', In st' (bres st) -> exists g, eats g st st' /\ B (ms_prev st) g (ms_rest st').
  Lemma times_sound : forall n st st', In st' (times_res bres n st) ->
    exists g, eats g st st' /\ Lrep B n (ms_prev st) g (ms_rest st').
  Proof.
    induction n as [|n IH]; cbn [times_res]; intros st st' Hin.
    - destruct Hin as [<-|[]]. exists []. split; [apply eats_refl|reflexivity].
    - apply in_flat_map in Hin as (x & Hx & Hin). apply sound in Hx as (g1 & E1 & H1). apply IH in Hin as (g2 & E2 & H2).
      exists (g1 ++ g2). split; [eapply eats_trans; eassumption|]. cbn [Lrep]. exists g1, g2. split; [reflexivity|].
      destruct E1 as [R1 P1]. destruct E2 as [R2 P2]. rewrite <- R2. split; [exact H1|]. unfold prev_of. rewrite <- P1. exact H2.
  Qed.
  Lemma upto_sound gr : forall n st st', In st' (upto_res bres gr n st) ->
    exists k g, k <= n /\ eats g st st' /\ Lrep B k (ms_prev st) g (ms_rest st').
  Proof.
    assert (H0 : forall n (st : mst), exists k g, k <= n /\ eats g st st /\ Lrep B k (ms_prev st) g (ms_rest st)).
    { intros n st. exists 0, []. split; [lia|]. split; [apply eats_refl|reflexivity]. }
    induction n as [|n IH]; cbn [upto_res]; intros st st' Hin.
    - destruct Hin as [<-|[]]. apply H0.
    - assert (Hmore : In st' (flat_map (fun st' => if shorter st' st then upto_res bres gr n st' else []) (bres st)) ->
                exists k g, k <= S n /\ eats g st st' /\ Lrep B k (ms_prev st) g (ms_rest st')).
      { intros Hm. apply in_flat_map in Hm as (x & Hx & Hm). destruct (shorter x st); [|destruct Hm].
        apply sound in Hx as (g1 & E1 & H1). apply IH in Hm as (k & g2 & Hk & E2 & H2).
        exists (S k), (g1 ++ g2). split; [lia|]. split; [eapply eats_trans; eassumption|]. cbn [Lrep]. exists g1, g2. split; [reflexivity|].
        destruct E1 as [R1 P1]. destruct E2 as [R2 P2]. rewrite <- R2. split; [exact H1|]. unfold prev_of. rewrite <- P1. exact H2. }
      destruct gr.
      + apply in_app_or in Hin as [Hin|[<-|[]]]; [auto|apply H0].
      + destruct Hin as [<-|Hin]; [apply H0|auto].
  Qed.
  Hypothesis complete : forall p g q caps, B p g q -> exists st', In st' (bres (MS p (g ++ q) caps)) /\ ms_rest st' = q.
  Hypothesis nonempty : forall p g q, B p g q -> g <> [].
  Lemma complete' p g q caps : B p g q -> exists caps', In (MS (prev_of p g) q caps') (bres (MS p (g ++ q) caps)).
  Proof.
    intros H. destruct (complete p g q caps H) as (st' & Hin & E). destruct (sound _ _ Hin) as (g' & [R P] & _). cbn in R, P.
    rewrite E in R. apply app_inv_tail in R as <-. destruct st' as [p' q' c']. cbn in E, P. subst q'. exists c'.
    unfold prev_of. rewrite <- P. exact Hin.
  Qed.
  Lemma times_complete : forall n p g q caps, Lrep B n p g q ->
    exists caps', In (MS (prev_of p g) q caps') (times_res bres n (MS p (g ++ q) caps)).
  Proof.
    induction n as [|n IH]; cbn [Lrep times_res]; intros p g q caps H.
    - subst g. exists caps. left. reflexivity.
    - destruct H as (g1 & g2 & -> & H1 & H2). destruct (complete' p g1 (g2 ++ q) caps H1) as (c1 & Hin1).
      destruct (IH _ _ _ c1 H2) as (c2 & Hin2). exists c2. rewrite <- app_assoc, prev_of_app. apply in_flat_map. eexists. split; eassumption.
  Qed.
  Lemma upto_complete gr : forall k n p g q caps, k <= n -> Lrep B k p g q ->
    exists caps', In (MS (prev_of p g) q caps') (upto_res bres gr n (MS p (g ++ q) caps)).
  Proof.
    induction k as [|k IH]; cbn [Lrep]; intros n p g q caps Hk H.
    - subst g. exists caps. cbn [app prev_of last_opt]. destruct n; cbn [upto_res]; [left; reflexivity|].
      destruct gr; [apply in_or_app; right; left; reflexivity|left; reflexivity].
    - destruct n as [|n]; [lia|]. destruct H as (g1 & g2 & -> & H1 & H2). destruct (complete' p g1 (g2 ++ q) caps H1) as (c1 & Hin1).
      destruct (IH n _ _ _ c1 ltac:(lia) H2) as (c2 & Hin2). exists c2. cbn [upto_res].
      assert (Hm : In (MS (prev_of p (g1 ++ g2)) q c2) (flat_map (fun st' => if shorter st' (MS p ((g1 ++ g2) ++ q) caps) then upto_res bres gr n st' else []) (bres (MS p ((g1 ++ g2) ++ q) caps)))).
      { rewrite <- app_assoc, prev_of_app. apply in_flat_map. eexists. split; [exact Hin1|].
        unfold shorter. cbn [ms_rest]. apply nonempty in H1. rewrite (app_length g1). destruct g1 as [|c g1]; [congruence|].
        replace (Nat.ltb _ _) with true by (symmetry; apply Nat.ltb_lt; cbn [length]; lia). exact Hin2. }
      destruct gr; [apply in_or_app; left; exact Hm|right; exact Hm].
  Qed.
End Step.

Lemma Lrep_app B : forall a b p g h q, Lrep B a p g (h ++ q) -> Lrep B b (prev_of p g) h q -> Lrep B (a + b) p (g ++ h) q.
Proof.
  induction a as [|a IH]; cbn [Lrep]; intros b p g h q H1 H2.
  - subst g. exact H2.
  - destruct H1 as (g1 & g2 & -> & H1 & H3). exists g1, (g2 ++ h). rewrite <- app_assoc. split; [reflexivity|]. split; [rewrite <- app_assoc; exact H1|].
    apply IH; [exact H3|]. rewrite <- prev_of_app. exact H2.
Qed.
Lemma Lrep_split B : forall a b p g q, Lrep B (a + b) p g q ->
  exists g1 g2, g = g1 ++ g2 /\ Lrep B a p g1 (g2 ++ q) /\ Lrep B b (prev_of p g1) g2 q.
Proof.
  induction a as [|a IH]; cbn [Lrep Nat.add]; intros b p g q H.
  - exists [], g. split; [reflexivity|]. split; [reflexivity|exact H].
  - destruct H as (g1 & g2 & -> & H1 & H2). apply IH in H2 as (h1 & h2 & -> & H2 & H3).
    exists (g1 ++ h1), h2. split; [rewrite app_assoc; reflexivity|]. split; [|rewrite prev_of_app; exact H3].
    exists g1, h1. split; [reflexivity|]. split; [|exact H2]. rewrite app_assoc. exact H1.
Qed.

Definition sound_for r := forall st st', In st' (results r st) -> exists g, eats g st st' /\ L r (ms_prev st) g (ms_rest st').
Definition complete_for r := forall p g q caps, L r p g q -> exists st', In st' (results r (MS p (g ++ q) caps)) /\ ms_rest st' = q.
Lemma results_L r : good r = true -> sound_for r /\ complete_for r.
Proof.
  unfold sound_for, complete_for.
  induction r as [|cs|a IHa b IHb|a IHa b IHb|gr mn mx a IHa|n a IHa| | | |neg a IHa]; cbn [good]; intros Hg.
  - split; [intros st st' [<-|[]]; exists []; split; [apply eats_refl|reflexivity]|].
    intros p g q caps H. cbn in H. subst g. eexists. split; [left; reflexivity|reflexivity].
  - split.
    + intros st st' Hin. cbn [results] in Hin. destruct (ms_rest st) as [|c s] eqn:E; [destruct Hin|]. destruct (cmatch cs c) eqn:Ec; [|destruct Hin].
      destruct Hin as [<-|[]]. exists [c]. split; [split; [exact E|reflexivity]|]. exists c. auto.
    + intros p g q caps (c & -> & Hc). cbn. rewrite Hc. eexists. split; [left; reflexivity|reflexivity].
  - apply andb_prop in Hg as [Ha Hb]. destruct (IHa Ha) as [Sa Ca]. destruct (IHb Hb) as [Sb Cb]. split.
    + intros st st' Hin. cbn [results] in Hin. apply in_flat_map in Hin as (x & Hx & Hin).
      apply Sa in Hx as (g1 & E1 & H1). apply Sb in Hin as (g2 & E2 & H2).
      exists (g1 ++ g2). split; [eapply eats_trans; eassumption|]. exists g1, g2. split; [reflexivity|].
      destruct E1 as [R1 P1]. destruct E2 as [R2 P2]. rewrite <- R2. split; [exact H1|]. unfold prev_of. rewrite <- P1. exact H2.
    + intros p g q caps (g1 & g2 & -> & H1 & H2). cbn [results].
      destruct (complete' _ _ Sa Ca _ _ _ caps H1) as (c1 & Hin1). destruct (Cb _ _ _ c1 H2) as (st & Hin2 & E).
      exists st. split; [|exact E]. rewrite <- app_assoc. apply in_flat_map. eexists. split; eassumption.
  - apply andb_prop in Hg as [Ha Hb]. destruct (IHa Ha) as [Sa Ca]. destruct (IHb Hb) as [Sb Cb]. split.
    + intros st st' Hin. cbn [results] in Hin. apply in_app_or in Hin as [Hin|Hin]; [apply Sa in Hin|apply Sb in Hin]; destruct Hin as (g & E & H); exists g; cbn [L]; auto.
    + intros p g q caps [H|H]; [apply (Ca _ _ _ caps) in H|apply (Cb _ _ _ caps) in H]; destruct H as (st & Hin & E); exists st; cbn [results]; split; auto; apply in_or_app; auto.
  - apply andb_prop in Hg as [Ha Hn]. apply negb_true_iff in Hn. destruct (IHa Ha) as [Sa Ca]. pose proof (L_nonempty a Hn) as Na. split.
    + intros st st' Hin. cbn [results] in Hin. apply in_flat_map in Hin as (x & Hx & Hin).
      apply (times_sound _ _ Sa) in Hx as (g1 & E1 & H1). apply (upto_sound _ _ Sa) in Hin as (k & g2 & Hk & E2 & H2).
      exists (g1 ++ g2). split; [eapply eats_trans; eassumption|]. exists (mn + k). split; [lia|]. split; [destruct mx; [lia|exact I]|].
      destruct E1 as [R1 P1]. destruct E2 as [R2 P2]. apply Lrep_app; [rewrite <- R2; exact H1|]. unfold prev_of. rewrite <- P1. exact H2.
    + intros p g q caps (n & Hm & HM & H). cbn [results]. replace n with (mn + (n - mn)) in H by lia.
      apply Lrep_split in H as (g1 & g2 & -> & H1 & H2). destruct (times_complete _ _ Sa Ca _ _ _ _ caps H1) as (c1 & Hin1).
      assert (Hlen : n - mn <= length g2) by (eapply Lrep_nonempty; eauto).
      destruct (upto_complete _ _ Sa Ca Na gr (n - mn) (match mx with Some M => Nat.min (M - mn) (length (g2 ++ q)) | None => length (g2 ++ q) end) (prev_of p g1) g2 q c1) as (c2 & Hin2); [|exact H2|].
      { rewrite app_length. destruct mx; lia. }
      exists (MS (prev_of (prev_of p g1) g2) q c2). split; [|reflexivity]. rewrite <- app_assoc. apply in_flat_map. eexists. split; [exact Hin1|exact Hin2].
  - destruct (IHa Hg) as [Sa Ca]. split.
    + intros st st' Hin. cbn [results] in Hin. apply in_map_iff in Hin as (x & <- & Hx). apply Sa in Hx as (g & [R P] & H).
      exists g. split; [split; [exact R|exact P]|exact H].
    + intros p g q caps H. cbn [L] in H. destruct (Ca _ _ _ caps H) as (st & Hin & E). cbn [results]. eexists. split; [apply in_map; exact Hin|exact E].
  - split.
    + intros st st' Hin. cbn [results] in Hin. destruct (ms_prev st) eqn:E; [destruct Hin|]. destruct Hin as [<-|[]]. exists []. split; [apply eats_refl|]. cbn. auto.
    + intros p g q caps [-> ->]. cbn. eexists. split; [left; reflexivity|reflexivity].
  - split.
    + intros st st' Hin. cbn [results] in Hin. destruct (ms_prev st) as [c|] eqn:E.
      * destruct (N.eqb_spec c LF) as [->|]; [|destruct Hin]. destruct Hin as [<-|[]]. exists []. split; [apply eats_refl|]. cbn. auto.
      * destruct Hin as [<-|[]]. exists []. split; [apply eats_refl|]. cbn. auto.
    + intros p g q caps [-> [->| ->]]; cbn; eexists; (split; [left; reflexivity|reflexivity]).
  - split.
    + intros st st' Hin. cbn [results] in Hin. destruct (ms_rest st) as [|c [|c2 s]] eqn:E.
      * destruct Hin as [<-|[]]. exists []. split; [apply eats_refl|]. cbn. auto.
      * destruct (N.eqb_spec c LF) as [->|]; [|destruct Hin]. destruct Hin as [<-|[]]. exists []. split; [apply eats_refl|]. cbn. rewrite E. auto.
      * destruct Hin.
    + intros p g q caps [-> [->| ->]]; cbn; eexists; (split; [left; reflexivity|reflexivity]).
  - destruct (IHa Hg) as [Sa Ca].
    assert (Hiff : forall p q caps, results a (MS p q caps) <> [] <-> exists g' q', q = g' ++ q' /\ L a p g' q').
    { intros p q caps. split.
      - intros Hne. destruct (results a (MS p q caps)) as [|st l] eqn:E; [congruence|].
        assert (Hin : In st (results a (MS p q caps))) by (rewrite E; left; reflexivity).
        apply Sa in Hin as (g & [R _] & H). cbn in R, H. exists g, (ms_rest st). auto.
      - intros (g' & q' & -> & H). apply (Ca _ _ _ caps) in H as (st & Hin & _). intros E. rewrite E in Hin. destruct Hin. }
    split.
    + intros st st' Hin. destruct st as [p q caps]. cbn [results] in Hin. specialize (Hiff p q caps).
      destruct (results a (MS p q caps)) as [|x l] eqn:E; destruct neg; try (destruct Hin; fail); destruct Hin as [<-|[]]; exists []; (split; [apply eats_refl|]); (split; [reflexivity|]); cbn [ms_prev ms_rest].
      * intros H. apply Hiff in H. congruence.
      * apply Hiff. discriminate.
    + intros p g q caps [-> H]. cbn [results app]. specialize (Hiff p q caps). destruct (results a (MS p q caps)) as [|x l] eqn:E; destruct neg; try (eexists; split; [left; reflexivity|reflexivity]); exfalso.
      * apply Hiff in H. congruence.
      * apply H, Hiff. discriminate.
Qed.

(** ** Consequences for the functions of the [re] module *)
Lemma match_at_L r prev s g a caps : good r = true -> match_at r prev s = Some (g, a, caps) -> s = g ++ a /\ L r prev g a.
Proof.
  intros Hg H. apply match_at_spec in H as (E & st & Hst & Ha & _ & [R P]). split; [exact E|].
  assert (Hin : In st (results r (MS prev s []))) by (destruct (results r _); [discriminate|]; injection Hst as ->; left; reflexivity).
  apply (proj1 (results_L r Hg)) in Hin as (g' & [R' _] & H). cbn [ms_prev ms_rest] in *. subst a. rewrite R in R'. apply app_inv_tail in R' as <-. exact H.
Qed.
Lemma match_at_none_L r prev s : good r = true -> match_at r prev s = None <-> (forall g a, s = g ++ a -> ~ L r prev g a).
Proof.
  intros Hg. rewrite match_at_none. split.
  - intros E g a -> H. apply (proj2 (results_L r Hg) _ _ _ []) in H as (st & Hin & _). rewrite E in Hin. destruct Hin.
  - intros H. destruct (results r (MS prev s [])) as [|st l] eqn:E; [reflexivity|].
    assert (Hin : In st (results r (MS prev s []))) by (rewrite E; left; reflexivity).
    apply (proj1 (results_L r Hg)) in Hin as (g' & [R' _] & HL). cbn in *. exfalso. eapply H; eauto.
Qed.
Lemma match_at_exists r prev g a : good r = true -> L r prev g a -> exists x, match_at r prev (g ++ a) = Some x.
Proof.
  intros Hg H. destruct (match_at r prev (g ++ a)) as [x|] eqn:E; [eauto|]. exfalso. rewrite (match_at_none_L r prev _ Hg) in E. eapply E; eauto.
Qed.
Lemma re_search_L r s m : good r = true -> re_search r s = Some m ->
  s = rm_before m ++ rm_group m ++ rm_after m /\ L r (prev_of None (rm_before m)) (rm_group m) (rm_after m).
Proof.
  intros Hg H. apply re_search_some in H as (E & Hm & _). split; [exact E|]. apply match_at_L in Hm as [_ H]; [exact H|exact Hg].
Qed.
Lemma re_test_L r s : good r = true ->
  re_test r s = true <-> exists p g q, s = p ++ g ++ q /\ L r (prev_of None p) g q.
Proof.
  intros Hg. unfold re_test. split.
  - destruct (re_search r s) as [m|] eqn:E; [|discriminate]. intros _. apply re_search_L in E as [E H]; [|exact Hg]. eauto.
  - intros (p & g & q & E & H). destruct (re_search r s) as [m|] eqn:Es; [reflexivity|]. rewrite re_search_none in Es.
    apply (match_at_exists r _ _ _ Hg) in H as [x H]. rewrite (Es p (g ++ q) E) in H. discriminate.
Qed.

(** Repeating a character class *)
Lemma Lrep_chr cs : forall n p g q, Lrep (L (RChr cs)) n p g q <-> length g = n /\ Forall (fun c => cmatch cs c = true) g.
Proof.
  induction n as [|n IH]; intros p g q; cbn [Lrep].
  - split; [intros ->; split; [reflexivity|constructor]|]. intros [H _]. destruct g; [reflexivity|discriminate].
  - split.
    + intros (g1 & g2 & -> & (c & -> & Hc) & H). apply IH in H as [H1 H2]. split; [cbn; lia|constructor; assumption].
    + intros [H1 H2]. destruct g as [|c g]; [discriminate|]. inversion H2; subst. exists [c], g. split; [reflexivity|]. split; [exists c; auto|].
      apply IH. split; [cbn in H1; lia|assumption].
Qed.
Lemma L_rep_chr gr mn mx cs p g q : L (RRep gr mn mx (RChr cs)) p g q <->
  mn <= length g /\ match mx with Some M => length g <= Nat.max mn M | None => True end /\ Forall (fun c => cmatch cs c = true) g.
Proof.
  cbn [L]. split.
  - intros (n & H1 & H2 & H3). apply Lrep_chr in H3 as [<- H3]. auto.
  - intros (H1 & H2 & H3). exists (length g). split; [exact H1|]. split; [exact H2|]. apply Lrep_chr. auto.
Qed.
Lemma Forall_cmatch cs (P : N -> Prop) g : (forall c, cmatch cs c = true -> P c) -> Forall (fun c => cmatch cs c = true) g -> Forall P g.
Proof. intros H. apply Forall_impl. exact H. Qed.
