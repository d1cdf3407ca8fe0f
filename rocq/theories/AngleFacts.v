(** * What the autolink patterns match lies between angle brackets *)
From Verif Require Import Base Regex Common Inlines RegexFacts StrFacts CommonFacts StrProp RegexLang.
From Coq Require Import ZifyBool ZifyNat ZifyN.

Definition angled (m : str) : Prop := m = 60%N :: chop_ends m ++ [62%N].
Lemma angled_intro x : angled (60%N :: x ++ [62%N]).
Proof. unfold angled, chop_ends. cbn [tl]. rewrite removelast_last. reflexivity. Qed.

Lemma chr_ic x c : (x < 65)%N \/ (90 < x < 97)%N \/ (122 < x < 128)%N -> cmatch (CS false true [CRange x x]) c = true -> c = x.
Proof. intros Hx H. rewrite icase_nonletter in H by exact Hx. lia. Qed.
Lemma chr_plain x c : cmatch (CS false false [CRange x x]) c = true -> c = x.
Proof. unfold cmatch. cbn [cs_neg cs_icase cs_items existsb xorb]. unfold item_match. rewrite orb_false_r. destruct (in_range x x c) eqn:E; [|discriminate]. unfold in_range in E. lia. Qed.

Lemma autolink_angled m p q : L reAutolink p m q -> angled m.
Proof.
  intros H. change reAutolink with (ltac:(let r := eval vm_compute in reAutolink in exact r)) in H. cbn [L] in H.
  destruct H as (g0 & g1 & -> & (-> & _) & H). destruct H as (g2 & g3 & -> & (c & -> & Hc) & H).
  destruct H as (g4 & g5 & -> & _ & H). destruct H as (g6 & g7 & -> & _ & H). destruct H as (g8 & g9 & -> & _ & H). destruct H as (g10 & g11 & -> & _ & (d & -> & Hd)).
  apply chr_ic in Hc as ->; [|lia]. apply chr_ic in Hd as ->; [|lia]. cbn [app]. rewrite !app_assoc. apply angled_intro.
Qed.
Lemma email_angled m p q : L reEmailAutolink p m q -> angled m.
Proof.
  intros H. change reEmailAutolink with (ltac:(let r := eval vm_compute in reEmailAutolink in exact r)) in H. cbn [L] in H.
  destruct H as (g0 & g1 & -> & (-> & _) & H). destruct H as (g2 & g3 & -> & (c & -> & Hc) & H).
  destruct H as (g4 & g5 & -> & _ & (d & -> & Hd)).
  apply chr_plain in Hc as ->. apply chr_plain in Hd as ->. cbn [app]. apply angled_intro.
Qed.
Lemma ip_match_L r s m s1 : good r = true -> ip_match r s = Some (m, s1) -> exists p q, L r p m q.
Proof.
  unfold ip_match. intros Hg H. destruct (re_search r _) as [x|] eqn:E; [|discriminate]. injection H as <- _.
  apply re_search_L in E as [_ E]; [|exact Hg]. eauto.
Qed.
(** characters that no part of a pattern matches *)
Fixpoint never (c : N) (r : regex) : bool :=
  match r with
  | RChr cs => negb (cmatch cs c)
  | RSeq a b | RAlt a b => never c a && never c b
  | RRep _ _ _ a | RGrp _ a => never c a
  | _ => true
  end.
Lemma never_rep c (B : option N -> str -> str -> Prop) : (forall p g q, B p g q -> ~ In c g) -> forall n p g q, Lrep B n p g q -> ~ In c g.
Proof.
  intros HB. induction n as [|n IH]; intros p g q H; cbn [Lrep] in H; [subst g; intros []|]. destruct H as (g1 & g2 & -> & H1 & H2). rewrite in_app_iff. intros [X|X]; [eapply HB; eauto|eapply IH; eauto].
Qed.
Lemma never_in c r : never c r = true -> forall p g q, L r p g q -> ~ In c g.
Proof.
  induction r as [|cs|a IHa b IHb|a IHa b IHb|g mn mx a IHa|n a IHa| | | |neg a IHa]; cbn [never L]; intros Hn p g0 q H; try (subst g0; intros []); try (destruct H as [-> _]; intros []).
  - destruct H as (x & -> & Hx). intros [->|[]]. rewrite Hx in Hn. discriminate.
  - apply andb_prop in Hn as [N1 N2]. destruct H as (g1 & g2 & -> & H1 & H2). rewrite in_app_iff. intros [X|X]; [eapply IHa; eauto|eapply IHb; eauto].
  - apply andb_prop in Hn as [N1 N2]. destruct H as [H|H]; eauto.
  - destruct H as (k & _ & _ & H). eapply never_rep; [|exact H]. intros p' g' q'. apply IHa, Hn.
  - eauto.
Qed.
(** [<dest>] stands in [s] and [dest] holds no space and no line feed *)
Definition angle_word (dest s : str) : Prop := infix (60%N :: dest ++ [62%N]) s /\ ~ In SP dest /\ ~ In LF dest.
Lemma angle_word_intro m s : angled m -> ~ In SP m -> ~ In LF m -> infix m s -> angle_word (chop_ends m) s.
Proof.
  unfold angled. intros E H1 H2 H3. split; [rewrite <- E; exact H3|]. rewrite E in H1, H2. split; intros X; [apply H1|apply H2]; right; apply in_or_app; auto.
Qed.
Lemma autolink_match s m s1 : ip_match reAutolink s = Some (m, s1) -> infix m (ip_subject s) -> angle_word (chop_ends m) (ip_subject s).
Proof.
  intros H Hi. apply ip_match_L in H as (p & q & H); [|vm_compute; reflexivity]. apply angle_word_intro; [eapply autolink_angled, H|..|exact Hi];
  (eapply never_in; [|exact H]; vm_compute; reflexivity).
Qed.
Lemma email_match s m s1 : ip_match reEmailAutolink s = Some (m, s1) -> infix m (ip_subject s) -> angle_word (chop_ends m) (ip_subject s).
Proof.
  intros H Hi. apply ip_match_L in H as (p & q & H); [|vm_compute; reflexivity]. apply angle_word_intro; [eapply email_angled, H|..|exact Hi];
  (eapply never_in; [|exact H]; vm_compute; reflexivity).
Qed.
